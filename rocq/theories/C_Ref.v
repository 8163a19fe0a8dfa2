(** * C43: every timezone reference in a written calendar is defined *)
From Verif Require Import M_Base M_Text M_Line M_Codec M_Cal M_Time M_Span M_Dt M_Tree M_Comp.
From Verif Require Import S_Tree S_Comp S_Store S_Ref S_Toy P_Ref P_StoreEx P_Calendar P_CalendarEx.
Open Scope N_scope.

(** C43. Every TZID on a property of a written calendar is the identifier of the zone of
    some value of the calendar; exactly one part of the calendar defines it; that part is
    the zone's VTIMEZONE and no event or todo comes before it. The calendar's unknown
    properties and parameters must not mention zones themselves. *)
Theorem C43_defined : forall X c it, zone_writer X -> clean_calendar c -> dump_calendar X c = Ok it ->
  exists its, it = ICont (py "VCALENDAR") its /\
    forall id, In id (refs it) -> exists z z', calendar_uses X c id z z' /\
      exists t, x_tz_dump X z' = Ok t /\ defined_once id its t.
Proof. exact calendar_refs. Qed.
Print Assumptions C43_defined.
(** If different zones of the calendar have different identifiers, what is defined is the
    zone that each value with this reference had. *)
Theorem C43_zone : forall X c it, zone_writer X -> clean_calendar c -> distinct_zones X c -> dump_calendar X c = Ok it ->
  exists its, it = ICont (py "VCALENDAR") its /\
    forall id z z', calendar_uses X c id z z' -> In id (refs it) -> exists t, x_tz_dump X z' = Ok t /\ defined_once id its t.
Proof. exact calendar_zone. Qed.
Print Assumptions C43_zone.
Example C43_example : zone_writer toy /\ clean_calendar ex_calendar /\ distinct_zones toy ex_calendar /\
  exists it, dump_calendar toy ex_calendar = Ok it /\ refs it = [py "Z1"; py "Z1"] /\
    calendar_uses toy ex_calendar (py "Z1") (TzObj 1) (TzObj 1).
Proof.
  split; [exact toy_writer|]. split; [exact ex_calendar_clean|]. split; [apply ex_zones_stored|].
  eexists. split; [vm_compute; reflexivity|]. split; [vm_compute; reflexivity|].
  right. exists (py "events"), [ex_event], ex_event. split; [reflexivity|]. split; [now left|]. left.
  exists (py "timespan"). eexists. exists (ex_at 9 (Some (TzObj 1))). split; [reflexivity|]. split; [now left|]. split; [reflexivity|]. split; reflexivity.
Qed.

(** C43, findings. Two zones with the same identifier: only the first is written, and the
    values of the second refer to it. *)
Definition clash_zdb : zone_db :=
  mk_zdb (z_is_utc toy_zdb) (fun z => Ok (Some (py "Z", z))) (z_from_tzid toy_zdb) (z_gettz toy_zdb) (z_utc toy_zdb).
Definition clash : ext :=
  mk_ext toy_env clash_zdb (TzObj 0) (x_urlparse toy) (x_geturl toy) (x_float toy) (x_ffmt toy) (x_uid toy) (x_now toy)
    (fun its => match its with [ILine a; ILine b] => Ok (cl_value a, toy_zone (cl_value b)) | _ => Err ValueError end)
    (fun z => Ok (ICont (py "VTIMEZONE") [line (py "TZID") (py "Z"); line (py "X-N") (toy_id z)])).
Definition C43_event (n : N) : entry :=
  set_attrs (dict_set (py "timespan") (AOne (VSpan (mk_ts KEvent (Some (ex_at 9 (Some (TzObj n)))) None None PSecond)))
    (c_attrs (new_comp clash alarm CEvent))) (new_comp clash alarm CEvent).
Definition C43_two : calendar :=
  set_mem [(py "events", [C43_event 1; C43_event 2]); (py "todos", [])] (new_comp clash entry CCalendar).
Theorem C43_clash_refuted : zone_writer clash /\ calendar_uses clash C43_two (py "Z") (TzObj 2) (TzObj 2) /\
  exists its t, dump_calendar clash C43_two = Ok (ICont (py "VCALENDAR") its) /\ x_tz_dump clash (TzObj 2) = Ok t /\
    In (py "Z") (refs (ICont (py "VCALENDAR") its)) /\ ~ In t its.
Proof.
  split; [|split].
  - intros id z z' t H1 H2. assert (E : id = py "Z") by (change (Ok (Some (py "Z", z)) = Ok (Some (id, z'))) in H1; now injection H1 as <- <-).
    subst id. injection H2 as <-. split; [now eexists|]. intro i. split.
    + intros (its & p & E & I). injection E as <-. destruct I as [I|[I|[]]]; [|discriminate]. injection I as <- E.
      change (py "Z") with (M_Text.text_serialize (py "Z")) in E. now apply P_Text.text_serialize_inj in E.
    + intros ->. eexists. exists []. split; [reflexivity|]. now left.
  - right. exists (py "events"). eexists. exists (C43_event 2). split; [reflexivity|]. split; [right; now left|]. left.
    exists (py "timespan"). eexists. exists (ex_at 9 (Some (TzObj 2))). split; [reflexivity|]. split; [now left|]. split; [reflexivity|]. split; reflexivity.
  - eexists. eexists. split; [vm_compute; reflexivity|]. split; [reflexivity|]. split; [vm_compute; tauto|]. vm_compute. intuition discriminate.
Qed.
Print Assumptions C43_clash_refuted.
(** A property the library does not know keeps its TZID, but its zone is dropped on
    reading: the calendar is written without the definition it was read with. *)
Definition C43_text : list item :=
  [line (py "VERSION") (py "2.0"); line (py "PRODID") (py "x"); ICont (py "VTIMEZONE") [line (py "TZID") (py "Z5")];
   ICont (py "VEVENT") [line (py "UID") (py "1"); line (py "DTSTART") (py "20200101T090000");
     ILine (mk_line (py "EXDATE") [(py "TZID", [PRaw (py "Z5")])] (py "20200102T090000"))]].
Theorem C43_unknown_refuted : exists c its,
  load_calendar toy (py "VCALENDAR") C43_text = Ok c /\ dump_calendar toy c = Ok (ICont (py "VCALENDAR") its) /\
  In (py "Z5") (refs (ICont (py "VCALENDAR") its)) /\ Forall (fun it => ~ zone_part it) its.
Proof.
  eexists. eexists. split; [vm_compute; reflexivity|]. split; [vm_compute; reflexivity|]. split; [vm_compute; tauto|].
  repeat constructor; intros [s E]; discriminate.
Qed.
Print Assumptions C43_unknown_refuted.
