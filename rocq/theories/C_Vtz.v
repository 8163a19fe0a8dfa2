(** * Recurrence sets and time zone definitions (C49-C51) *)
From Verif Require Import M_Base M_Text M_Line M_Codec M_Cal M_Time M_Span M_Dt M_Fold M_Tree M_Comp M_Open M_Serial M_Rrule M_Zone M_Vtz.
From Verif Require Import S_Text S_Codec S_Line S_Fold S_Dt S_Tree S_Comp S_Store S_Ref S_Wire S_Vtz S_Toy.
From Verif Require Import P_StoreEx P_CalendarEx P_Rrule P_Vtz P_Vtz2 P_VtzEx P_VtzCal.
Open Scope Z_scope.

(** ** C49. A recurrence set with something in it and one start for all its rules is read
    back with the same rules and dates and, as a further date, the start. *)
Theorem C49_roundtrip : forall rule_parse date_parse rs, reads_dates date_parse -> storable_rules rule_parse rs ->
  exists ls rs', write_rules rs None = Ok ls /\ read_rules rule_parse date_parse (Some ls) = Ok rs' /\ rules_back rs rs'.
Proof. intros rule_parse date_parse rs H. exact (rules_round rule_parse date_parse H rs). Qed.
Print Assumptions C49_roundtrip.
(** What was read is read back as it is. *)
Theorem C49_again : forall rule_parse date_parse rs rs', reads_dates date_parse -> storable_rules rule_parse rs -> rules_back rs rs' ->
  exists ls, write_rules rs' None = Ok ls /\ read_rules rule_parse date_parse (Some ls) = Ok rs'.
Proof. intros rule_parse date_parse rs rs' H. exact (rules_again rule_parse date_parse H rs rs'). Qed.
Print Assumptions C49_again.
(** The times of the set are the same, and starts that are not excluded. *)
Theorem C49_times : forall occurs rs rs' t, rules_back rs rs' ->
  (onset_of occurs rs' t <-> onset_of occurs rs t \/ starts rs t /\ ~ excluded occurs rs t).
Proof. exact onset_back. Qed.
Print Assumptions C49_times.
Theorem C49_times_same : forall occurs rs rs' t, rules_back rs rs' -> starts_count occurs rs ->
  (onset_of occurs rs' t <-> onset_of occurs rs t).
Proof. exact onset_same. Qed.
Print Assumptions C49_times_same.
Example C49_example : reads_dates vx_date /\ storable_rules vx_rule vx_set_s /\
  starts_count (fun r t => r_start r = Some t) vx_set_s /\
  match write_rules vx_set_s None with
  | Ok ls => map (fun l => (cl_name l, cl_value l)) ls =
      [(py "DTSTART", py "19960331T020000"); (py "RRULE", py "FREQ=YEARLY;BYMONTH=3;BYDAY=-1SU");
       (py "RDATE", py "19800406T020000"); (py "RDATE", py "19960331T020000")] /\
      read_rules vx_rule vx_date (Some ls) = Ok (mk_set [vx_rule_s] [] [vx_extra; vx_summer] [])
  | Err _ => False
  end.
Proof.
  split; [exact vx_reads|]. split; [exact vx_set_s_ok|]. split; [|vm_compute; split; reflexivity].
  intros t (r & [<-|[]] & E). left. split; [right; exists vx_rule_s; split; [now left|exact E]|]. intros [[]|(r & [] & _)].
Qed.
(** A start that is not one of the times of the rules becomes one by writing and reading. *)
Definition C49_set : ruleset := mk_set [vx_rule_s] [] [] [].
Theorem C49_start_refuted : exists occurs ls rs', storable_rules vx_rule C49_set /\ write_rules C49_set None = Ok ls /\
  read_rules vx_rule vx_date (Some ls) = Ok rs' /\ onset_of occurs rs' vx_summer /\ ~ onset_of occurs C49_set vx_summer.
Proof.
  exists (fun _ _ => False). eexists. eexists. split; [|split; [vm_compute; reflexivity|split; [vm_compute; reflexivity|split]]].
  - constructor; [|constructor|constructor|discriminate]. exists (Some vx_summer).
    split; [intros d [= <-]; vm_compute; intuition discriminate|]. intros r [<-|[]]. now split.
  - split; [left; left; reflexivity|]. intros [[]|(r & [] & _)].
  - intros [[[]|(r & _ & [])] _].
Qed.
Print Assumptions C49_start_refuted.
(** An empty set is written as nothing, and cannot be read. *)
Theorem C49_empty_refuted : forall rule_parse date_parse,
  write_rules (mk_set [] [] [] []) None = Ok [] /\
  read_rules rule_parse date_parse None = Err KeyError /\ read_rules rule_parse date_parse (Some []) = Err ValueError.
Proof. exact (fun _ _ => conj eq_refl (conj eq_refl eq_refl)). Qed.
Print Assumptions C49_empty_refuted.

(** ** C50. A time zone written as a container and read from an equal one: the same, up to
    the starts in its recurrence sets. *)
Theorem C50_container : forall X rule_parse date_parse z, utc_env X -> reads_dates date_parse -> storable_zone X rule_parse z ->
  exists sub, dump_zone X z = Ok (ICont (py "VTIMEZONE") sub) /\
    forall sub', Forall2 item_eq sub sub' ->
      exists z', load_zone X rule_parse date_parse (py "VTIMEZONE") sub' = Ok z' /\ zone_back z z'.
Proof.
  exact (fun X rule_parse date_parse z UE RD H =>
    let (sub, P) := zone_rt X UE rule_parse date_parse RD z H in ex_intro _ sub (conj (proj1 P) (proj1 (proj2 P)))).
Qed.
Print Assumptions C50_container.
(** The same through text. *)
Theorem C50_text : forall X rule_parse date_parse hy resplit W nl z, utc_env X -> reads_dates date_parse ->
  splitter resplit -> width_ok W -> storable_zone X rule_parse z -> wire_zone X z -> exists it txt sub z',
  dump_zone X z = Ok it /\ item_serialize hy resplit W it nl = Ok txt /\
  string_to_containers txt = ([ICont (py "VTIMEZONE") sub], None) /\
  load_zone X rule_parse date_parse (py "VTIMEZONE") sub = Ok z' /\ zone_back z z'.
Proof. intros X rule_parse date_parse hy resplit W nl z UE RD. exact (zone_text X UE rule_parse date_parse RD hy resplit W nl z). Qed.
Print Assumptions C50_text.
(** All lookups, after any lookups, give the same answers if the starts of the rules are
    times of the recurrence sets. *)
Theorem C50_lookups : forall occurs before z z' h q w f, before_right occurs before -> zone_back z z' ->
  (forall o, In o (t_obs z) -> starts_count occurs (o_rules o)) ->
  snd (ask (map (as_obs before) (t_obs z')) (after (map (as_obs before) (t_obs z')) [] h) q w f) =
  snd (ask (map (as_obs before) (t_obs z)) (after (map (as_obs before) (t_obs z)) [] h) q w f).
Proof. exact (fun occurs before z z' h q w f HB B => lookups_same occurs before (t_obs z) (t_obs z') h q w f HB (bz_obs z z' B)). Qed.
Print Assumptions C50_lookups.
Example C50_example : utc_env toy /\ reads_dates vx_date /\ splitter (fun t => [t]) /\ width_ok (Some 75%nat) /\
  storable_zone toy vx_rule vx_zone /\ wire_zone toy vx_zone /\
  match dump_zone toy vx_zone with
  | Ok (ICont n sub) => map item_name sub = [py "TZID"; py "DAYLIGHT"; py "STANDARD"; py "TZURL"; py "LAST-MODIFIED"] /\
      match load_zone toy vx_rule vx_date n sub with
      | Ok z' => map o_name (t_obs z') = [Some (py "CEST"); Some (py "CET")] /\ map o_to (t_obs z') = [2 * vx_hour; vx_hour]
      | Err _ => False
      end
  | _ => False
  end.
Proof.
  split; [exact toy_utc|]. split; [exact vx_reads|]. split; [intro t; cbn; apply app_nil_r|]. split; [repeat constructor|].
  split; [exact vx_zone_ok|]. split; [exact vx_zone_wire|]. vm_compute. repeat split.
Qed.
(** A calendar whose zones are written as definitions is read back with them. *)
Theorem C50_calendar : forall X hy resplit W c rule_parse date_parse zone_of tz_of,
  utc_env X -> reads_dates date_parse -> splitter resplit -> width_ok W ->
  storable_calendar X c -> wire_calendar X c -> distinct_zones X c -> defined_by X rule_parse date_parse zone_of tz_of ->
  (forall id z z', calendar_uses X c id z z' -> storable_zone X rule_parse (zone_of z') /\ wire_zone X (zone_of z') /\
     t_id (zone_of z') = id /\ forall t, zone_back (zone_of z') t -> tz_of t = z) ->
  exists txt d, calendar_serialize X hy resplit W c = Ok txt /\ read_calendar X (FromStr txt) = Ok d /\ back_calendar X c d.
Proof. exact calendar_zones. Qed.
Print Assumptions C50_calendar.
Example C50_calendar_example : utc_env vx_toy /\ storable_calendar vx_toy ex_calendar /\ wire_calendar vx_toy ex_calendar /\
  distinct_zones vx_toy ex_calendar /\ defined_by vx_toy vx_rule vx_date vx_fixed vx_tz /\
  (forall id z z', calendar_uses vx_toy ex_calendar id z z' -> storable_zone vx_toy vx_rule (vx_fixed z') /\ wire_zone vx_toy (vx_fixed z') /\
     t_id (vx_fixed z') = id /\ forall t, zone_back (vx_fixed z') t -> vx_tz t = z) /\
  calendar_uses vx_toy ex_calendar (py "Z1") (TzObj 1) (TzObj 1).
Proof.
  split; [exact vx_toy_utc|]. split; [exact vx_ex_calendar_storable|]. split; [exact vx_ex_calendar_wire|]. split; [exact vx_distinct|].
  split; [exact vx_defined|]. split; [exact vx_uses|]. right. exists (py "events"), [ex_event], ex_event. split; [reflexivity|]. split; [now left|].
  left. eexists. eexists. eexists. split; [exact (eq_refl (dict_get (py "timespan") (c_attrs ex_event)))|]. split; [left; reflexivity|].
  split; [reflexivity|]. split; reflexivity.
Qed.

(** ** C51. Writing the recurrence set of an observance succeeds exactly if its rules have
    no two different starts, and fails with a ValueError otherwise. *)
Theorem C51_one_start : forall rs, (exists ls, write_rules rs None = Ok ls) <-> forall d e, starts rs d -> starts rs e -> d = e.
Proof. exact write_rules_ok. Qed.
Print Assumptions C51_one_start.
Theorem C51_error : forall rs e, write_rules rs None = Err e -> e = ValueError.
Proof. exact write_rules_err. Qed.
Print Assumptions C51_error.
(** A written observance has one DTSTART, the start of its rules, and none if they have none. *)
Theorem C51_start : forall X o sub d, dump_obs X o = Ok (ICont (obs_name (o_dst o)) sub) -> start_lines (o_extra o) = [] ->
  starts (o_rules o) d -> start_lines sub = [fmt_datetime d].
Proof. exact (fun X o sub d H N => proj1 (obs_start_lines X o sub H N) d). Qed.
Print Assumptions C51_start.
Theorem C51_no_start : forall X o sub, dump_obs X o = Ok (ICont (obs_name (o_dst o)) sub) -> start_lines (o_extra o) = [] ->
  (forall d, ~ starts (o_rules o) d) -> start_lines sub = [].
Proof. exact (fun X o sub H N => proj2 (obs_start_lines X o sub H N)). Qed.
Print Assumptions C51_no_start.
Example C51_example : starts (o_rules (hd (mk_observance false 0 0 C49_set None None [] []) (t_obs vx_zone))) vx_summer /\
  match dump_obs toy (hd (mk_observance false 0 0 C49_set None None [] []) (t_obs vx_zone)) with
  | Ok (ICont _ sub) => start_lines sub = [py "19960331T020000"]
  | _ => False
  end.
Proof. split; [exists vx_rule_s; split; [now left|reflexivity]|vm_compute; reflexivity]. Qed.
(** An observance that was read from a definition with DTSTART and no rule, as of a zone
    without daylight saving time, is written without the DTSTART that is required. *)
Definition C51_lines : list item :=
  [line (py "DTSTART") (py "19960331T020000"); line (py "TZOFFSETFROM") (py "+0100"); line (py "TZOFFSETTO") (py "+0100")].
Theorem C51_read_refuted : start_lines C51_lines = [py "19960331T020000"] /\
  match load_obs toy vx_rule vx_date STANDARD C51_lines with
  | Ok o => match dump_obs toy o with Ok (ICont n sub) => n = STANDARD /\ start_lines sub = [] | _ => False end
  | Err _ => False
  end.
Proof. vm_compute. repeat split; reflexivity. Qed.
Print Assumptions C51_read_refuted.
(** Rules with different starts: the observance cannot be written. *)
Theorem C51_differing_refuted : exists o, dump_obs toy o = Err ValueError.
Proof. exists (mk_observance false 0 0 (mk_set [vx_rule_s; vx_rule_w] [] [] []) None None [] []). vm_compute. reflexivity. Qed.
Print Assumptions C51_differing_refuted.
(** An observance with an empty set is written, and the text is rejected with a KeyError. *)
Definition C51_none : observance := mk_observance false 0 0 (mk_set [] [] [] []) None None [] [].
Theorem C51_empty_refuted : match dump_obs toy C51_none with
  | Ok (ICont n sub) => n = STANDARD /\ load_obs toy vx_rule vx_date n sub = Err KeyError
  | _ => False
  end.
Proof. vm_compute. split; reflexivity. Qed.
Print Assumptions C51_empty_refuted.
