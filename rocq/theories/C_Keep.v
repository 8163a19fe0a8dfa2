(** * Property C31: unknown content is kept *)
From Verif Require Import M_Base M_Line M_Tree M_Comp S_Comp S_Toy P_Keep.

(** C31. An event or todo holds its unknown items in order. *)
Theorem C31_entry_extra : forall X c n its zs x zs1, c = CEvent \/ c = CTodo ->
  load_entry X c n its zs = Ok (x, zs1) -> Unknown c its (c_extra x).
Proof. exact (fun X c n its zs x zs1 Hc H => proj1 (proj2 (proj2 (entry_read X c n its zs x zs1 Hc H)))). Qed.
Print Assumptions C31_entry_extra.

(** C31. So does an alarm, of the class given by its ACTION. *)
Theorem C31_alarm_extra : forall X n its zs x zs1, load_alarm X n its zs = Ok (x, zs1) ->
  n = py "VALARM" /\ exists c, alarm_class its c /\ c_cls x = c /\ Unknown c its (c_extra x).
Proof. exact alarm_read. Qed.
Print Assumptions C31_alarm_extra.

(** C31. Reading an alarm and writing it: the unknown items are the same, in the same
    order, after the known ones. *)
Theorem C31_alarm : forall X n its zs x zs1 zs2 it zs3,
  load_alarm X n its zs = Ok (x, zs1) -> dump_alarm X x zs2 = Ok (it, zs3) ->
  exists out, it = ICont (py "VALARM") out /\ kept_alarm its out.
Proof. exact alarm_kept. Qed.
Print Assumptions C31_alarm.

(** C31. The same for events and todos, and inside their alarms. *)
Theorem C31_entry : forall X c n its zs x zs1 zs2 it zs3, c = CEvent \/ c = CTodo ->
  load_entry X c n its zs = Ok (x, zs1) -> dump_entry X x zs2 = Ok (it, zs3) ->
  n = NAME c /\ exists out, it = ICont n out /\ kept_entry c its out.
Proof. exact entry_kept. Qed.
Print Assumptions C31_entry.

(** C31. The same for calendars, and inside their events and todos. *)
Theorem C31_calendar : forall X n its x it, writes_zones X ->
  load_calendar X n its = Ok x -> dump_calendar X x = Ok it ->
  exists out, it = ICont (py "VCALENDAR") out /\ kept_calendar its out.
Proof. exact calendar_kept. Qed.
Print Assumptions C31_calendar.

Definition C31_in : list item := [
  line (py "X-A") (py "1"); line (py "SUMMARY") (py "s"); ICont (py "X-SUB") [line (py "SUMMARY") (py "t")];
  line (py "UID") (py "u"); ICont (py "VALARM") [line (py "X-B") (py "2"); line (py "ACTION") (py "AUDIO")];
  ILine (mk_line (py "RRULE") [(py "P", [PQuoted (py "q")])] (py "FREQ=DAILY"))].
Definition read_event (its : list item) : entry :=
  match event_from_container toy (py "VEVENT") its with Ok x => x | Err _ => new_comp toy alarm CEvent end.
Definition C31_out : list item := [
  line (py "SUMMARY") (py "s"); line (py "UID") (py "u"); line (py "DTSTAMP") (py "20200101T000000Z");
  ICont (py "VALARM") [line (py "ACTION") (py "AUDIO"); line (py "X-B") (py "2")];
  line (py "X-A") (py "1"); ICont (py "X-SUB") [line (py "SUMMARY") (py "t")];
  ILine (mk_line (py "RRULE") [(py "P", [PQuoted (py "q")])] (py "FREQ=DAILY"))].
Example C31_example :
  load_entry toy CEvent (py "VEVENT") C31_in [] = Ok (read_event C31_in, []) /\
  dump_entry toy (read_event C31_in) [] = Ok (ICont (py "VEVENT") C31_out, []).
Proof. split; vm_compute; reflexivity. Qed.
Definition C31_cal : list item := [line (py "X-A") (py "1"); ICont (py "VEVENT") C31_in;
    line (py "VERSION") (py "2.0"); line (py "PRODID") (py "p"); line (py "VTIMEZONE") (py "z")].
Definition read_calendar (its : list item) : calendar :=
  match load_calendar toy (py "VCALENDAR") its with Ok x => x | Err _ => new_comp toy entry CCalendar end.
Example C31_calendar_example : writes_zones toy /\
  load_calendar toy (py "VCALENDAR") C31_cal = Ok (read_calendar C31_cal) /\
  dump_calendar toy (read_calendar C31_cal) = Ok (ICont (py "VCALENDAR")
    [line (py "VERSION") (py "2.0"); line (py "PRODID") (py "p"); ICont (py "VEVENT") C31_out;
     line (py "X-A") (py "1"); line (py "VTIMEZONE") (py "z")]).
Proof.
  split; [intros z it H; exists [line (py "TZID") (toy_id z)]; now injection H as <-|].
  split; vm_compute; reflexivity.
Qed.

(** Not everything that is read can be written again: an event whose ATTENDEE line has
    two addresses and a parameter is read, but writing it is a ValueError. *)
Definition C31_two_attendees : list item :=
  [ILine (mk_line (py "ATTENDEE") [(py "CN", [PRaw (py "c")])] (py "mailto:a,mailto:b"))].
Theorem C31_unwritable_refuted : exists X x, event_from_container X (py "VEVENT") C31_two_attendees = Ok x /\
  to_container X x = Err ValueError.
Proof. exists toy, (read_event C31_two_attendees). split; vm_compute; reflexivity. Qed.
Print Assumptions C31_unwritable_refuted.
