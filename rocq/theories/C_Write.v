(** * Property C75: what is written is exactly what the attributes say *)
From Verif Require Import M_Base M_Line M_Cal M_Time M_Dt M_Tree M_Comp S_Toy S_Write P_Write P_WriteEx.

(** C75. What is written for an alarm, an event or a todo, the zones that are collected
    on the way, and the exception if there is one. *)
Theorem C75_alarm : forall X (x : alarm) r, alarm_written X x r -> forall zs, dump_alarm X x zs = with_zones zs r.
Proof. exact alarm_exact. Qed.
Print Assumptions C75_alarm.
Theorem C75_entry : forall X (x : entry) r, entry_written X x r -> forall zs, dump_entry X x zs = with_zones zs r.
Proof. exact entry_exact. Qed.
Print Assumptions C75_entry.
(** C75. Nothing else is written: the relations have an outcome. *)
Theorem C75_alarm_total : forall X (x : alarm), real_alarm x -> exists r, alarm_written X x r.
Proof. exact alarm_total. Qed.
Print Assumptions C75_alarm_total.
Theorem C75_entry_total : forall X (x : entry), real_entry x -> exists r, entry_written X x r.
Proof. exact entry_total. Qed.
Print Assumptions C75_entry_total.
Example C75_event_example : exists us, real_entry C75_good /\ entry_written toy C75_good (Ok (C75_event_items, us)) /\ collect [] us = [(py "Z3", TzObj 3)].
Proof. exact event_written_example. Qed.
Example C75_errors_example : Forall (fun p => real_entry (fst p) /\ entry_written toy (fst p) (Err (snd p))) C75_bad.
Proof. exact bad_examples. Qed.

(** C75. A calendar: its properties, the zones in use, its events and todos. *)
Theorem C75_calendar : forall X (x : calendar) r, real_calendar x -> (calendar_written X x r <-> dump_calendar X x = r).
Proof. exact calendar_iff. Qed.
Print Assumptions C75_calendar.
Example C75_calendar_example : real_calendar (C75_calendar_x C75_good) /\
  calendar_written toy (C75_calendar_x C75_good) (Ok (ICont (py "VCALENDAR") [line (py "VERSION") (py "2.0"); line (py "PRODID") (py "p");
    ICont (py "VTIMEZONE") [line (py "TZID") (py "Z3")]; C75_event_items])).
Proof. exact calendar_written_example. Qed.

(** C75, that every alarm with a name can be written, is false: a custom alarm needs an action. *)
Theorem C75_writable_refuted : ~ (forall X (x : alarm), real_alarm x -> c_name x <> [] -> c_params x = [] -> exists it us, alarm_written X x (Ok (it, us))).
Proof. exact writable_refuted. Qed.
Print Assumptions C75_writable_refuted.
