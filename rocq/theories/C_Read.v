(** * Properties C53 and C54: components are read exactly as their lines say *)
From Verif Require Import M_Base M_Line M_Tree M_Comp S_Comp S_Multi S_Reorder S_Toy S_Read P_ReadAll P_ReadEx.

(** C53. An alarm that is read is what its items say. *)
Theorem C53_alarm : forall X n its zs x zs1, load_alarm X n its zs = Ok (x, zs1) -> n = py "VALARM" /\ alarm_reads X zs its x.
Proof. exact (fun X n its zs => proj1 (alarm_exact X its zs n)). Qed.
Print Assumptions C53_alarm.

(** C53. Events and todos likewise. *)
Theorem C53_entry : forall X c n its zs x zs1, c = CEvent \/ c = CTodo -> load_entry X c n its zs = Ok (x, zs1) ->
  n = title c /\ entry_reads X zs c its x.
Proof. exact (fun X c n its zs x zs1 H => proj1 (entry_exact X c its zs n H) x zs1). Qed.
Print Assumptions C53_entry.

(** C53. Calendars likewise. *)
Theorem C53_calendar : forall X n its x, load_calendar X n its = Ok x -> n = py "VCALENDAR" /\ calendar_reads X its x.
Proof. exact (fun X n its => proj1 (calendar_exact X its n)). Qed.
Print Assumptions C53_calendar.

(** C53. The items say one thing only. *)
Theorem C53_alarm_unique : forall X zs its x y, alarm_reads X zs its x -> alarm_reads X zs its y -> same_alarm x y.
Proof. exact alarm_det. Qed.
Print Assumptions C53_alarm_unique.
Theorem C53_entry_unique : forall X c zs its x y, entry_reads X zs c its x -> entry_reads X zs c its y -> same_entry x y.
Proof. exact entry_det. Qed.
Print Assumptions C53_entry_unique.
Theorem C53_calendar_unique : forall X its x y, calendar_reads X its x -> calendar_reads X its y -> same_calendar x y.
Proof. exact calendar_det. Qed.
Print Assumptions C53_calendar_unique.

Example C53_example_alarm : exists x zs, load_alarm toy (py "VALARM") C53_alarm_items [] = Ok (x, zs) /\
  dict_get (py "trigger") (c_attrs x) = Some (AOne (VTd (-300000000)%Z)) /\ alarm_reads toy [] C53_alarm_items x.
Proof. exact read_alarm_example. Qed.
Example C53_example_entry : exists x zs, load_entry toy CEvent (py "VEVENT") C53_items [] = Ok (x, zs) /\
  dict_get (py "categories") (c_attrs x) = Some (AMany [VStr (py "a,b"); VStr (py "c")]) /\ entry_reads toy [] CEvent C53_items x.
Proof. exact read_entry_example. Qed.
Example C53_example_calendar : exists x, load_calendar toy (py "VCALENDAR") C53_calendar_items = Ok x /\
  dict_get (py "prodid") (c_attrs x) = Some (AOne (VStr (py "p"))) /\ calendar_reads toy C53_calendar_items x.
Proof. exact read_calendar_example. Qed.

(** C53 with the parameters of an ATTENDEE line belonging to everyone on it is false: the
    first one takes them all. *)
Theorem C53_shared_parameters_refuted : ~ (forall X its zs x zs1 l vs k v, load_entry X CEvent (py "VEVENT") its zs = Ok (x, zs1) ->
  lines (py "ATTENDEE") its = [l] -> dict_get (py "attendees") (c_attrs x) = Some (AMany vs) -> dict_get k (cl_params l) = Some v -> k <> py "VALUE" ->
  forall r e ps, In (VPerson r e ps) vs -> dict_get k ps = Some v).
Proof. exact shared_params_refuted. Qed.
Print Assumptions C53_shared_parameters_refuted.

(** C54. Items that say something are read; the alarm is what they say. *)
Theorem C54_alarm : forall X zs its x, alarm_reads X zs its x ->
  exists y zs1, load_alarm X (py "VALARM") its zs = Ok (y, zs1) /\ same_alarm x y.
Proof. exact (fun X zs its => proj2 (alarm_exact X its zs (py "VALARM"))). Qed.
Print Assumptions C54_alarm.

(** C54. Events and todos likewise. *)
Theorem C54_entry : forall X c zs its x, c = CEvent \/ c = CTodo -> entry_reads X zs c its x ->
  exists y zs1, load_entry X c (title c) its zs = Ok (y, zs1) /\ same_entry x y.
Proof. exact (fun X c zs its x H => proj2 (entry_exact X c its zs (title c) H) x). Qed.
Print Assumptions C54_entry.

(** C54. Calendars likewise. *)
Theorem C54_calendar : forall X its x, calendar_reads X its x ->
  exists y, load_calendar X (py "VCALENDAR") its = Ok y /\ same_calendar x y.
Proof. exact (fun X its => proj2 (calendar_exact X its (py "VCALENDAR"))). Qed.
Print Assumptions C54_calendar.

Example C54_example : (exists x, alarm_reads toy [] C53_alarm_items x) /\ (exists x, entry_reads toy [] CEvent C53_items x) /\
  exists x, calendar_reads toy C53_calendar_items x.
Proof. exact read_examples. Qed.
