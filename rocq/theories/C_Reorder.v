(** * Property C52: the order of different properties does not matter *)
From Verif Require Import M_Base M_Line M_Tree M_Comp S_Comp S_Reorder S_Toy P_Reorder P_ReorderEx.
From Coq Require Import Permutation.

(** C52. Exchanging neighbours whose order does not matter, any number of times, is every
    rearrangement that keeps the order within each name, within the unknown items, and
    between DTEND and DUE. *)
Theorem C52_arrangement : forall c (R : item -> item -> Prop), (forall a, R a a) ->
  forall l m, arranged c l m -> reorder c R l m.
Proof. exact arranged_reorder. Qed.
Print Assumptions C52_arrangement.

(** C52. Alarms whose items are reordered are read as the same alarm, or both rejected. *)
Theorem C52_alarm : forall X n l m zs, alarm_order l m ->
  agree same_alarm (rmap fst (load_alarm X n l zs)) (rmap fst (load_alarm X n m zs)).
Proof. exact alarm_both. Qed.
Print Assumptions C52_alarm.

(** C52. Events and todos likewise, also when the items of their alarms are reordered. *)
Theorem C52_entry : forall X c n l m zs, In c [CEvent; CTodo] -> entry_order c l m ->
  agree same_entry (rmap fst (load_entry X c n l zs)) (rmap fst (load_entry X c n m zs)).
Proof. exact entry_both. Qed.
Print Assumptions C52_entry.

(** C52. Calendars likewise: time zones, events, todos and properties may come in any order. *)
Theorem C52_calendar : forall X n l m, calendar_order l m ->
  agree same_calendar (load_calendar X n l) (load_calendar X n m).
Proof. exact calendar_both. Qed.
Print Assumptions C52_calendar.

Example C52_example : arranged CEvent C52_one C52_two /\ C52_one <> C52_two /\
  calendar_order (C52_in_calendar C52_one) (C52_turned C52_two) /\
  (exists x, load_entry toy CEvent (py "VEVENT") C52_one [] = Ok (x, []) /\ length (c_extra x) = 2%nat) /\
  exists x, load_calendar toy (py "VCALENDAR") (C52_in_calendar C52_one) = Ok x.
Proof. exact order_example. Qed.

(** C52 for every exchange of items with different names is false: an event with DUE
    before DTEND is accepted, with DTEND before DUE it is rejected. *)
Theorem C52_event_refuted : ~ (forall X l m zs, NoDup (map item_name l) -> Permutation l m -> Forall (known CEvent) l ->
  agree same_entry (rmap fst (load_entry X CEvent (py "VEVENT") l zs)) (rmap fst (load_entry X CEvent (py "VEVENT") m zs))).
Proof. exact event_order_refuted. Qed.
Print Assumptions C52_event_refuted.
