(** * Property C71: what a failing [populate] leaves behind *)
From Verif Require Import M_Base M_Line M_Tree M_Comp M_Merge M_Fail S_Comp S_Multi S_Reorder S_Toy S_Read S_Merge S_Fail P_Fail P_Fail5 P_AgainEx P_MergeEx P_FailEx.
Open Scope N_scope.

(** C71. Events and todos. A container of another name changes nothing. Otherwise there is
    an item that cannot be read, whatever follows it, and everything before it has been
    taken, as far as possible the item too; or all items are read, and the checks at the
    end fail. *)
Theorem C71_entry : forall X x0 n its x e, mergeable x0 -> is_entry (c_cls x0) = true -> entry_out X x0 n its = (x, Err e) ->
  (n <> title (c_cls x0) /\ x = x0) \/
  (exists pre it post y, its = pre ++ it :: post /\ sofar X [] (in_entry_reads X []) x0 pre y /\ stopped X [] pre it y x /\
     forall post', entry_out X x0 n (pre ++ it :: post') = (x, Err e)) \/
  (sofar X [] (in_entry_reads X []) x0 its x /\ unclosed X [] alarm (c_cls x0) its).
Proof. exact entry_left. Qed.
Print Assumptions C71_entry.
Example C71_entry_example : mergeable again_event /\ is_entry (c_cls again_event) = true /\
  entry_out toy again_event (py "VEVENT") bad_items = (bad_event, Err ValueError) /\
  dict_get (py "summary") (c_attrs bad_event) = Some (AOne (VStr (py "c"))) /\
  dict_get (py "STATUS") (c_params bad_event) = Some (XOne [(py "X", [PRaw (py "y")])]).
Proof. exact (conj event_mergeable (conj eq_refl (conj bad_run (conj (proj1 bad_left) (proj1 (proj2 bad_left)))))). Qed.
(** The categories before an unfinished escape are there. *)
Example C71_half_example : entry_out toy (new_comp toy alarm CEvent) (py "VEVENT") half_items = (half_event, Err ValueError) /\
  dict_get (py "categories") (c_attrs half_event) = Some (AMany [VStr (py "a"); VStr (py "b")]).
Proof. exact half_run. Qed.

(** C71. Alarms; they have no checks at the end. *)
Theorem C71_alarm : forall X x0 n its x e, mergeable x0 -> is_alarm (c_cls x0) = true -> alarm_out X x0 n its = (x, Err e) ->
  (n <> title (c_cls x0) /\ x = x0) \/
  (exists pre it post y, its = pre ++ it :: post /\ sofar X [] no_reads x0 pre y /\ stopped X [] pre it y x /\
     forall post', alarm_out X x0 n (pre ++ it :: post') = (x, Err e)).
Proof. exact alarm_left. Qed.
Print Assumptions C71_alarm.
Example C71_alarm_example : mergeable again_alarm /\ is_alarm (c_cls again_alarm) = true /\
  alarm_out toy again_alarm (py "VALARM") [ln (py "REPEAT") (py "3"); ln (py "ACTION") (py "AUDIO")] = (bad_alarm, Err AssertionError) /\
  dict_get (py "repeat") (c_attrs bad_alarm) = Some (AOne (VInt 3)).
Proof. exact (conj alarm_mergeable bad_alarm_run). Qed.

(** C71. Calendars. A time zone that cannot be read changes nothing either. *)
Theorem C71_calendar : forall X c0 n its x e, mergeable c0 -> c_cls c0 = CCalendar -> calendar_out X c0 n its = (x, Err e) ->
  (n <> py "VCALENDAR" /\ x = c0) \/
  (exists sub, In (ICont (py "VTIMEZONE") sub) its /\ x_tz_load X sub = Err e) /\ x = c0 \/
  exists zs, Forall2 (fun sub z => x_tz_load X sub = Ok z) (subs (py "VTIMEZONE") its) zs /\
  ((exists pre it post y, its = pre ++ it :: post /\ sofar X zs (in_calendar_reads X zs) c0 pre y /\ stopped X zs pre it y x /\
      forall post', subs (py "VTIMEZONE") post' = subs (py "VTIMEZONE") post -> calendar_out X c0 n (pre ++ it :: post') = (x, Err e)) \/
   (sofar X zs (in_calendar_reads X zs) c0 its x /\ exists k, In k [py "VERSION"; py "PRODID"] /\ lines k its = [])).
Proof. exact calendar_left. Qed.
Print Assumptions C71_calendar.
Example C71_calendar_example : mergeable again_calendar /\ c_cls again_calendar = CCalendar /\
  calendar_out toy again_calendar (py "VCALENDAR") bare_items = (bare_calendar, Err ValueError) /\ length (get_mem (py "events") bare_calendar) = 2%nat.
Proof. exact (conj calendar_mergeable (conj eq_refl bare_run)). Qed.

(** C71. The results and the exceptions are those of the other properties. *)
Theorem C71_component_agrees : forall X M load_m (x0 : comp M) n its zs, mergeable x0 ->
  match instance_out X M load_m x0 n its zs with
  | (x, Ok _) => exists zs', populate_instance X M load_m x0 n its zs = Ok (x, zs')
  | (_, Err e) => populate_instance X M load_m x0 n its zs = Err e
  end.
Proof. exact instance_tells. Qed.
Print Assumptions C71_component_agrees.
Theorem C71_entry_agrees : forall X x0 n its, mergeable x0 ->
  (forall x, entry_out X x0 n its = (x, Ok tt) <-> populate_entry X x0 n its = Ok x) /\
  (forall e, (exists x, entry_out X x0 n its = (x, Err e)) <-> populate_entry X x0 n its = Err e).
Proof. exact entry_agrees. Qed.
Print Assumptions C71_entry_agrees.
Theorem C71_calendar_agrees : forall X c0 n its, mergeable c0 ->
  (forall x, calendar_out X c0 n its = (x, Ok tt) <-> populate_calendar X c0 n its = Ok x) /\
  (forall e, (exists x, calendar_out X c0 n its = (x, Err e)) <-> populate_calendar X c0 n its = Err e).
Proof. exact calendar_agrees. Qed.
Print Assumptions C71_calendar_agrees.

(** C71. Whatever happened, C60 holds of reading into the component again. *)
Theorem C71_entry_again : forall X x0 n its x r, mergeable x0 -> is_entry (c_cls x0) = true -> entry_out X x0 n its = (x, r) -> mergeable x.
Proof. exact entry_again. Qed.
Print Assumptions C71_entry_again.
Theorem C71_calendar_again : forall X c0 n its x r, mergeable c0 -> c_cls c0 = CCalendar -> calendar_out X c0 n its = (x, r) -> mergeable x.
Proof. exact calendar_again. Qed.
Print Assumptions C71_calendar_again.

(** C71. That a failing call changes nothing is false, of events and of calendars; and
    reading good lines afterwards is not what it would have been before. *)
Theorem C71_atomic_refuted : ~ (forall X x0 n its x e, mergeable x0 -> entry_out X x0 n its = (x, Err e) -> x = x0).
Proof. exact atomic_refuted. Qed.
Print Assumptions C71_atomic_refuted.
Theorem C71_calendar_refuted : ~ (forall X c0 n its x e k, mergeable c0 -> c_cls c0 = CCalendar -> calendar_out X c0 n its = (x, Err e) -> under k x = under k c0).
Proof. exact calendar_refuted. Qed.
Print Assumptions C71_calendar_refuted.
Theorem C71_retry_refuted : ~ (forall X x0 n its its' x e y, mergeable x0 -> entry_out X x0 n its = (x, Err e) -> populate_entry X x0 n its' = Ok y ->
  populate_entry X x n its' = Ok y).
Proof. exact retry_refuted. Qed.
Print Assumptions C71_retry_refuted.
