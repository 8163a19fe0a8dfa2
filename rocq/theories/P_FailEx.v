(** * Examples and refutations for C71 *)
From Verif Require Import M_Base M_Line M_Codec M_Cal M_Time M_Span M_Dt M_Tree M_Comp M_Merge M_Fail.
From Verif Require Import S_Text S_Comp S_Multi S_Reorder S_Toy S_Read S_Merge S_Fail P_AgainEx P_MergeEx.
Open Scope N_scope.

(** A summary is replaced before the status is refused, whose parameters are stored. *)
Definition bad_items : list item :=
  [ln (py "SUMMARY") (py "c"); ln (py "CATEGORIES") (py "d"); ILine (mk_line (py "STATUS") [(py "X", [PRaw (py "y")])] (py "no")); ln (py "UID") (py "w")].
Definition bad_event : entry := Eval vm_compute in fst (entry_out toy again_event (py "VEVENT") bad_items).
Lemma bad_run : entry_out toy again_event (py "VEVENT") bad_items = (bad_event, Err ValueError).
Proof. vm_compute. reflexivity. Qed.
Lemma bad_left : dict_get (py "summary") (c_attrs bad_event) = Some (AOne (VStr (py "c"))) /\
  dict_get (py "STATUS") (c_params bad_event) = Some (XOne [(py "X", [PRaw (py "y")])]) /\
  dict_get (py "status") (c_attrs bad_event) = dict_get (py "status") (c_attrs again_event) /\
  dict_get (py "uid") (c_attrs bad_event) = dict_get (py "uid") (c_attrs again_event).
Proof. vm_compute. repeat split. Qed.
(** The values before an unfinished escape are stored. *)
Definition half_items : list item := [ln (py "CATEGORIES") (py "a,b,c\")].
Definition half_event : entry := Eval vm_compute in fst (entry_out toy (new_comp toy alarm CEvent) (py "VEVENT") half_items).
Lemma half_run : entry_out toy (new_comp toy alarm CEvent) (py "VEVENT") half_items = (half_event, Err ValueError) /\
  dict_get (py "categories") (c_attrs half_event) = Some (AMany [VStr (py "a"); VStr (py "b")]).
Proof. vm_compute. split; reflexivity. Qed.
Lemma atomic_refuted : ~ (forall X x0 n its x e, mergeable x0 -> entry_out X x0 n its = (x, Err e) -> x = x0).
Proof. intro H. specialize (H toy again_event _ _ _ _ event_mergeable bad_run). apply (f_equal (fun x => dict_get (py "summary") (c_attrs x))) in H. vm_compute in H. discriminate. Qed.
Lemma retry_refuted : ~ (forall X x0 n its its' x e y, mergeable x0 -> entry_out X x0 n its = (x, Err e) -> populate_entry X x0 n its' = Ok y -> populate_entry X x n its' = Ok y).
Proof.
  intro H. specialize (H toy again_event _ _ _ _ _ _ event_mergeable bad_run (proj1 more_ok)).
  apply (f_equal (fun r => match r with Ok x => dict_get (py "categories") (c_attrs x) | _ => None end)) in H. vm_compute in H. discriminate.
Qed.

(** A calendar without a PRODID takes the events before it is refused. *)
Definition bare_items : list item :=
  [ln (py "VERSION") (py "2.0"); ICont (py "VEVENT") [ln (py "UID") (py "w"); ln (py "DTSTAMP") (py "20210101T000000Z")]].
Definition bare_calendar : calendar := Eval vm_compute in fst (calendar_out toy again_calendar (py "VCALENDAR") bare_items).
Lemma bare_run : calendar_out toy again_calendar (py "VCALENDAR") bare_items = (bare_calendar, Err ValueError) /\
  length (get_mem (py "events") bare_calendar) = 2%nat.
Proof. vm_compute. split; reflexivity. Qed.
Lemma calendar_refuted : ~ (forall X c0 n its x e k, mergeable c0 -> c_cls c0 = CCalendar -> calendar_out X c0 n its = (x, Err e) -> under k x = under k c0).
Proof.
  intro H. specialize (H toy again_calendar _ _ _ _ (py "events") calendar_mergeable eq_refl (proj1 bare_run)). apply (f_equal (@length _)) in H. vm_compute in H. discriminate.
Qed.
Definition bad_alarm : alarm := Eval vm_compute in fst (alarm_out toy again_alarm (py "VALARM") [ln (py "REPEAT") (py "3"); ln (py "ACTION") (py "AUDIO")]).
Lemma alarm_mergeable : mergeable again_alarm.
Proof. mergeable_ex. Qed.
Lemma bad_alarm_run : is_alarm (c_cls again_alarm) = true /\
  alarm_out toy again_alarm (py "VALARM") [ln (py "REPEAT") (py "3"); ln (py "ACTION") (py "AUDIO")] = (bad_alarm, Err AssertionError) /\
  dict_get (py "repeat") (c_attrs bad_alarm) = Some (AOne (VInt 3)).
Proof. vm_compute. repeat split. Qed.
