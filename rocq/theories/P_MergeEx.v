(** * Examples for C60 *)
From Verif Require Import M_Base M_Text M_Line M_Codec M_Cal M_Time M_Span M_Dt M_Fold M_Tree M_Comp M_Open M_Serial M_Merge.
From Verif Require Import S_Comp S_Multi S_Store S_Reorder S_Read S_Toy S_Merge.
From Verif Require Import P_Base P_StoreEx P_AgainEx P_Merge2.
From Coq Require Import Lia ZifyBool ZifyNat ZifyN.
Open Scope N_scope.

Ltac mergeable_ex := constructor; [intros ?f ?I; cbn in I; repeat destruct I as [<-|I]; try contradiction; eexists; reflexivity|
  intros ?f ?p ?I; cbn in I; repeat destruct I as [<-|I]; try contradiction; discriminate|
  intros ?a ?n ?k ?I; cbn in I; repeat destruct I as [[= <- <- <-]|I]; try contradiction; discriminate].
Lemma event_mergeable : mergeable again_event.
Proof. mergeable_ex. Qed.
Lemma calendar_mergeable : mergeable again_calendar.
Proof. mergeable_ex. Qed.

Definition ln (n v : list N) : item := ILine (mk_line n [] v).
Definition more_items : list item := [ln (py "UID") (py "w"); ln (py "DTSTAMP") (py "20210101T000000Z"); ln (py "SUMMARY") (py "c"); ln (py "CATEGORIES") (py "d")].
Definition more_event : entry := Eval vm_compute in match populate_entry toy again_event (py "VEVENT") more_items with Ok x => x | Err _ => again_event end.
Definition only_event : entry := Eval vm_compute in match entry_from_container toy CEvent (py "VEVENT") more_items with Ok x => x | Err _ => again_event end.
Lemma more_ok : populate_entry toy again_event (py "VEVENT") more_items = Ok more_event /\ entry_from_container toy CEvent (py "VEVENT") more_items = Ok only_event.
Proof. split; vm_compute; reflexivity. Qed.

Lemma span_refuted : ~ (forall X x0 n its x, mergeable x0 -> populate_entry X x0 n its = Ok x ->
  (forall l, In (ILine l) its -> ~ In (cl_name l) [py "DTSTART"; py "DTEND"; py "DUE"; py "DURATION"]) ->
  dict_get (py "timespan") (c_attrs x) = dict_get (py "timespan") (c_attrs x0)).
Proof.
  intro H. specialize (H toy again_event _ _ _ event_mergeable (proj1 more_ok)). assert (E : forall l, In (ILine l) more_items -> ~ In (cl_name l) [py "DTSTART"; py "DTEND"; py "DUE"; py "DURATION"]).
  { intros l I. unfold more_items, ln in I. repeat destruct I as [[= <-]|I]; try contradiction; vm_compute; intuition discriminate. }
  specialize (H E). vm_compute in H. discriminate.
Qed.
Lemma params_refuted : ~ (forall X x0 n its x y f, mergeable x0 -> populate_entry X x0 n its = Ok x -> entry_from_container X (c_cls x0) n its = Ok y ->
  In f (singles (c_cls x0)) -> lines (g_name f) its <> [] -> dict_get (upper (g_attr f)) (c_params x) = dict_get (upper (g_attr f)) (c_params y)).
Proof.
  intro H. specialize (H toy again_event (py "VEVENT") more_items more_event only_event).
  destruct (find (fun f => str_eqb (g_name f) (py "SUMMARY")) (singles CEvent)) as [f|] eqn:E; [|discriminate]. pose proof E as E2. apply find_some in E as [I _].
  specialize (H f event_mergeable (proj1 more_ok) (proj2 more_ok) I). cbn in E2. injection E2 as <-. vm_compute in H.
  assert (D : forall T (x : T) l, x :: l <> []) by discriminate. specialize (H (D _ _ _)). discriminate.
Qed.

(** Categories set by hand have no notes. *)
Definition hand_event : entry := Eval vm_compute in
  let x := new_comp toy alarm CEvent in set_attrs (dict_set (py "categories") (AMany [VStr (py "a")]) (c_attrs x)) x.
Definition hand_items : list item := [ln (py "UID") (py "w"); ln (py "DTSTAMP") (py "20210101T000000Z"); ln (py "CATEGORIES") (py "d")].
Definition hand_more : entry := Eval vm_compute in match populate_entry toy hand_event (py "VEVENT") hand_items with Ok x => x | Err _ => again_event end.
Definition hand_only : entry := Eval vm_compute in match entry_from_container toy CEvent (py "VEVENT") hand_items with Ok x => x | Err _ => again_event end.
Lemma write_lost : ~ (forall X x0 n its x y, mergeable x0 -> populate_entry X x0 n its = Ok x -> entry_from_container X (c_cls x0) n its = Ok y ->
  (exists it, M_Comp.to_container X x0 = Ok it) -> (exists it, M_Comp.to_container X y = Ok it) -> exists it, M_Comp.to_container X x = Ok it).
Proof.
  intro H. assert (HM : mergeable hand_event) by mergeable_ex.
  destruct (H toy hand_event (py "VEVENT") hand_items hand_more hand_only HM) as (it & E).
  - vm_compute. reflexivity.
  - vm_compute. reflexivity.
  - eexists. vm_compute. reflexivity.
  - eexists. vm_compute. reflexivity.
  - vm_compute in E. discriminate.
Qed.
