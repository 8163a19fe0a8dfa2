(** * Proofs: components that are no alarms, and slices of nameless containers *)
From Verif Require Import M_Base M_Line M_Tree M_Cal M_Time M_Span M_Dt M_Comp P_Base.
From Coq Require Import Lia.

Lemma filter_none {A} (f : A -> bool) l : (forall x, In x l -> f x = false) -> filter f l = [].
Proof. induction l as [|x l IH]; intros H; [reflexivity|]. cbn. rewrite H by now left. apply IH. intros y I. apply H. now right. Qed.
Lemma named_false n it : item_name it <> n -> str_eqb (item_name it) n = false.
Proof. intros H. destruct (str_eqb (item_name it) n) eqn:E; [|reflexivity]. now apply str_eqb_eq in E. Qed.
Lemma action_component X n zs pre sub post : (forall it, In it (pre ++ post) -> item_name it <> py "ACTION") ->
  load_alarm X n (pre ++ ICont (py "ACTION") sub :: post) zs = Err AttributeError.
Proof.
  intros H. unfold load_alarm, find_action. rewrite filter_app, (filter_none _ pre).
  - cbn [filter app]. change (str_eqb (item_name (ICont (py "ACTION") sub)) (py "ACTION")) with true. cbn iota.
    rewrite filter_none; [reflexivity|]. intros it I. apply named_false, H, in_or_app. now right.
  - intros it I. apply named_false, H, in_or_app. now left.
Qed.
Lemma action_none X n zs its : (forall it, In it its -> item_name it <> py "ACTION") -> load_alarm X n its zs = Err ValueError.
Proof. intros H. unfold load_alarm, find_action. rewrite filter_none; [reflexivity|]. intros it I. now apply named_false, H. Qed.
Lemma action_two X n zs l1 a l2 b l3 : item_name a = py "ACTION" -> item_name b = py "ACTION" ->
  load_alarm X n (l1 ++ a :: l2 ++ b :: l3) zs = Err ValueError.
Proof.
  intros A B. unfold load_alarm, find_action. set (f := fun it => str_eqb (item_name it) (py "ACTION")).
  assert (FA : f a = true) by (unfold f; now rewrite A). assert (FB : f b = true) by (unfold f; now rewrite B).
  rewrite filter_app. cbn [filter]. rewrite FA, filter_app. cbn [filter]. rewrite FB.
  destruct (filter f l1) as [|[x|x xs] [|y r]]; destruct (filter f l2) as [|c r2]; try reflexivity; cbn [app]; destruct a; reflexivity.
Qed.
