(** * Proofs about the mark of complete objects *)
From Verif Require Import M_Base P_Base M_Codec M_Cal M_Time M_Span S_Span P_Span M_Event S_Event P_Event S_Mark.
Open Scope Z_scope.
Lemma falsy_exact v : falsy v <-> truthy v = false.
Proof.
  split; [intros []; reflexivity|]. destruct v as [|[|? ?]|n|d|w|u|t|[|? ?]|[|? ?]|c n|z|[|? ?]]; cbn [truthy]; intros H; try discriminate H; try constructor.
  - apply negb_false_iff, Z.eqb_eq in H. subst. constructor.
  - apply negb_false_iff, Z.eqb_eq in H. subst. constructor.
  - assert (c = 3%N) as ->; [|constructor]. destruct c as [|[[p|p|]|[p|p|]|]]; try discriminate H; reflexivity.
Qed.
Section S.
Variable E : env.
Variable utc : tz.
Lemma mark_set o m : checking o = true -> fst (run E utc (OSet (py "__post_init__") m) o) = mk_obj (o_cls o) (dict_set POST_INIT m (o_attrs o)).
Proof. intros HC. cbn [run]. unfold set_attr, set_field. rewrite HC. destruct o as [c at0]; destruct c; reflexivity. Qed.
Lemma span_unchecked o v : checking o = false ->
  run E utc (OSet (py "timespan") v) o = (mk_obj (o_cls o) (dict_set (py "timespan") v (o_attrs o)), Ok tt).
Proof. intros HC. cbn [run]. unfold set_attr, set_field. rewrite HC. destruct o as [c at0]; destruct c; reflexivity. Qed.
Lemma span_checked o v : checking o = true -> exists r : res val,
  forall o', checking o' = true -> o_cls o' = o_cls o -> run E utc (OSet (py "timespan") v) o' =
  match r with Ok x => (mk_obj (o_cls o') (dict_set (py "timespan") x (o_attrs o')), Ok tt) | Err e => (o', Err e) end.
Proof.
  intros HC. destruct (dict_get (py "timespan") (fields E utc (o_cls o))) as [f|] eqn:HF;
    [|destruct (o_cls o); discriminate HF].
  exists (do x <- fl_conv f v; do _ <- fl_valid f (o_cls o) x; Ok x). intros o' HC' HO. cbn [run]. unfold set_attr.
  replace (existsb (str_eqb (py "timespan")) (readonly (o_cls o'))) with false by (destruct (o_cls o'); reflexivity).
  cbn [str_eqb]. change (str_eqb (py "timespan") (py "begin")) with false. change (str_eqb (py "timespan") (py "end")) with false.
  change (str_eqb (py "timespan") (py "duration")) with false. change (str_eqb (py "timespan") (py "due")) with false.
  change (str_eqb (py "timespan") (py "__class__")) with false. change (str_eqb (py "timespan") (py "__dict__")) with false. cbn [andb].
  unfold set_field. rewrite HC', HO, HF. unfold mbind, mlift, store. destruct (fl_conv f v) as [x|e]; cbn [bind]; [|reflexivity].
  rewrite HO. destruct (fl_valid f (o_cls o) x) as [u|e]; cbn [bind]; reflexivity.
Qed.
Lemma mark_exact o m v o1 : reachable E utc o -> o1 = fst (run E utc (OSet (py "__post_init__") m) o) ->
  (falsy m -> exists o2, run E utc (OSet (py "timespan") v) o1 = (o2, Ok tt) /\ dict_get (py "timespan") (o_attrs o2) = Some v) /\
  (~ falsy m -> snd (run E utc (OSet (py "timespan") v) o1) = snd (run E utc (OSet (py "timespan") v) o) /\
    dict_get (py "timespan") (o_attrs (fst (run E utc (OSet (py "timespan") v) o1))) =
    dict_get (py "timespan") (o_attrs (fst (run E utc (OSet (py "timespan") v) o)))).
Proof.
  intros HR H1. apply reachable_ok in HR as (_ & _ & HC). rewrite (mark_set o m HC) in H1.
  assert (HC1 : checking o1 = truthy m) by (subst o1; unfold checking; cbn [o_attrs]; now rewrite dict_get_set_same).
  assert (HO : o_cls o1 = o_cls o) by (subst o1; reflexivity).
  assert (HG : dict_get (py "timespan") (o_attrs o1) = dict_get (py "timespan") (o_attrs o)).
  { subst o1. cbn [o_attrs]. apply dict_get_set_other. discriminate. }
  clear H1. split; intros HF.
  - apply falsy_exact in HF. rewrite HF in HC1. rewrite (span_unchecked o1 v HC1). eexists. split; [reflexivity|]. cbn [o_attrs]. apply dict_get_set_same.
  - assert (HT : truthy m = true) by (destruct (truthy m) eqn:Q; [reflexivity|]; elim HF; now apply falsy_exact).
    rewrite HT in HC1. destruct (span_checked o v HC) as (r & HX). rewrite (HX o HC eq_refl), (HX o1 HC1 HO).
    destruct r as [x|e]; cbn [fst snd o_attrs]; [|split; [reflexivity|exact HG]]. split; [reflexivity|]. now rewrite !dict_get_set_same.
Qed.
End S.
