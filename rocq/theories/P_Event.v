(** * Proofs about events and todos: histories of operations *)
From Verif Require Import M_Base P_Base M_Codec M_Cal P_Cal M_Time M_Span S_Span P_Span M_Event S_Event.
From Coq Require Import Lia ZifyBool ZifyNat ZifyN.
Ltac Zify.zify_post_hook ::= Z.div_mod_to_equations.
Open Scope Z_scope.

Section S.
Variable E : env.
Variable utc : tz.

(** ** Failing operations change nothing (C18) *)
Definition pure {A} (m : M A) : Prop := forall o, fst (m o) = o.
Definition atomic {A} (m : M A) : Prop := forall o o' e, m o = (o', Err e) -> o' = o.
Lemma pure_atomic {A} (m : M A) : pure m -> atomic m.
Proof. intros H o o' e Hm. specialize (H o). rewrite Hm in H. exact H. Qed.
Lemma pure_lift {A} (r : res A) : pure (mlift r). Proof. now intros o. Qed.
Lemma pure_load k : pure (load k). Proof. now intros o. Qed.
Lemma atomic_store k v : atomic (store k v). Proof. intros o o' e H. discriminate. Qed.
Lemma atomic_bind {A B} (m : M A) (f : A -> M B) : pure m -> (forall a, atomic (f a)) -> atomic (mbind m f).
Proof.
  intros Hm Hf o o' e H. unfold mbind in H. specialize (Hm o). destruct (m o) as [o1 [a|x]]; cbn in Hm; subst o1.
  - exact (Hf a o o' e H).
  - now injection H as <- _.
Qed.
Lemma pure_bind {A B} (m : M A) (f : A -> M B) : pure m -> (forall a, pure (f a)) -> pure (mbind m f).
Proof.
  intros Hm Hf o. unfold mbind. specialize (Hm o). destruct (m o) as [o1 [a|x]]; cbn in Hm; subst o1; [apply Hf|easy].
Qed.
Lemma pure_get_span : pure get_span.
Proof. apply pure_bind; [apply pure_load|]. intros []; now intros o. Qed.
Lemma atomic_set_field k v : atomic (set_field E utc k v).
Proof.
  intros o o' e H. unfold set_field in H. destruct (if checking o then _ else _) as [f|]; [|discriminate].
  revert H. apply atomic_bind; [apply pure_lift|]. intros v'. apply atomic_bind; [apply pure_lift|].
  intros _. apply atomic_store.
Qed.
Lemma atomic_upd r : atomic (let! t := get_span in let! t' := mlift (r t) in set_span E utc t').
Proof.
  apply atomic_bind; [apply pure_get_span|]. intros t. apply atomic_bind; [apply pure_lift|]. intros t'.
  apply atomic_set_field.
Qed.
Lemma atomic_upd2 {A} (r0 : res A) r :
  atomic (let! t := get_span in let! x := mlift r0 in let! t' := mlift (r t x) in set_span E utc t').
Proof.
  apply atomic_bind; [apply pure_get_span|]. intros t. apply atomic_bind; [apply pure_lift|]. intros x.
  apply atomic_bind; [apply pure_lift|]. intros t'. apply atomic_set_field.
Qed.
Lemma run_atomic p : atomic (run E utc p).
Proof.
  destruct p as [k v|tg| | |z|z|v]; cbn [run].
  - intros o o' e H. unfold set_attr in H.
    repeat match type of H with (if ?c then _ else _) = _ => destruct c end.
    1: exact (atomic_upd2 _ (fun t b => ts_replace E t (Some b) None None None) _ _ _ H).
    1: exact (atomic_upd2 _ (fun t b => ts_replace E t None (Some b) (Some None) None) _ _ _ H).
    1: exact (atomic_upd2 _ (fun t b => ts_replace E t None (Some None) (Some b) None) _ _ _ H).
    1: exact (atomic_upd2 _ (fun t b => ts_replace E t None (Some b) (Some None) None) _ _ _ H).
    1: now injection H as <-.
    1: now injection H as <-.
    1: destruct v; (discriminate || now injection H as <-).
    exact (atomic_set_field _ _ _ _ _ H).
  - intros o o' e H. exact (atomic_upd (fun t => ts_convert_end E t _) _ _ _ H).
  - apply atomic_upd.
  - apply atomic_upd.
  - apply atomic_upd.
  - apply atomic_upd.
  - intros o o' e H. unfold add_attendee in H. destruct (o_cls o); [|now injection H as <-].
    destruct v as [| | | | | | | | |c n| |]; try (now injection H as <-).
    destruct c as [|[c|[c|c|]|]]; try (now injection H as <-).
    revert H. apply atomic_bind; [apply pure_load|]. intros [| | | | | | |l| |c' n'| |]; try (now apply pure_atomic; intros ?);
      [|destruct c' as [|[[c'|c'|]|c'|]]; now apply pure_atomic; intros ?].
    apply atomic_store.
Qed.

(** ** Stored values went through their converter and validator *)
Definition attr_ok (c : cls) (k : str) (v : val) : Prop :=
  forall f, dict_get k (fields E utc c) = Some f -> (exists raw, fl_conv f raw = Ok v) /\ fl_valid f c v = Ok tt.
Definition obj_ok (o : obj) : Prop :=
  (forall k v, dict_get k (o_attrs o) = Some v -> attr_ok (o_cls o) k v) /\
  (forall k f, dict_get k (fields E utc (o_cls o)) = Some f -> dict_get k (o_attrs o) <> None) /\
  checking o = true.

Lemma checking_store o k v : k <> POST_INIT -> checking (fst (store k v o)) = checking o.
Proof. intros H. unfold checking, store. cbn [fst o_attrs]. now rewrite dict_get_set_other by congruence. Qed.
Lemma obj_ok_store o k v : k <> POST_INIT -> obj_ok o -> attr_ok (o_cls o) k v -> obj_ok (fst (store k v o)).
Proof.
  intros NP (H1 & H2 & H3) Hv. split; [|split; [|now rewrite checking_store]]; cbn.
  - intros k' v' H. destruct (str_eqb k' k) eqn:EK.
    + apply str_eqb_eq in EK as ->. rewrite dict_get_set_same in H. injection H as <-. exact Hv.
    + apply str_eqb_neq in EK. rewrite dict_get_set_other in H by congruence. now apply H1.
  - intros k' f Hf. destruct (str_eqb k' k) eqn:EK.
    + apply str_eqb_eq in EK as ->. rewrite dict_get_set_same. discriminate.
    + apply str_eqb_neq in EK. rewrite dict_get_set_other by congruence. now apply (H2 k' f).
Qed.
Definition keeps {A} (m : M A) : Prop := forall o, obj_ok o -> obj_ok (fst (m o)) /\ o_cls (fst (m o)) = o_cls o.
Lemma keeps_pure {A} (m : M A) : pure m -> keeps m.
Proof. intros H o HO. now rewrite H. Qed.
Lemma keeps_bind {A B} (m : M A) (f : A -> M B) : pure m -> (forall a, keeps (f a)) -> keeps (mbind m f).
Proof.
  intros Hm Hf o HO. unfold mbind. specialize (Hm o). destruct (m o) as [o1 [a|x]]; cbn in Hm; subst o1; [now apply Hf|easy].
Qed.
Lemma keeps_set_field k v : k <> POST_INIT -> keeps (set_field E utc k v).
Proof.
  intros NP o HO. unfold set_field. rewrite (proj2 (proj2 HO)). destruct (dict_get k (fields E utc (o_cls o))) as [f|] eqn:Ef.
  - unfold mbind, mlift. destruct (fl_conv f v) as [v'|e] eqn:E1; [|easy].
    destruct (fl_valid f (o_cls o) v') as [[]|e] eqn:E2; [|easy]. split; [|easy].
    apply obj_ok_store; [easy|easy|]. intros f' Hf'. assert (f' = f) by congruence. subst. split; [now exists v|easy].
  - split; [|easy]. apply obj_ok_store; [easy|easy|]. intros f' Hf'. congruence.
Qed.
Lemma keeps_upd r : keeps (let! t := get_span in let! t' := mlift (r t) in set_span E utc t').
Proof.
  apply keeps_bind; [apply pure_get_span|]. intros t. apply keeps_bind; [apply pure_lift|]. intros t'.
  now apply keeps_set_field.
Qed.
Lemma keeps_upd2 {A} (r0 : res A) r :
  keeps (let! t := get_span in let! x := mlift r0 in let! t' := mlift (r t x) in set_span E utc t').
Proof.
  apply keeps_bind; [apply pure_get_span|]. intros t. apply keeps_bind; [apply pure_lift|]. intros x.
  apply keeps_bind; [apply pure_lift|]. intros t'. now apply keeps_set_field.
Qed.
Lemma attendees_ok c l : attr_ok c (py "attendees") (VList l).
Proof.
  intros f Hf. destruct c; vm_compute in Hf; [|discriminate]. injection Hf as <-. cbn.
  split; [now exists (VList l)|easy].
Qed.
Lemma run_keeps p : ordinary p -> keeps (run E utc p).
Proof.
  intros OP. destruct p as [k v|tg| | |z|z|v]; cbn [run].
  - assert (NP : k <> POST_INIT) by (intros ->; now destruct (OP v)). assert (ND : str_eqb k (py "__dict__") = false)
      by (apply str_eqb_neq; intros ->; now destruct (OP v)).
    intros o HO. unfold set_attr. rewrite ND.
    repeat match goal with |- obj_ok (fst (if ?c then _ else _)) /\ _ => destruct c end.
    1: exact (keeps_upd2 _ (fun t b => ts_replace E t (Some b) None None None) _ HO).
    1: exact (keeps_upd2 _ (fun t b => ts_replace E t None (Some b) (Some None) None) _ HO).
    1: exact (keeps_upd2 _ (fun t b => ts_replace E t None (Some None) (Some b) None) _ HO).
    1: exact (keeps_upd2 _ (fun t b => ts_replace E t None (Some b) (Some None) None) _ HO).
    1: easy.
    1: easy.
    exact (keeps_set_field _ _ NP _ HO).
  - intros o HO. exact (keeps_upd (fun t => ts_convert_end E t _) _ HO).
  - apply keeps_upd.
  - apply keeps_upd.
  - apply keeps_upd.
  - apply keeps_upd.
  - intros o HO. unfold add_attendee. destruct (o_cls o) eqn:EC; [|easy].
    destruct v as [| | | | | | | | |c n| |]; try easy.
    destruct c as [|[c|[c|c|]|]]; try easy. rewrite <- EC.
    apply keeps_bind; [apply pure_load| |easy]. intros [| | | | | | |l| |c' n'| |]; try (now apply keeps_pure; intros ?);
      [|destruct c' as [|[[c'|c'|]|c'|]]; now apply keeps_pure; intros ?].
    intros o1 H1. split; [|easy]. apply obj_ok_store; [easy|easy|]. apply attendees_ok.
Qed.
Lemma run_all_ok ps : Forall ordinary ps -> forall o, obj_ok o -> obj_ok (run_all E utc ps o) /\ o_cls (run_all E utc ps o) = o_cls o.
Proof.
  intros OP. induction OP as [|p ps P1 OP IH]; intros o HO; [easy|]. cbn [run_all fold_left].
  destruct (run_keeps p P1 o HO) as [H1 H2]. destruct (IH _ H1) as [H3 H4]. split; [exact H3|].
  unfold run_all in H4. now rewrite H4.
Qed.

(** ** Construction *)
Lemma convert_all_get fs kw attrs : convert_all fs kw = Ok attrs -> forall k,
  match dict_get k fs, dict_get k attrs with
  | Some f, Some v => exists raw, fl_conv f raw = Ok v
  | None, None => True
  | _, _ => False
  end.
Proof.
  revert attrs. induction fs as [|[k0 f0] fs IH]; intros attrs H k; cbn [convert_all] in H.
  - injection H as <-. easy.
  - apply bind_ok in H as (v & Hv & H). apply bind_ok in H as (r & Hr & [= <-]). cbn [dict_get].
    destruct (str_eqb k k0); [now eexists; exact Hv|]. now apply IH.
Qed.
Lemma validate_all_get c fs attrs : validate_all c fs attrs = Ok tt -> forall k f v,
  dict_get k fs = Some f -> dict_get k attrs = Some v -> fl_valid f c v = Ok tt.
Proof.
  induction fs as [|[k0 f0] fs IH]; intros H k f v Hf Hv; [discriminate|]. cbn [validate_all] in H.
  apply bind_tt in H as [H1 H2]. cbn [dict_get] in Hf. destruct (str_eqb k k0) eqn:EK.
  - apply str_eqb_eq in EK as ->. injection Hf as <-. now rewrite Hv in H1.
  - now apply (IH H2 k).
Qed.
Lemma fields_default c uid ds k :
  match dict_get k (class_fields E utc c uid ds), dict_get k (class_fields E utc c VNone VNone) with
  | Some f, Some f' => fl_conv f = fl_conv f' /\ fl_valid f = fl_valid f'
  | None, None => True
  | _, _ => False
  end.
Proof.
  unfold class_fields, common_fields. destruct c; cbn [app dict_get];
  repeat match goal with |- context [if str_eqb k ?x then _ else _] => destruct (str_eqb k x); [easy|] end; easy.
Qed.
Lemma get_app {V} k (a b : dict V) : dict_get k (a ++ b) = match dict_get k a with Some v => Some v | None => dict_get k b end.
Proof. induction a as [|[k' v] a IH]; [easy|]. cbn [app dict_get]. now destruct (str_eqb k k'). Qed.
Lemma new_ok c b e d uid ds kw o : new E utc c b e d uid ds kw = Ok o -> obj_ok o /\ o_cls o = c.
Proof.
  unfold new. intros H. apply bind_guard in H as [_ H].
  apply bind_ok in H as (b' & _ & H). apply bind_ok in H as (e' & _ & H). apply bind_ok in H as (d' & _ & H).
  apply bind_ok in H as (t & _ & H). apply bind_guard in H as [_ H]. apply bind_ok in H as (attrs & HA & H).
  apply bind_tt in H as [HV [= <-]]. split; [|easy]. split; [|split]; cbn [o_attrs o_cls].
  - intros k v Hv f Hf. pose proof (convert_all_get _ _ _ HA k) as HC. pose proof (fields_default c uid ds k) as HF.
    unfold fields in Hf. rewrite get_app in Hf. rewrite get_app in Hv.
    destruct (dict_get k (class_fields E utc c uid ds)) as [f'|] eqn:Ef', (dict_get k (class_fields E utc c VNone VNone)) as [f2|] eqn:E2; try easy.
    + injection Hf as ->. destruct (dict_get k attrs) as [v0|] eqn:EA; [|easy]. injection Hv as ->.
      destruct HF as [HF1 HF2]. rewrite <- HF1, <- HF2. split; [easy|].
      now apply (validate_all_get _ _ _ HV k).
    + destruct (dict_get k attrs) as [v0|] eqn:EA; [easy|]. unfold hidden_fields in Hf. cbn [dict_get] in Hf, Hv.
      destruct (str_eqb k (py "extra")) eqn:K1.
      * apply str_eqb_eq in K1 as ->. cbn in Hv. injection Hv as <-. injection Hf as <-. split; [now eexists|easy].
      * destruct (str_eqb k (py "extra_params")) eqn:K2; [|discriminate]. injection Hv as <-. injection Hf as <-. split; [now eexists|easy].
  - intros k f Hf Hn. pose proof (convert_all_get _ _ _ HA k) as HC. pose proof (fields_default c uid ds k) as HF.
    unfold fields in Hf. rewrite get_app in Hf. rewrite get_app in Hn.
    destruct (dict_get k (class_fields E utc c uid ds)) as [f'|] eqn:Ef', (dict_get k (class_fields E utc c VNone VNone)) as [f2|] eqn:E2; try easy.
    + now destruct (dict_get k attrs).
    + destruct (dict_get k attrs); [easy|]. unfold hidden_fields in Hf. cbn [dict_get] in Hf, Hn.
      destruct (str_eqb k (py "extra_params")) eqn:K2; [discriminate|].
      destruct (str_eqb k (py "extra")) eqn:K1; [|discriminate]. apply str_eqb_eq in K1 as ->. discriminate.
  - unfold checking. cbn [o_attrs]. rewrite get_app. pose proof (convert_all_get _ _ _ HA POST_INIT) as HC.
    assert (HN : dict_get POST_INIT (class_fields E utc c uid ds) = None) by now destruct c.
    rewrite HN in HC. now destruct (dict_get POST_INIT attrs).
Qed.

(** The span of an object. *)
Lemma obj_ok_span o : obj_ok o -> exists t, dict_get (py "timespan") (o_attrs o) = Some (VSpan t) /\
  ts_kind t = span_kind (o_cls o) /\ validate E t = Ok tt.
Proof.
  intros (H1 & H2 & _). specialize (H1 (py "timespan")). specialize (H2 (py "timespan")).
  destruct (dict_get (py "timespan") (o_attrs o)) as [v|]; [|now destruct (H2 (mk_field c_id (v_timespan E) VNone)); destruct (o_cls o)].
  destruct (H1 v eq_refl (mk_field c_id (v_timespan E) VNone)) as [_ HV]; [now destruct (o_cls o)|]. cbn in HV.
  destruct v; try discriminate. exists t. split; [easy|]. apply bind_guard in HV as [HK HV]. split; [|easy].
  destruct (ts_kind t), (o_cls o); easy.
Qed.

(** ** Setting the span *)
Definition put (o : obj) (t : timespan) : obj := mk_obj (o_cls o) (dict_set (py "timespan") (VSpan t) (o_attrs o)).
Lemma get_span_at o t : dict_get (py "timespan") (o_attrs o) = Some (VSpan t) -> get_span o = (o, Ok t).
Proof. intros H. unfold get_span, mbind, load. now rewrite H. Qed.
Lemma get_span_put o t : get_span (put o t) = (put o t, Ok t).
Proof. apply get_span_at. cbn. apply dict_get_set_same. Qed.
Lemma kind_eqb_refl k : kind_eqb k k = true. Proof. now destruct k. Qed.
Lemma set_span_ok o t : ts_kind t = span_kind (o_cls o) -> validate E t = Ok tt ->
  set_span E utc t o = (put o t, Ok tt).
Proof.
  intros HK HV. unfold set_span, set_field.
  assert (HF : dict_get (py "timespan") (fields E utc (o_cls o)) = Some (mk_field c_id (v_timespan E) VNone)) by now destruct (o_cls o).
  rewrite HF. destruct (checking o); [|reflexivity]. unfold mbind, mlift. cbn [fl_conv fl_valid c_id v_timespan]. rewrite HK, kind_eqb_refl. cbn [negb guard bind].
  rewrite HV. reflexivity.
Qed.
Lemma set_span_inv o o' t : set_span E utc t o = (o', Ok tt) ->
  o' = put o t /\ (checking o = true -> validate E t = Ok tt /\ ts_kind t = span_kind (o_cls o)).
Proof.
  intros H. unfold set_span, set_field in H.
  assert (HF : dict_get (py "timespan") (fields E utc (o_cls o)) = Some (mk_field c_id (v_timespan E) VNone)) by now destruct (o_cls o).
  rewrite HF in H. destruct (checking o); [|now injection H as <-]. unfold mbind, mlift in H. cbn [fl_conv fl_valid c_id] in H.
  destruct (v_timespan E (o_cls o) (VSpan t)) as [[]|x] eqn:EV; [|discriminate]. injection H as <-. split; [easy|]. intros _.
  cbn in EV. apply bind_guard in EV as [HK HV]. split; [easy|]. destruct (ts_kind t), (o_cls o); easy.
Qed.
Lemma upd_inv r o o' t : dict_get (py "timespan") (o_attrs o) = Some (VSpan t) ->
  (let! t := get_span in let! t' := mlift (r t) in set_span E utc t') o = (o', Ok tt) ->
  exists t', r t = Ok t' /\ o' = put o t'.
Proof.
  intros HT H. unfold mbind at 1 in H. rewrite (get_span_at _ _ HT) in H. unfold mbind, mlift in H.
  destruct (r t) as [t'|x]; [|discriminate]. apply set_span_inv in H as [-> _]. now exists t'.
Qed.
Lemma upd2_inv {A} (r0 : res A) r o o' t : dict_get (py "timespan") (o_attrs o) = Some (VSpan t) ->
  (let! t := get_span in let! x := mlift r0 in let! t' := mlift (r t x) in set_span E utc t') o = (o', Ok tt) ->
  exists x t', r0 = Ok x /\ r t x = Ok t' /\ o' = put o t'.
Proof.
  intros HT H. unfold mbind at 1 in H. rewrite (get_span_at _ _ HT) in H. unfold mbind, mlift in H.
  destruct r0 as [x|e]; [|discriminate]. destruct (r t x) as [t'|e] eqn:ER; [|discriminate].
  apply set_span_inv in H as [-> _]. exists x, t'. easy.
Qed.
Lemma upd_fwd r o t t' : dict_get (py "timespan") (o_attrs o) = Some (VSpan t) -> r t = Ok t' ->
  ts_kind t' = span_kind (o_cls o) -> validate E t' = Ok tt ->
  (let! t := get_span in let! t' := mlift (r t) in set_span E utc t') o = (put o t', Ok tt).
Proof.
  intros HT HR HK HV. unfold mbind at 1. rewrite (get_span_at _ _ HT). unfold mbind, mlift. rewrite HR.
  now apply set_span_ok.
Qed.
Lemma upd_err r o t x : dict_get (py "timespan") (o_attrs o) = Some (VSpan t) -> r t = Err x ->
  (let! t := get_span in let! t' := mlift (r t) in set_span E utc t') o = (o, Err x).
Proof. intros HT HR. unfold mbind at 1. rewrite (get_span_at _ _ HT). unfold mbind, mlift. now rewrite HR. Qed.

Lemma reachable_ok o : reachable E utc o -> obj_ok o.
Proof.
  intros (c & b & e & d & uid & ds & kw & o0 & ps & H & OP & ->). apply new_ok in H as [H _]. now apply run_all_ok.
Qed.
Lemma reachable_span o : reachable E utc o -> exists t, dict_get (py "timespan") (o_attrs o) = Some (VSpan t) /\
  ts_kind t = span_kind (o_cls o) /\ validate E t = Ok tt.
Proof. intros H. now apply obj_ok_span, reachable_ok. Qed.

Lemma history_consistent c b e d uid ds kw ps o : Forall ordinary ps -> new E utc c b e d uid ds kw = Ok o ->
  exists t, dict_get (py "timespan") (o_attrs (run_all E utc ps o)) = Some (VSpan t) /\
    ts_kind t = span_kind c /\ consistent E t.
Proof.
  intros OP H. destruct (new_ok _ _ _ _ _ _ _ _ H) as [HO HC]. destruct (run_all_ok ps OP o HO) as [H1 H2].
  destruct (obj_ok_span _ H1) as (t & T1 & T2 & T3). exists t. rewrite H2, HC in T2.
  split; [easy|]. split; [easy|]. now apply validate_consistent.
Qed.

(** ** Setters (C19) *)
Lemma put_others o t : others_same o (put o t).
Proof. split; [easy|]. intros k H. unfold put; cbn [o_attrs]; apply dict_get_set_other; congruence. Qed.

Lemma begin_at o t : dict_get (py "timespan") (o_attrs o) = Some (VSpan t) -> reading get_begin o = Ok (ts_begin t).
Proof. intros H. unfold reading, get_begin, mbind. now rewrite (get_span_at _ _ H). Qed.
Lemma end_at o t : dict_get (py "timespan") (o_attrs o) = Some (VSpan t) -> reading (get_end E) o = eff_end E t.
Proof. intros H. unfold reading, get_end, mbind. now rewrite (get_span_at _ _ H). Qed.
Lemma duration_at o t : dict_get (py "timespan") (o_attrs o) = Some (VSpan t) -> reading (get_duration E) o = eff_duration E t.
Proof. intros H. unfold reading, get_duration, mbind. now rewrite (get_span_at _ _ H). Qed.
Lemma put_span o t : dict_get (py "timespan") (o_attrs (put o t)) = Some (VSpan t).
Proof. cbn. apply dict_get_set_same. Qed.

Lemma set_end_reads o o' v e : reachable E utc o -> run E utc (OSet (py "end") v) o = (o', Ok tt) ->
  ensure_datetime v = Ok (Some e) ->
  reading get_begin o' = reading get_begin o /\ reading (get_end E) o' = Ok (Some e) /\ others_same o o'.
Proof.
  intros HR H HV. destruct (reachable_span _ HR) as (t & T1 & T2 & T3). cbn [run] in H.
  destruct (upd2_inv _ (fun t b => ts_replace E t None (Some b) (Some None) None) _ _ _ T1 H) as (x & t' & X1 & X2 & ->).
  rewrite HV in X1. injection X1 as <-. apply ts_replace_ok in X2 as [-> _].
  rewrite (begin_at _ _ (put_span o _)), (begin_at _ _ T1), (end_at _ _ (put_span o _)).
  split; [easy|]. split; [easy|]. apply put_others.
Qed.
(** Clearing the end: an event ends where it begins (a day later if all-day). *)
Lemma set_duration_reads o o' v d : reachable E utc o -> run E utc (OSet (py "duration") v) o = (o', Ok tt) ->
  ensure_timedelta v = Ok (Some d) ->
  reading get_begin o' = reading get_begin o /\ reading (get_duration E) o' = Ok (Some d) /\ 0 <= d /\
  (exists b, reading get_begin o = Ok (Some b) /\
     reading (get_end E) o' = (if wall_ok (wall b + d) then Ok (Some (mk_dt (wall b + d) false (dtz b))) else Err OverflowError)) /\
  others_same o o'.
Proof.
  intros HR H HV. destruct (reachable_span _ HR) as (t & T1 & T2 & T3). cbn [run] in H.
  destruct (upd2_inv _ (fun t b => ts_replace E t None (Some None) (Some b) None) _ _ _ T1 H) as (x & t' & X1 & X2 & ->).
  rewrite HV in X1. injection X1 as <-. apply ts_replace_ok in X2 as [-> X3]. cbn [pick] in *.
  rewrite (begin_at _ _ (put_span o _)), (begin_at _ _ T1), (end_at _ _ (put_span o _)), (duration_at _ _ (put_span o _)).
  apply validate_consistent in X3. split; [easy|]. split; [easy|]. split; [now apply (co_dur_pos _ _ X3)|].
  split; [|apply put_others]. pose proof (co_dur_begin _ _ X3) as HB. cbn in HB.
  destruct (ts_begin t) as [b|]; [|now destruct HB]. exists b. split; [easy|]. cbn. unfold dt_add.
  now destruct (wall_ok _).
Qed.
Lemma set_begin_keeps o o' v b t : reachable E utc o -> run E utc (OSet (py "begin") v) o = (o', Ok tt) ->
  ensure_datetime v = Ok b -> dict_get (py "timespan") (o_attrs o) = Some (VSpan t) ->
  reading get_begin o' = Ok b /\
  (forall e, ts_end t = Some e -> reading (get_end E) o' = Ok (Some e)) /\
  (forall d, ts_dur t = Some d -> reading (get_duration E) o' = Ok (Some d)) /\ others_same o o'.
Proof.
  intros HR H HV T1. cbn [run] in H.
  destruct (upd2_inv _ (fun t b => ts_replace E t (Some b) None None None) _ _ _ T1 H) as (x & t' & X1 & X2 & ->).
  rewrite HV in X1. injection X1 as <-. apply ts_replace_ok in X2 as [-> _]. cbn [pick].
  rewrite (begin_at _ _ (put_span o _)), (end_at _ _ (put_span o _)), (duration_at _ _ (put_span o _)).
  split; [easy|]. split; [|split; [|apply put_others]].
  - intros e He. cbn. now rewrite He.
  - intros d Hd. cbn. now rewrite Hd.
Qed.
(** Elapsed time: clocks within one zone, instants across zones. *)
Lemma end_related t b e d : validate E t = Ok tt -> ts_begin t = Some b ->
  eff_end E t = Ok (Some e) -> eff_duration E t = Ok (Some d) ->
  dtz b <> Some TzLocal ->
  (dtz e = dtz b -> wall e = wall b + d) /\ (dtz e <> dtz b -> instant E e = instant E b + d).
Proof.
  intros HV HB HE HD HL. pose proof (validate_consistent _ _ HV) as HC. unfold eff_end in HE. destruct (ts_end t) as [e0|] eqn:Ee.
  - injection HE as ->. unfold eff_duration in HD. rewrite Ee, HB in HD.
    destruct (co_excl _ _ HC) as [Hx|Hx]; [congruence|]. rewrite Hx in HD.
    apply rmap_ok in HD as (x & Hx' & [= ->]). split.
    + intros Hz. rewrite dt_sub_one in Hx' by (split; [easy|congruence]). injection Hx' as Hx'. lia.
    + intros Hz. unfold dt_sub in Hx'. destruct (same_tz (dtz e) (dtz b)) eqn:ES.
      * exfalso. apply Hz. destruct (dtz e) as [[n|o|]|], (dtz b) as [[m|o'|]|]; cbn in ES; try discriminate; [|easy].
        apply N.eqb_eq in ES. congruence.
      * destruct (_ || _); [discriminate|]. injection Hx' as Hx'. lia.
  - rewrite HB in HE. rewrite HD in HE. cbn [bind] in HE. apply rmap_ok in HE as (x & Hx & [= ->]).
    unfold dt_add in Hx. destruct (wall_ok _); [|discriminate]. injection Hx as <-. cbn [wall dtz]. split; [easy|]. congruence.
Qed.
Lemma end_related_obj o b e d : reachable E utc o -> reading get_begin o = Ok (Some b) ->
  reading (get_end E) o = Ok (Some e) -> reading (get_duration E) o = Ok (Some d) -> dtz b <> Some TzLocal ->
  (dtz e = dtz b -> wall e = wall b + d) /\ (dtz e <> dtz b -> instant E e = instant E b + d).
Proof.
  intros HR HB HE HD HL. destruct (reachable_span _ HR) as (t & T1 & T2 & T3).
  rewrite (begin_at _ _ T1) in HB. rewrite (end_at _ _ T1) in HE. rewrite (duration_at _ _ T1) in HD.
  injection HB as HB. now apply (end_related t).
Qed.

(** ** Methods are the methods of the span *)
Lemma convert_end_valid t t' tg : validate E t = Ok tt -> ts_convert_end E t tg = Ok t' -> validate E t' = Ok tt.
Proof.
  intros HV H. unfold ts_convert_end in H.
  destruct (end_representation t) as [[|]|], tg; cbn [andb] in H;
  repeat match type of H with
  | (if ?c then _ else _) = _ => destruct c
  | Ok _ = Ok _ => injection H as <-; exact HV
  | Err _ = Ok _ => discriminate
  | bind _ _ = Ok _ => apply bind_ok in H as (? & _ & H)
  | ts_replace _ _ _ _ _ _ = Ok _ => apply ts_replace_ok in H as [_ H]; exact H
  end.
Qed.
Lemma convert_end_obj o t t' tg : reachable E utc o -> dict_get (py "timespan") (o_attrs o) = Some (VSpan t) ->
  tg <> TDue -> ts_convert_end E t tg = Ok t' -> same_reading E t t' ->
  exists o', run E utc (OConvertEnd tg) o = (o', Ok tt) /\
    reading get_begin o' = reading get_begin o /\ reading (get_end E) o' = reading (get_end E) o /\
    reading (get_duration E) o' = reading (get_duration E) o /\ others_same o o' /\
    exists t', dict_get (py "timespan") (o_attrs o') = Some (VSpan t') /\ ts_prec t' = ts_prec t.
Proof.
  intros HR T1 HT HC (S1 & S2 & S3 & S4 & S5). destruct (reachable_span _ HR) as (t0 & T0 & T2 & T3).
  assert (t0 = t) by congruence. subst t0. pose proof (convert_end_valid _ _ _ T3 HC) as HV.
  exists (put o t'). split.
  - cbn [run]. unfold convert_end.
    assert (Htg : match o_cls o, tg with CTodo, TDue => TEnd | _, _ => tg end = tg) by (destruct (o_cls o), tg; easy).
    rewrite Htg. apply (upd_fwd (fun t => ts_convert_end E t tg) o t t'); [easy|easy|congruence|easy].
  - rewrite (begin_at _ _ (put_span o _)), (end_at _ _ (put_span o _)), (duration_at _ _ (put_span o _)).
    rewrite (begin_at _ _ T1), (end_at _ _ T1), (duration_at _ _ T1), S2, S4, S5.
    repeat split; try easy; [intros k Hk; unfold put; cbn [o_attrs]; apply dict_get_set_other; congruence|]. exists t'. split; [apply put_span|easy].
Qed.

(** ** Stored values obey their constraints (C48) *)
Lemma field_value o k f v : obj_ok o -> dict_get k (fields E utc (o_cls o)) = Some f ->
  dict_get k (o_attrs o) = Some v -> (exists raw, fl_conv f raw = Ok v) /\ fl_valid f (o_cls o) v = Ok tt.
Proof. intros [H _] Hf Hv. exact (H k v Hv f Hf). Qed.
Lemma astimezone_utc d z r : match z with TzLocal => False | _ => True end -> dt_astimezone E d (Some z) = Ok r -> dtz r = Some z.
Proof.
  intros HZ H. unfold dt_astimezone in H. destruct (negb (naive d) && same_tz (dtz d) (Some z)) eqn:EB.
  - injection H as <-. apply andb_true_iff in EB as [_ EB]. destruct (dtz d) as [[n|o|]|], z; cbn in EB; try discriminate.
    apply N.eqb_eq in EB. congruence.
  - destruct (wall_ok _); [|discriminate]. destruct (tz_fromutc E z _) as [w f]. destruct (wall_ok w); [|discriminate].
    now injection H as <-.
Qed.
Lemma ensure_utc_value v r : match utc with TzLocal => False | _ => True end -> ensure_utc E utc v = Ok r ->
  r = VNone \/ exists d, r = VDt d /\ dtz d = Some utc.
Proof.
  intros HZ H. unfold ensure_utc in H. apply bind_ok in H as (d & _ & H). destruct d as [d|]; [|left; congruence].
  apply rmap_ok in H as (x & Hx & ->). right. exists x. split; [easy|]. now apply (astimezone_utc d).
Qed.
Definition zone_obj (z : tz) : Prop := match z with TzLocal => False | _ => True end.
Lemma holds_field o k f (P : val -> Prop) : obj_ok o -> dict_get k (fields E utc (o_cls o)) = Some f ->
  (forall raw v, fl_conv f raw = Ok v -> fl_valid f (o_cls o) v = Ok tt -> P v) -> holds o k P.
Proof.
  intros HO Hf HP. destruct HO as (H1 & H2 & _). specialize (H2 k f Hf). destruct (dict_get k (o_attrs o)) as [v|] eqn:Ev; [|easy].
  exists v. split; [easy|]. destruct (H1 k v Ev f Hf) as [[raw Hr] Hv]. now apply (HP raw).
Qed.
Lemma existsb_In s l : existsb (str_eqb s) l = true -> In s l.
Proof. intros H. apply existsb_exists in H as (x & Hx & H). apply str_eqb_eq in H. now subst. Qed.
Lemma status_value raw v c : c_upper raw = Ok v -> v_status c v = Ok tt -> one_of STATUS v.
Proof.
  intros _ H. unfold one_of. destruct v as [|s| | | | | | | | | |]; try discriminate; [now left|right]. exists s. split; [easy|].
  apply guard_ok in H. apply negb_false_iff in H. now apply existsb_In.
Qed.
Lemma list_value raw v : c_list raw = Ok v -> a_list v.
Proof.
  destruct raw as [| | | | | | | | |c n| |]; cbn; try discriminate; try (intros [= <-]; eexists; reflexivity).
  destruct c as [|[[c|c|]|c|]]; try discriminate. intros [= <-]. eexists. reflexivity.
Qed.
Lemma range_value hi c v : v_range hi c v = Ok tt -> int_upto hi v.
Proof.
  intros H. unfold int_upto. destruct v as [| |n| | | | | | | | |]; try discriminate; [now left|right]. exists n. split; [easy|].
  apply guard_ok in H. lia.
Qed.
Lemma reachable_attributes o : zone_obj utc -> reachable E utc o -> attributes_ok utc o.
Proof.
  intros HZ HR. apply reachable_ok in HR. unfold attributes_ok.
  assert (HF : forall k f (P : val -> Prop), dict_get k (fields E utc (o_cls o)) = Some f ->
    (forall raw v, fl_conv f raw = Ok v -> fl_valid f (o_cls o) v = Ok tt -> P v) -> holds o k P).
  { intros k f P. now apply holds_field. }
  assert (HU : forall raw v, ensure_utc E utc raw = Ok v -> v = VNone \/ utc_time utc v).
  { intros raw v H. destruct (ensure_utc_value raw v HZ H) as [H1|(d & H1 & H2)]; [now left|right; now exists d]. }
  split; [apply (HF _ (mk_field c_upper v_status VNone)); [now destruct (o_cls o)|]; intros raw v; apply status_value|].
  split; [apply (HF _ (mk_field (ensure_utc E utc) v_any VNone)); [now destruct (o_cls o)|]; intros raw v H _; now apply (HU raw)|].
  split; [apply (HF _ (mk_field (ensure_utc E utc) v_any VNone)); [now destruct (o_cls o)|]; intros raw v H _; now apply (HU raw)|].
  split.
  { apply (HF _ (mk_field (ensure_utc E utc) v_not_none VNone)); [now destruct (o_cls o)|]. intros raw v H H'. cbn in *.
    destruct (HU raw v H) as [->|]; [discriminate|easy]. }
  split; [apply (HF _ (mk_field c_list v_any (VList []))); [now destruct (o_cls o)|]; intros raw v H _; now apply (list_value raw)|].
  split; [apply (HF _ (mk_field c_list v_any (VList []))); [now destruct (o_cls o)|]; intros raw v H _; now apply (list_value raw)|].
  split.
  { apply (HF _ (mk_field c_id v_container VNone)); [now destruct (o_cls o)|]. intros raw v _ H. cbn in H.
    destruct v as [| | | | | | | | |c n| |]; try discriminate. destruct c as [|[[c|c|]|c|]]; try discriminate. now exists n. }
  split.
  { apply (HF _ (mk_field c_id v_dict (VDict []))); [now destruct (o_cls o)|]. intros raw v _ H. cbn in H.
    destruct v; try discriminate. now exists l. }
  destruct (o_cls o) eqn:EC.
  - split; [apply (HF _ (mk_field c_list v_any (VList []))); [easy|]; intros raw v H _; now apply (list_value raw)|].
    split; [apply (HF _ (mk_field c_list v_any (VList []))); [easy|]; intros raw v H _; now apply (list_value raw)|].
    split.
    { apply (HF _ (mk_field c_id v_str VNone)); [easy|]. intros raw v _ H. cbn in H.
      destruct v; try discriminate; [now left|right; now exists s]. }
    split.
    { apply (HF _ (mk_field c_id (v_instance 1) VNone)); [easy|]. intros raw v _ H. cbn [fl_valid v_instance] in H.
      destruct v; try discriminate; [now left|right]. apply guard_ok in H. exists n. f_equal. lia. }
    apply (HF _ (mk_field c_geo v_any VNone)); [easy|]. intros raw v H _. cbn [fl_conv c_geo] in H.
    destruct raw as [| | | | | | | |l| | |l]; cbn in H; try (injection H as <-; now left).
    + destruct l as [|a [|b [|]]]; try discriminate. right. exists a, b. congruence.
    + change (match dict_get (py "latitude") l, dict_get (py "longitude") l with
        | Some a, Some b => if Nat.ltb 2 (length l) then Err TypeError else Ok (VTuple [a; b]) | _, _ => Err TypeError end = Ok v) in H.
      destruct (dict_get _ l) as [a|]; [|discriminate]. destruct (dict_get _ l) as [b|]; [|discriminate].
      destruct (Nat.ltb _ _); [discriminate|]. right. exists a, b. congruence.
  - split; [apply (HF _ (mk_field c_id (v_range 100) VNone)); [easy|]; intros raw v _ H; exact (range_value _ _ _ H)|].
    split; [apply (HF _ (mk_field c_id (v_range 9) VNone)); [easy|]; intros raw v _ H; exact (range_value _ _ _ H)|].
    apply (HF _ (mk_field c_datetime v_any VNone)); [easy|]. intros raw v H _. cbn in H.
    apply rmap_ok in H as (d & _ & ->). destruct d as [d|]; [right; now exists d|now left].
Qed.
Lemma unchecked_span o v : reachable E utc o ->
  dict_get (py "timespan") (o_attrs (run_all E utc [OSet (py "__post_init__") VNone; OSet (py "timespan") v] o)) = Some v.
Proof.
  intros HR. apply reachable_ok in HR as (_ & _ & HC).
  assert (H1 : fst (run E utc (OSet (py "__post_init__") VNone) o) = mk_obj (o_cls o) (dict_set POST_INIT VNone (o_attrs o))).
  { cbn [run]. unfold set_attr, set_field. rewrite HC. destruct o as [c at0]; destruct c; reflexivity. }
  unfold run_all. cbn [fold_left]. rewrite H1. set (o1 := mk_obj (o_cls o) (dict_set POST_INIT VNone (o_attrs o))).
  assert (HC1 : checking o1 = false).
  { unfold checking, o1. cbn [o_attrs]. now rewrite dict_get_set_same. }
  clearbody o1.
  assert (H3 : fst (run E utc (OSet (py "timespan") v) o1) = mk_obj (o_cls o1) (dict_set (py "timespan") v (o_attrs o1))).
  { cbn [run]. unfold set_attr, set_field. rewrite HC1. clear; destruct o1 as [c at0]; destruct c; reflexivity. }
  rewrite H3. cbn [o_attrs]. apply dict_get_set_same.
Qed.
End S.
