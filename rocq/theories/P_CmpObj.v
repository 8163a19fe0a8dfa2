(** * Proofs: predicates between entries, spans and instants *)
From Verif Require Import M_Base P_Base M_Codec M_Cal M_Time M_Span S_Span P_Span M_Cmp S_Cmp P_Cmp M_CmpObj S_CmpObj.
From Coq Require Import Lia.
Open Scope Z_scope.

Lemma span_pred_spec E P p s t B N B' N' : good_local E -> tame E P -> interval E P s B N -> interval E P t B' N' ->
  exists b, span_pred E p s (CSpan t) = Ok b /\ (b = true <-> says p B N B' N').
Proof.
  intros GL HT HS HO. destruct (predicates_prop E P s B N t B' N' GL HT HS HO) as (H1 & H2 & H3 & H4 & H5 & HA).
  assert (K : forall q, In q [starts_within; ends_within; intersects; includes; is_included_in] -> forall R,
    (q E s t = Ok true <-> R) -> exists b, q E s t = Ok b /\ (b = true <-> R)).
  { intros q Hq R HR. destruct (HA q Hq) as [b Hb]. exists b. split; [easy|]. rewrite <- HR, Hb.
    split; [now intros ->|now intros [= ->]]. }
  destruct p; cbn [span_pred says]; (apply K; [cbn; tauto|assumption]).
Qed.
Lemma call_spec E P p a b B N B' N' : good_local E -> tame E P -> occupies E P a B N -> occupies E P b B' N' ->
  (is_span a -> is_span b) -> exists x, call_pred E p a b = Ok x /\ (x = true <-> says p B N B' N').
Proof.
  intros GL HT HA HB HS. destruct a as [x|s| |]; try easy; destruct b as [y|t| |]; try easy; cbn [call_pred span_if_entry];
    try (apply (span_pred_spec E P p _ _ B N B' N'); assumption).
  destruct HS as [t Ht]; [now exists s|discriminate].
Qed.
Lemma call_entry_span E P p s x B N : good_local E -> tame E P -> interval E P s B N ->
  call_pred E p (CSpan s) (CEntry x) = Err AttributeError.
Proof.
  intros GL HT (b & e & (HK & HB & HE & CB & CE) & _). cbn [call_pred span_pred]. unfold span_tuple. rewrite HB, HE. cbn [or_default opt_res].
  destruct (norm_ok E GL b CB) as (b' & -> & _). cbn [rmap bind]. destruct (norm_ok E GL e CE) as (e' & EN & _).
  cbn [or_default opt_res]. rewrite EN. cbn [rmap bind]. now destruct (ts_kind s).
Qed.
Lemma tuple_ok E P s B N : good_local E -> interval E P s B N -> exists p, span_tuple E None s = Ok p.
Proof.
  intros GL (b & e & (HK & HB & HE & CB & CE) & _). unfold span_tuple. rewrite HB, HE. cbn [or_default opt_res].
  destruct (norm_ok E GL b CB) as (b' & -> & _). cbn [rmap bind]. destruct (norm_ok E GL e CE) as (e' & EN & _).
  cbn [or_default opt_res]. rewrite EN. cbn [rmap bind]. now eexists.
Qed.
Lemma call_instant E P a B N d : good_local E -> tame E P -> occupies E P a B N -> convertible E d -> P d ->
  (exists b, call_pred E PIncludes a (CInstant d) = Ok b /\ (b = true <-> B <= moment E d < N)) /\
  (forall p, p <> PIncludes -> call_pred E p a (CInstant d) = Err AttributeError) /\
  (forall p, call_pred E p a COther = Err AttributeError).
Proof.
  intros GL HT HA HD PD.
  assert (K : forall s, interval E P s B N -> (exists b, includes_dt E s d = Ok b /\ (b = true <-> B <= moment E d < N)) /\
    (exists q, span_tuple E None s = Ok q)).
  { intros s Hs. split; [exact (includes_dt_prop E P s B N d GL HT Hs HD PD)|exact (tuple_ok E P s B N GL Hs)]. }
  destruct a as [x|s| |]; try easy; destruct (K _ HA) as (K1 & q & K2); (split; [exact K1|]); cbn [call_pred span_if_entry];
    (split; intros p; [intros Hp; destruct p; try easy; cbn [span_pred]; now rewrite K2|cbn [span_pred]; now rewrite K2]).
Qed.
Lemma contains_spec E P s o B N : good_local E -> tame E P -> interval E P s B N ->
  (forall t B' N', o = CSpan t -> interval E P t B' N' -> exists b, contains_op E (CSpan s) o = Ok b /\ (b = true <-> B <= B' /\ N' < N)) /\
  (forall d, o = CInstant d -> convertible E d -> P d -> exists b, contains_op E (CSpan s) o = Ok b /\ (b = true <-> B <= moment E d < N)) /\
  (forall x, contains_op E (CEntry x) o = Err TypeError).
Proof.
  intros GL HT HS. split; [|split].
  - intros t B' N' -> Ht. exact (span_pred_spec E P PIncludes s t B N B' N' GL HT HS Ht).
  - intros d -> HD PD. exact (includes_dt_prop E P s B N d GL HT HS HD PD).
  - reflexivity.
Qed.
Lemma compare_mixed E o a b : (is_entry a /\ ~ is_entry b) \/ (~ is_entry a /\ is_entry b) \/ (is_span a /\ ~ is_span b) \/ (~ is_span a /\ is_span b) ->
  compare_op E o a b = Err TypeError.
Proof.
  unfold is_entry, is_span. destruct a, b; try reflexivity; intros [[H1 H2]|[[H1 H2]|[[H1 H2]|[H1 H2]]]]; exfalso;
    repeat match goal with
    | H : exists _, _ = _ |- _ => destruct H as [? H]; discriminate H
    | H : ~ (exists _, _ = _) |- _ => apply H; eexists; reflexivity
    end.
Qed.
Section By.
Context {A K : Type} (D : A -> Prop) (op : cmpop -> A -> A -> res bool) (R : A -> K -> Prop) (lt : K -> K -> Prop).
Hypothesis HC : consistent_ops D op.
Hypothesis HD : forall x k, R x k -> D x.
Hypothesis HL : forall x y k l, R x k -> R y l -> exists b, op CLt x y = Ok b /\ (b = true <-> lt k l).
Lemma by_ops o x y k l : R x k -> R y l -> exists b, op o x y = Ok b /\ (b = true <-> means_op o lt k l).
Proof.
  intros HX HY. pose proof (HD x k HX) as DX. pose proof (HD y l HY) as DY.
  destruct (HL x y k l HX HY) as (b & B1 & B2), (HL y x l k HY HX) as (c & C1 & C2).
  assert (N : forall (z : bool) Q, (z = true <-> Q) -> (negb z = true <-> ~ Q)).
  { intros z Q HQ. destruct z; cbn; split; intros H; try easy; try (now intros H'; apply HQ in H').
    exfalso. apply H, HQ. reflexivity. }
  destruct o; cbn [means_op].
  - now exists b.
  - exists (negb c). rewrite (cp_le _ _ HC x y DX DY), C1. split; [easy|now apply N].
  - exists c. now rewrite (cp_gt _ _ HC x y DX DY).
  - exists (negb b). rewrite (cp_ge _ _ HC x y DX DY), (cp_le _ _ HC y x DY DX), B1. split; [easy|now apply N].
Qed.
End By.
Lemma compare_entries E P o x y k l : good_local E -> tame E P -> sort_key E P (en_span x) k -> sort_key E P (en_span y) l ->
  exists b, compare_op E o (CEntry x) (CEntry y) = Ok b /\ (b = true <-> means_op o entry_lt (k, en_name x) (l, en_name y)).
Proof.
  intros GL HT HX HY. cbn [compare_op].
  apply (by_ops (fun x => exists k, sort_key E P (en_span x) k) (entry_op E)
    (fun z kk => sort_key E P (en_span z) (fst kk) /\ snd kk = en_name z) entry_lt); [now apply entry_consistent| | | |]; try easy.
  - intros z kk [H _]. eexists. exact H.
  - intros a b [ka na] [kb nb] [H1 H2] [H3 H4]. cbn [fst snd] in *. subst. apply (entry_lt_key E GL P HT); assumption.
Qed.
Lemma compare_spans E P o s t k l : good_local E -> tame E P -> sort_key E P s k -> sort_key E P t l ->
  exists b, compare_op E o (CSpan s) (CSpan t) = Ok b /\ (b = true <-> means_op o key_lt k l).
Proof.
  intros GL HT HX HY. cbn [compare_op].
  apply (by_ops (fun x => exists k, sort_key E P x k) (span_op E) (sort_key E P) key_lt); [now apply span_consistent| | | |]; try easy.
  - intros z kk H. eexists. exact H.
  - intros a b ka kb H1 H2. apply (span_lt_key E GL P HT); assumption.
Qed.

Lemma call_receiver E p a b : ~ is_entry a -> ~ is_span a -> call_pred E p a b = Err AttributeError.
Proof. intros H1 H2. destruct a; [destruct H1; eexists; reflexivity | destruct H2; eexists; reflexivity | reflexivity..]. Qed.
