(** * Proofs: the reading loop, one converter at a time *)
From Verif Require Import M_Base M_Line M_Cal M_Time M_Span M_Dt M_Tree M_Comp.
From Verif Require Import S_Comp P_Base P_Comp P_Frame P_Whole P_Local P_Reorder.
From Coq Require Import Lia.
Open Scope N_scope.

Section Gen.
Variable X : ext.
Variable M : Type.
Variable load_m : mkind -> list N -> list item -> zones -> res (M * zones).
Local Notation lst := (lst M).

(** The same data for a converter. *)
Record at_same (a : aconv) (s t : lst) : Prop := mk_at_same {
  as_cls : c_cls (l_comp s) = c_cls (l_comp t);
  as_attr : dict_get (a_attr a) (c_attrs (l_comp s)) = dict_get (a_attr a) (c_attrs (l_comp t));
  as_par : forall k, In k (pkeys a) -> dict_get k (c_params (l_comp s)) = dict_get k (c_params (l_comp t));
  as_mem : dict_get (a_attr a) (c_mem (l_comp s)) = dict_get (a_attr a) (c_mem (l_comp t));
  as_count : dict_get (a_attr a) (l_count s) = dict_get (a_attr a) (l_count t);
  as_span : is_span a = true -> l_span s = l_span t
}.
Lemma at_off a b s t : indep b a -> off M b s t -> c_cls (l_comp t) = c_cls (l_comp s) -> at_same a s t.
Proof.
  intros (I1 & I2 & I3) O C. split.
  - congruence.
  - symmetry. apply O. congruence.
  - intros k Hk. symmetry. apply O. intro I. now apply (I2 k).
  - symmetry. apply O. left. congruence.
  - symmetry. apply O. congruence.
  - intro S. symmetry. apply O. destruct I3 as [I3|I3]; [exact I3|congruence].
Qed.
Lemma pairwise_indep l a b : pairwise l -> In a l -> In b l -> a <> b -> indep a b.
Proof.
  induction l as [|x l IH]; [easy|]. intros [P1 P2] [->|HA] [->|HB] NE; auto; [congruence|].
  now apply indep_sym, P1.
Qed.
Lemma pairwise_NoDup l : pairwise l -> NoDup l.
Proof.
  induction l as [|x l IH]; [constructor|]. intros [P1 P2]. constructor; auto. intro I. now destruct (P1 x I).
Qed.

Variable c : cls.
Variable zs : zones.
Variable part : aconv -> list item -> lst -> Prop.
Definition named (a : aconv) (it : item) : Prop := In (item_name it) (a_names a).
Hypothesis frame : forall a its s t, In a (converters c) -> at_same a s t -> part a its s -> part a its t.
Hypothesis step : forall a pre it s s' b, In a (converters c) -> named a it -> c_cls (l_comp s) = c -> zeq X zs (l_zones s) -> part a pre s ->
  populate_conv X M load_m a it s = Ok (s', b) -> part a (pre ++ [it]) s' /\ zeq X zs (l_zones s').
Hypothesis skip : forall a pre it s, In a (converters c) -> ~ named a it -> part a pre s -> part a (pre ++ [it]) s.

Definition all_parts (its : list item) (s : lst) : Prop :=
  c_cls (l_comp s) = c /\ zeq X zs (l_zones s) /\ forall a, In a (converters c) -> part a its s.
(** Some converters have done their work on the last item. *)
Definition half (D : list aconv) (pre : list item) (it : item) (s : lst) : Prop :=
  c_cls (l_comp s) = c /\ zeq X zs (l_zones s) /\
  forall a, In a (converters c) -> (In a D -> part a (pre ++ [it]) s) /\ (~ In a D -> part a pre s).

Lemma conv_cls a it s s' b : populate_conv X M load_m a it s = Ok (s', b) -> c_cls (l_comp s') = c_cls (l_comp s).
Proof. intro H. now apply populate_conv_spec in H as ([F _ _] & _). Qed.

Lemma half_step D pre it a s s' b : In a (converters c) -> named a it -> ~ In a D -> half D pre it s ->
  populate_conv X M load_m a it s = Ok (s', b) -> half (a :: D) pre it s'.
Proof.
  intros HA HN ND (HC & HZ & HP) H. pose proof (conv_cls _ _ _ _ _ H) as HC'. pose proof (conv_off _ _ _ _ _ _ _ _ H) as HO.
  destruct (step a pre it s s' b HA HN HC HZ (proj2 (HP a HA) ND) H) as [S1 S2]. split; [congruence|]. split; [exact S2|].
  assert (F : forall b its, In b (converters c) -> b <> a -> part b its s -> part b its s').
  { intros b0 its0 HB NE. apply frame; [exact HB|]. apply at_off with (b := a); [|exact HO|exact HC'].
    eapply pairwise_indep; [apply (class_pairwise_all c)|..]; auto. }
  intros b0 HB. destruct (HP b0 HB) as [P1 P2]. split.
  - intros [->|I]; [exact S1|]. apply F; [exact HB| |now apply P1]. intros ->. contradiction.
  - intro NI. apply F; [exact HB| |apply P2]; intro E; apply NI; [now left|now right].
Qed.
Lemma half_convs pre it l : NoDup l -> (forall a, In a l -> In a (converters c) /\ named a it) ->
  forall D s s' f0 f, (forall a, In a l -> ~ In a D) -> half D pre it s -> populate_convs X M load_m l it s f0 = Ok (s', f) ->
  exists D', half D' pre it s' /\ (forall a, In a D' <-> In a l \/ In a D).
Proof.
  induction l as [|a l IH]; intros ND HL D s s' f0 f HD HH H.
  - injection H as <- <-. exists D. split; [exact HH|]. cbn. tauto.
  - cbn [populate_convs] in H. apply bind_Ok in H as ([s1 b] & H1 & H). inversion ND as [|? ? N1 N2]; subst.
    destruct (HL a (or_introl eq_refl)) as [L1 L2]. pose proof (half_step D pre it a s s1 b L1 L2 (HD a (or_introl eq_refl)) HH H1) as HH1.
    destruct (IH N2 (fun x I => HL x (or_intror I)) (a :: D) s1 s' (f0 || b)%bool f) as (D' & E1 & E2); [|exact HH1|exact H|].
    { intros x I [->|J]; [contradiction|]. now apply (HD x (or_intror I)). }
    exists D'. split; [exact E1|]. intro x. rewrite E2. cbn. tauto.
Qed.
Lemma lookup_NoDup n : NoDup (lookup c n).
Proof. apply NoDup_filter, pairwise_NoDup, class_pairwise_all. Qed.
Lemma lookup_iff n a : In a (lookup c n) <-> In a (converters c) /\ In n (a_names a).
Proof. rewrite lookup_In, converters_In. tauto. Qed.

Lemma half_start pre it s : all_parts pre s -> half [] pre it s.
Proof. intros (H1 & H2 & H3). split; [exact H1|]. split; [exact H2|]. intros a HA. split; [easy|]. intros _. auto. Qed.
Lemma named_dec a it : named a it \/ ~ named a it.
Proof. unfold named. destruct (in_dec (list_eq_dec N.eq_dec) (item_name it) (a_names a)); auto. Qed.
Lemma half_end D pre it s : (forall a, In a D <-> In a (lookup c (item_name it)) \/ In a []) -> half D pre it s -> all_parts (pre ++ [it]) s.
Proof.
  intros HD (H1 & H2 & H3). split; [exact H1|]. split; [exact H2|]. intros a HA. destruct (H3 a HA) as [P1 P2]. destruct (named_dec a it) as [N|N].
  - apply P1, HD. left. now apply lookup_iff.
  - apply skip; auto. apply P2. rewrite HD. intros [I|[]]. now apply lookup_iff in I as [_ I].
Qed.
(** The items that are kept as they are do not touch the data of a converter. *)
Lemma all_extra its e s : all_parts its s -> all_parts its (mk_lst (set_extra e (l_comp s)) (l_count s) (l_span s) (l_zones s)).
Proof.
  intros (H1 & H2 & H3). split; [exact H1|]. split; [exact H2|]. intros a HA. eapply frame; [exact HA| |apply H3, HA]. now split.
Qed.
Lemma item_parts pre it s s' : all_parts pre s -> populate_item X M load_m it s = Ok s' -> all_parts (pre ++ [it]) s'.
Proof.
  intros HP H. unfold populate_item in H. apply bind_Ok in H as ([s1 b] & H1 & H). rewrite (proj1 HP) in H1.
  destruct (half_convs pre it (lookup c (item_name it))) with (D := @nil aconv) (s := s) (s' := s1) (f0 := false) (f := b) as (D' & E1 & E2); auto.
  - apply lookup_NoDup.
  - intros a I. now apply lookup_iff in I.
  - now apply half_start.
  - pose proof (half_end D' pre it s1 E2 E1) as K. destruct b; injection H as <-; [exact K|]. now apply all_extra.
Qed.
Theorem items_parts its : forall pre s s', all_parts pre s -> populate_items X M load_m its s = Ok s' -> all_parts (pre ++ its) s'.
Proof.
  induction its as [|it its IH]; intros pre s s' HP H.
  - injection H as <-. now rewrite app_nil_r.
  - cbn [populate_items] in H. apply bind_Ok in H as (s1 & H1 & H). replace (pre ++ it :: its) with ((pre ++ [it]) ++ its) by now rewrite <- app_assoc.
    eapply IH; [|exact H]. eapply item_parts; eauto.
Qed.

(** ** Success *)
Variable whole : list item.
Hypothesis go : forall a pre it post s, In a (converters c) -> named a it -> whole = pre ++ it :: post -> c_cls (l_comp s) = c ->
  zeq X zs (l_zones s) -> part a pre s -> exists s' b, populate_conv X M load_m a it s = Ok (s', b).
Lemma convs_go pre it post l : whole = pre ++ it :: post -> NoDup l -> (forall a, In a l -> In a (converters c) /\ named a it) ->
  forall D s f0, (forall a, In a l -> ~ In a D) -> half D pre it s -> exists s' f, populate_convs X M load_m l it s f0 = Ok (s', f).
Proof.
  intro HW. induction l as [|a l IH]; intros ND HL D s f0 HD HH; [eexists _, _; reflexivity|].
  inversion ND as [|? ? N1 N2]; subst. destruct (HL a (or_introl eq_refl)) as [L1 L2]. pose proof HH as (HC & HZ & HP).
  destruct (go a pre it post s L1 L2 eq_refl HC HZ (proj2 (HP a L1) (HD a (or_introl eq_refl)))) as (s1 & b & H1).
  pose proof (half_step D pre it a s s1 b L1 L2 (HD a (or_introl eq_refl)) HH H1) as HH1.
  destruct (IH N2 (fun x I => HL x (or_intror I)) (a :: D) s1 (f0 || b)%bool) as (s2 & f & H2); [|exact HH1|].
  { intros x I [->|J]; [contradiction|]. now apply (HD x (or_intror I)). }
  exists s2, f. cbn [populate_convs]. now rewrite H1.
Qed.
Theorem items_go its : forall pre s, whole = pre ++ its -> all_parts pre s -> exists s', populate_items X M load_m its s = Ok s'.
Proof.
  induction its as [|it its IH]; intros pre s HW HP; [eexists; reflexivity|].
  destruct (convs_go pre it its (lookup c (item_name it)) HW) with (D := @nil aconv) (s := s) (f0 := false) as (s1 & f & H1); auto.
  - apply lookup_NoDup.
  - intros a I. now apply lookup_iff in I.
  - now apply half_start.
  - assert (exists s2, populate_item X M load_m it s = Ok s2) as (s2 & H2).
    { unfold populate_item. rewrite (proj1 HP), H1. cbn [bind]. destruct f; eexists; reflexivity. }
    destruct (IH (pre ++ [it]) s2) as (s3 & H3); [now rewrite <- app_assoc|eapply item_parts; eauto|]. exists s3. cbn [populate_items]. now rewrite H2.
Qed.

(** ** Afterwards *)
Variable fin : aconv -> list item -> lst -> Prop.
Hypothesis fin_frame : forall a its s t, In a (converters c) -> at_same a s t -> fin a its s -> fin a its t.
Hypothesis post_fin : forall a its s s', In a (converters c) -> c_cls (l_comp s) = c -> part a its s -> post_conv X M a s = Ok s' -> fin a its s'.
Lemma post_off a s s' : post_conv X M a s = Ok s' -> off M a s s'.
Proof.
  unfold post_conv. destruct (a_kind a) as [convs m r t|k|m| |] eqn:K.
  - destruct (r && _)%bool; [discriminate|]. intros [= <-]. split; auto. intros k Hk. now apply dict_get_set_other; congruence.
  - intro H. apply bind_Ok in H as (t & _ & H). apply bind_Ok in H as (u & _ & H). apply bind_Ok in H as (v & _ & H). injection H as <-.
    split; cbn [l_comp l_count l_span set_attrs c_attrs c_params c_mem]; auto.
    + intros k0 Hk. apply dict_get_set_other. congruence.
    + intros [I|F]; [now apply keys_dict_set_in|]. unfold has_attr in F. rewrite K in F. discriminate.
    + unfold is_span. now rewrite K.
  - intros [= <-]. apply off_refl.
  - intros [= <-]. apply off_refl.
  - intros [= <-]. apply off_refl.
Qed.
Lemma post_cls a s s' : post_conv X M a s = Ok s' -> c_cls (l_comp s') = c_cls (l_comp s).
Proof. intro H. now apply post_conv_frame in H as ([F _ _] & _). Qed.
Lemma post_zones a s s' : post_conv X M a s = Ok s' -> l_zones s' = l_zones s.
Proof.
  unfold post_conv. destruct (a_kind a).
  - destruct (_ && _)%bool; [discriminate|]. now intros [= <-].
  - intro H. apply bind_Ok in H as (t & _ & H). apply bind_Ok in H as (u & _ & H). apply bind_Ok in H as (v & _ & H). now injection H as <-.
  - now intros [= <-].
  - now intros [= <-].
  - now intros [= <-].
Qed.
Definition halfway (D : list aconv) (its : list item) (s : lst) : Prop :=
  c_cls (l_comp s) = c /\ zeq X zs (l_zones s) /\ forall a, In a (converters c) -> (In a D -> fin a its s) /\ (~ In a D -> part a its s).
Lemma halfway_step D its a s s' : In a (converters c) -> ~ In a D -> halfway D its s -> post_conv X M a s = Ok s' -> halfway (a :: D) its s'.
Proof.
  intros HA ND (HC & HZ & HP) H. pose proof (post_cls _ _ _ H) as HC'. pose proof (post_off _ _ _ H) as HO.
  pose proof (post_fin a its s s' HA HC (proj2 (HP a HA) ND) H) as S1. split; [congruence|]. split; [now rewrite (post_zones _ _ _ H)|].
  assert (F : forall b, In b (converters c) -> b <> a -> at_same b s s').
  { intros b0 HB NE. apply at_off with (b := a); [|exact HO|exact HC']. eapply pairwise_indep; [apply (class_pairwise_all c)|..]; auto. }
  intros b0 HB. destruct (HP b0 HB) as [P1 P2]. split.
  - intros [->|I]; [exact S1|]. eapply fin_frame; [exact HB| |now apply P1]. apply F; [exact HB|]. intros ->. contradiction.
  - intro NI. assert (b0 <> a) by (intros ->; apply NI; now left). eapply frame; [exact HB|now apply F|]. apply P2. intro I. apply NI. now right.
Qed.
Lemma posts_parts its l : forall D s s', NoDup l -> (forall a, In a l -> In a (converters c) /\ ~ In a D) -> halfway D its s ->
  post_convs X M l s = Ok s' -> exists D', halfway D' its s' /\ forall a, In a l \/ In a D -> In a D'.
Proof.
  induction l as [|a l IH]; intros D s s' ND HL HH H.
  - injection H as <-. exists D. split; [exact HH|]. now intros a [[]|I].
  - cbn [post_convs] in H. apply bind_Ok in H as (s1 & H1 & H). inversion ND as [|? ? N1 N2]; subst. destruct (HL a (or_introl eq_refl)) as [L1 L2].
    pose proof (halfway_step D its a s s1 L1 L2 HH H1) as HH1. destruct (IH (a :: D) s1 s' N2) as (D' & E1 & E2); [|exact HH1|exact H|].
    { intros x I. destruct (HL x (or_intror I)) as [J1 J2]. split; [exact J1|]. intros [->|J]; contradiction. }
    exists D'. split; [exact E1|]. intros x [[->|I]|I]; apply E2; [right; now left|now left|right; now right].
Qed.
Hypothesis post_go : forall a s, In a (converters c) -> part a whole s -> exists s', post_conv X M a s = Ok s'.
Lemma posts_go l : forall D s, NoDup l -> (forall a, In a l -> In a (converters c) /\ ~ In a D) -> halfway D whole s -> exists s', post_convs X M l s = Ok s'.
Proof.
  induction l as [|a l IH]; intros D s ND HL HH; [eexists; reflexivity|]. inversion ND as [|? ? N1 N2]; subst. destruct (HL a (or_introl eq_refl)) as [L1 L2].
  destruct (post_go a s L1 (proj2 (proj2 (proj2 HH) a L1) L2)) as (s1 & H1).
  pose proof (halfway_step D whole a s s1 L1 L2 HH H1) as HH1. destruct (IH (a :: D) s1 N2) as (s2 & H2); [|exact HH1|].
  { intros x I. destruct (HL x (or_intror I)) as [J1 J2]. split; [exact J1|]. intros [->|J]; contradiction. }
  exists s2. cbn [post_convs]. now rewrite H1.
Qed.
End Gen.
