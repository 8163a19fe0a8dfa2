(** * Proofs: what each converter leaves alone *)
From Verif Require Import M_Base M_Text M_Line M_Codec M_Cal M_Time M_Span M_Dt M_Tree M_Comp P_Base P_Comp.
From Coq Require Import Lia ZifyBool ZifyNat ZifyN.

(** Keys of [extra_params] a converter may write when reading. *)
Definition pkeys (a : aconv) : list (list N) :=
  match a_kind a with
  | KVal _ _ _ _ => [a_key a]
  | KSpan _ => [py "BEGIN"; py "END"; py "DUE"; py "DURATION"]
  | KAction => [py "ACTION"]
  | KMember _ | KZones => []
  end.
Definition is_span (a : aconv) : bool := match a_kind a with KSpan _ => true | _ => false end.

Lemma keys_dict_set_in {V} k (v : V) d : In k (keys d) -> keys (dict_set k v d) = keys d.
Proof.
  induction d as [|[k2 v2] d IH]; cbn; [easy|]. destruct (str_eqb k k2) eqn:E; cbn.
  - apply str_eqb_eq in E. now subst.
  - intros [->|H]; [now rewrite str_eqb_refl in E|]. f_equal. now apply IH.
Qed.
Lemma keys_dict_get {V} k (d : dict V) : In k (keys d) <-> dict_get k d <> None.
Proof.
  rewrite dict_get_None. split; [tauto|]. intro H. destruct (in_dec (list_eq_dec N.eq_dec) k (keys d)); [easy|contradiction].
Qed.
(** Two dictionaries with the same keys in the same order and the same values. *)
Lemma dict_ext {V} (a b : dict V) : NoDup (keys a) -> keys a = keys b ->
  (forall k, In k (keys a) -> dict_get k a = dict_get k b) -> a = b.
Proof.
  revert b; induction a as [|[k v] a IH]; intros [|[k' v'] b]; cbn; intros ND E H; try discriminate; [easy|].
  injection E as <- E. inversion ND as [|? ? Nk ND']; subst. pose proof (H k (or_introl eq_refl)) as H0.
  cbn in H0. rewrite str_eqb_refl in H0. injection H0 as <-. f_equal. apply IH; [easy|easy|].
  intros q Hq. pose proof (H q (or_intror Hq)) as Hr. assert (q <> k) as Nq by (intros ->; easy).
  apply str_eqb_neq in Nq. now rewrite Nq in Hr.
Qed.

Section Frame.
Variable X : ext.
Variable M : Type.
Notation lst := (lst M).

Record off (a : aconv) (st st' : lst) : Prop := mk_off {
  o_attr : forall k, k <> a_attr a -> dict_get k (c_attrs (l_comp st')) = dict_get k (c_attrs (l_comp st));
  o_keys : In (a_attr a) (keys (c_attrs (l_comp st))) \/ has_attr a = false ->
    keys (c_attrs (l_comp st')) = keys (c_attrs (l_comp st));
  o_par : forall k, ~ In k (pkeys a) -> dict_get k (c_params (l_comp st')) = dict_get k (c_params (l_comp st));
  o_mem : forall k, k <> a_attr a \/ has_members a = false ->
    dict_get k (c_mem (l_comp st')) = dict_get k (c_mem (l_comp st));
  o_mkeys : In (a_attr a) (keys (c_mem (l_comp st))) \/ has_members a = false ->
    keys (c_mem (l_comp st')) = keys (c_mem (l_comp st));
  o_count : forall k, k <> a_attr a -> dict_get k (l_count st') = dict_get k (l_count st);
  o_span : is_span a = false -> l_span st' = l_span st
}.
Lemma off_refl a st : off a st st. Proof. split; auto. Qed.
Lemma off_trans a s1 s2 s3 : off a s1 s2 -> off a s2 s3 -> off a s1 s3.
Proof.
  intros [A1 K1 P1 M1 MK1 C1 S1] [A2 K2 P2 M2 MK2 C2 S2]. split.
  - intros. now rewrite A2, A1.
  - intros H. rewrite K2, K1; auto. rewrite K1; auto.
  - intros. now rewrite P2, P1.
  - intros. now rewrite M2, M1.
  - intros H. rewrite MK2, MK1; auto. rewrite MK1; auto.
  - intros. now rewrite C2, C1.
  - intros H. now rewrite S2, S1.
Qed.

Lemma store_params_get key p (c : comp M) k : k <> key -> dict_get k (c_params (store_params key p c)) = dict_get k (c_params c).
Proof. intro H. destruct p; [easy|]. cbn. apply dict_get_set_other. congruence. Qed.
Lemma append_params_get key p (c c' : comp M) k : append_params key p c = Ok c' -> k <> key ->
  dict_get k (c_params c') = dict_get k (c_params c).
Proof.
  unfold append_params. destruct (dict_get key _) as [[]|]; intros [= <-] H; cbn; apply dict_get_set_other; congruence.
Qed.
Lemma append_value_get a v (c c' : comp M) : append_value a v c = Ok c' ->
  (forall k, k <> a -> dict_get k (c_attrs c') = dict_get k (c_attrs c)) /\
  (In a (keys (c_attrs c)) -> keys (c_attrs c') = keys (c_attrs c)).
Proof.
  unfold append_value. destruct (get_attr a c); intros [= <-]; cbn; (split; [intros; apply dict_get_set_other; congruence|apply keys_dict_set_in]).
Qed.

Lemma single_off a convs s cl st st' multi r : a_kind a = KVal convs multi r s ->
  populate_single X a convs s cl st = Ok st' -> off a st st'.
Proof.
  intros K. unfold populate_single. destruct (Nat.ltb _ _); [discriminate|]. intro H. unbind2 H. unbind3 H. unbind H.
  injection H as <-. pose proof (store_frame M (a_key a) b0 (l_comp st)) as (F1 & F2 & F3 & F4 & F5).
  split; cbn [l_comp l_count l_span c_attrs c_params c_mem set_attrs].
  - intros k Hk. rewrite F5. apply dict_get_set_other. congruence.
  - rewrite F5. intros [I|I]; [now apply keys_dict_set_in|]. unfold has_attr in I. now rewrite K in I.
  - unfold pkeys. rewrite K. intros k Hk. apply store_params_get. intros ->. apply Hk. now left.
  - intros. now rewrite F4.
  - intros. now rewrite F4.
  - intros k Hk. apply dict_get_set_other. congruence.
  - easy.
Qed.
Lemma values_off a c convs r s vals : a_kind a = KVal convs true r s -> forall ps (st st' : lst),
  populate_values X a c vals ps st = Ok st' -> off a st st'.
Proof.
  intro K. induction vals as [|w vals IH]; intros ps st st' H; cbn [populate_values] in H.
  { injection H as <-. apply off_refl. }
  unbind3 H. unbind H. unbind H. apply IH in H. refine (off_trans _ _ _ _ _ H). clear H IH.
  match goal with A : append_params _ _ _ = Ok _, V : append_value _ _ _ = Ok _ |- _ =>
    pose proof (append_params_frame _ _ _ _ _ A) as (? & ? & ? & ? & EA);
    pose proof (append_value_frame _ _ _ _ _ V) as (? & ? & ? & ? & EP);
    pose proof (append_value_get _ _ _ _ V) as [GA KA]; rename A into HA end.
  split; cbn [l_comp l_count l_span].
  - intros k Hk. rewrite GA by easy. now rewrite EA.
  - intros [I|I]; [|unfold has_attr in I; now rewrite K in I]. rewrite KA; rewrite EA; easy.
  - unfold pkeys. rewrite K. intros k Hk. rewrite EP. eapply append_params_get; [exact HA|]. intros ->. apply Hk. now left.
  - intros. congruence.
  - intros. congruence.
  - intros k Hk. apply dict_get_set_other. congruence.
  - easy.
Qed.
Lemma multi_off a convs r s cl (st st' : lst) : a_kind a = KVal convs true r s ->
  populate_multi X a convs cl st = Ok st' -> off a st st'.
Proof. unfold populate_multi. intros K H. unbind2 H. unbind H. eapply values_off; eauto. Qed.
Lemma span_off a k cl (st st' : lst) : a_kind a = KSpan k -> populate_span X cl st = Ok st' -> off a st st'.
Proof.
  intros K. unfold populate_span. destruct (existsb _ _); [discriminate|].
  assert (ST : forall key p sc zs, In key [py "BEGIN"; py "END"; py "DUE"; py "DURATION"] ->
    off a st (mk_lst (store_params key p (l_comp st)) (l_count st) sc zs)).
  { intros key p sc zs I. pose proof (store_frame M key p (l_comp st)) as (F1 & F2 & F3 & F4 & F5).
    split; cbn [l_comp l_count l_span]; try (intros; congruence).
    - unfold pkeys. rewrite K. intros k0 Hk. apply store_params_get. intros ->. easy.
    - unfold is_span. now rewrite K. }
  destruct (str_eqb _ (py "DURATION")).
  - intro H. unbind H. injection H as <-. apply ST. cbn; tauto.
  - intro H. unbind H. destruct a0 as [[[p d] ps2] zs]. unbind H. destruct (str_eqb _ (py "DTSTART")); injection H as <-; apply ST; [cbn; tauto|].
    destruct (str_eqb _ _); cbn; tauto.
Qed.
Lemma action_off a cl (st st' : lst) : a_kind a = KAction -> populate_action cl st = Ok st' -> off a st st'.
Proof.
  intro K. unfold populate_action. destruct (cls_eqb _ _); [|discriminate]. intros [= <-].
  pose proof (store_frame M (py "ACTION") (cl_params cl) (l_comp st)) as (F1 & F2 & F3 & F4 & F5).
  split; cbn [l_comp l_count l_span]; try (intros; congruence); auto.
  unfold pkeys. rewrite K. intros k0 Hk. apply store_params_get. intros ->. apply Hk. now left.
Qed.

Section Load.
Variable load_m : mkind -> list N -> list item -> zones -> res (M * zones).
Lemma conv_off a it (st st' : lst) b : populate_conv X M load_m a it st = Ok (st', b) -> off a st st'.
Proof.
  unfold populate_conv. destruct (a_kind a) as [convs [] r s|k|m| |] eqn:K, it as [l|n its]; try discriminate; intro H.
  - unbind H. injection H as <- <-. eapply multi_off; eauto.
  - unbind H. injection H as <- <-. eapply single_off; eauto.
  - unbind H. injection H as <- <-. eapply span_off; eauto.
  - unbind2 H. injection H as <- <-. split; cbn [l_comp l_count l_span c_attrs c_params c_mem set_mem]; auto.
    + intros k [Hk|Hk]; [apply dict_get_set_other; congruence|]. unfold has_members in Hk. now rewrite K in Hk.
    + intros [I|I]; [now apply keys_dict_set_in|]. unfold has_members in I. now rewrite K in I.
  - unbind H. injection H as <- <-. eapply action_off; eauto.
  - injection H as <- <-. apply off_refl.
  - injection H as <- <-. apply off_refl.
Qed.

(** Reading one item with one converter. *)
Lemma item_one a it (st : lst) : lookup (c_cls (l_comp st)) (item_name it) = [a] ->
  populate_item X M load_m it st =
  do (st', b) <- populate_conv X M load_m a it st;
  if b then Ok st'
  else Ok (mk_lst (set_extra (c_extra (l_comp st') ++ [it]) (l_comp st')) (l_count st') (l_span st') (l_zones st')).
Proof.
  intro L. unfold populate_item. rewrite L. cbn [populate_convs]. destruct (populate_conv _ _ _ _ _ _) as [[st' b]|e]; [|easy].
  now destruct b.
Qed.
(** Reading an unknown item. *)
Lemma item_none it (st : lst) : lookup (c_cls (l_comp st)) (item_name it) = [] ->
  populate_item X M load_m it st =
  Ok (mk_lst (set_extra (c_extra (l_comp st) ++ [it]) (l_comp st)) (l_count st) (l_span st) (l_zones st)).
Proof. intro L. unfold populate_item. now rewrite L. Qed.

(** An item leaves alone an attribute none of its converters has, and its parameters. *)
Lemma convs_other attr key l it : (forall b, In b l -> a_attr b <> attr /\ ~ In key (pkeys b)) ->
  forall (st st' : lst) b0 b, populate_convs X M load_m l it st b0 = Ok (st', b) ->
  dict_get attr (c_attrs (l_comp st')) = dict_get attr (c_attrs (l_comp st)) /\
  dict_get key (c_params (l_comp st')) = dict_get key (c_params (l_comp st)).
Proof.
  induction l as [|d l IH]; intros HO st st' b0 b H; cbn [populate_convs] in H; [now injection H as <- <-|].
  unbind2 H. apply conv_off in Ha. apply IH in H as [H1 H2]; [|intros; apply HO; now right].
  destruct (HO d (or_introl eq_refl)) as [O1 O2]. rewrite H1, H2. destruct Ha as [OA _ OP _ _ _ _].
  rewrite OA by congruence. now rewrite OP.
Qed.
Lemma item_other attr key it (st st' : lst) :
  (forall b, In b (lookup (c_cls (l_comp st)) (item_name it)) -> a_attr b <> attr /\ ~ In key (pkeys b)) ->
  populate_item X M load_m it st = Ok st' ->
  dict_get attr (c_attrs (l_comp st')) = dict_get attr (c_attrs (l_comp st)) /\
  dict_get key (c_params (l_comp st')) = dict_get key (c_params (l_comp st)).
Proof.
  intros HO H. unfold populate_item in H. unbind2 H. apply (convs_other attr key) in Ha; [|exact HO].
  destruct b; injection H as <-; exact Ha.
Qed.
Lemma post_other attr l : (forall a, In a l -> a_attr a = attr -> is_span a = false) -> forall st st' : lst,
  post_convs X M l st = Ok st' ->
  dict_get attr (c_attrs (l_comp st')) = dict_get attr (c_attrs (l_comp st)) /\
  c_params (l_comp st') = c_params (l_comp st).
Proof.
  induction l as [|a l IH]; intros HS st st' H; cbn [post_convs] in H; [now injection H as <-|].
  unbind H. apply IH in H as [H1 H2]; [|intros; apply HS; [now right|easy]]. rewrite H1, H2.
  specialize (HS a (or_introl eq_refl)). unfold is_span in HS. unfold post_conv in Ha. destruct (a_kind a) as [convs m r s|k|m| |].
  - destruct (_ && _); [discriminate|]. now injection Ha as <-.
  - unbind Ha. unbind Ha. unbind Ha. injection Ha as <-. cbn. split; [|easy]. apply dict_get_set_other. intro E. now specialize (HS E).
  - now injection Ha as <-.
  - now injection Ha as <-.
  - now injection Ha as <-.
Qed.
End Load.
End Frame.
