(** * Proofs about cloning components *)
From Verif Require Import M_Base M_Text M_Line M_Codec M_Cal M_Time M_Span M_Dt M_Tree M_Comp M_Clone S_Line S_Tree S_Clone.
From Verif Require P_Tree.
From Verif Require Import P_Base P_Comp P_Frame.
From Coq Require Import Lia ZifyBool ZifyNat ZifyN.

Section Clone.
Variable X : ext.
Variable n : N.
Hypothesis Hutc : x_utc X = TzObj n.

(** ** Converters and validators settle after one application *)
Lemma set_idem s v w : apply_set X s v = Ok w -> apply_set X s w = Ok w.
Proof.
  destruct s, v; cbn [apply_set]; intro H; try discriminate; try (now injection H as <-).
  - destruct (str_in (upper s) STATUS_VALUES) eqn:E; [|discriminate]. injection H as <-. cbn [apply_set].
    now rewrite P_Tree.upper_idem, E.
  - destruct (dt_astimezone (E X) d (Some (x_utc X))) as [d'|] eqn:E; [|discriminate]. injection H as <-. cbn.
    assert (T : dtz d' = Some (x_utc X)).
    { revert E. unfold dt_astimezone. destruct (negb (naive d) && same_tz (dtz d) (Some (x_utc X))) eqn:ES.
      - intro H; injection H as <-. rewrite Hutc in *. apply andb_prop in ES as [_ ES].
        destruct (dtz d) as [[m| |]|]; try discriminate. cbn in ES. apply N.eqb_eq in ES. now subst.
      - destruct (wall_ok _); [|discriminate]. destruct (tz_fromutc _ _ _) as [w f].
        destruct (wall_ok w); [|discriminate]. intro H; now injection H as <-. }
    unfold dt_astimezone. rewrite T. unfold naive. rewrite T, Hutc. cbn. now rewrite N.eqb_refl.
  - destruct r; [|discriminate]. now injection H as <-.
  - destruct ((0 <=? n0)%Z && (n0 <=? hi)%Z) eqn:ER; [|discriminate]. injection H as <-. cbn [apply_set]. now rewrite ER.
  - destruct (ts_kind t) eqn:E1, k; try discriminate; unbind H; injection H as <-; cbn; rewrite E1, Ha; reflexivity.
Qed.
Lemma init_idem c a v w : init_attr X c a v = Ok w -> init_attr X c a w = Ok w.
Proof.
  unfold init_attr. destruct (a_kind a) as [convs [|] r s|k|m| |], v as [|u|l]; intro H; try discriminate.
  - destruct (cls_eqb c CEmail) eqn:E; [|discriminate]. injection H as <-. reflexivity.
  - now injection H as <-.
  - destruct r; [discriminate|]. destruct (str_eqb _ _) eqn:E; [discriminate|]. injection H as <-. reflexivity.
  - destruct (apply_set X s u) as [u'|] eqn:E; [|discriminate]. injection H as <-.
    rewrite (set_idem _ _ _ E). reflexivity.
  - destruct s; try discriminate. now injection H as <-.
  - destruct (apply_set X (SSpan k) u) as [u'|] eqn:E; [|discriminate]. injection H as <-.
    rewrite (set_idem _ _ _ E). reflexivity.
Qed.
Lemma init_list c a l l' : init_attr X c a (AMany l) = Ok (AMany l) -> init_attr X c a (AMany l') = Ok (AMany l').
Proof. unfold init_attr. destruct (a_kind a) as [convs [|] r s|k|m| |]; try easy. now destruct s. Qed.

(** ** The invariant *)
Definition attr_fields (c : cls) : list aconv := filter has_attr (class_fields c).
Definition mem_fields (c : cls) : list aconv := filter has_members (class_fields c).
Fixpoint nodupb (l : list (list N)) : bool :=
  match l with [] => true | x :: l' => negb (existsb (str_eqb x) l') && nodupb l' end.
Lemma nodupb_spec l : nodupb l = true -> NoDup l.
Proof.
  induction l as [|x l IH]; cbn; intro H; constructor; apply andb_prop in H as [H1 H2].
  - intro Hx. apply existsb_str in Hx. now rewrite Hx in H1.
  - now apply IH.
Qed.
Lemma NoDup_map_eq {A B} (f : A -> B) l a b : NoDup (map f l) -> In a l -> In b l -> f a = f b -> a = b.
Proof.
  induction l as [|x l IH]; cbn; [easy|]. intros ND Ha Hb E. inversion ND as [|? ? Nx ND']; subst.
  destruct Ha as [->|Ha], Hb as [->|Hb]; [easy| | |now apply IH].
  - exfalso. apply Nx. rewrite E. now apply in_map.
  - exfalso. apply Nx. rewrite <- E. now apply in_map.
Qed.
Lemma attrs_nodup c : NoDup (map a_attr (attr_fields c)).
Proof. apply nodupb_spec. destruct c; vm_compute; reflexivity. Qed.
Lemma mems_nodup c : NoDup (map a_attr (mem_fields c)).
Proof. apply nodupb_spec. destruct c; vm_compute; reflexivity. Qed.

Section Members.
Context {M : Type}.
Variable load_m : mkind -> list N -> list item -> zones -> res (M * zones).
Notation comp := (comp M). Notation lst := (lst M).

Definition settled (x : comp) : Prop :=
  keys (c_attrs x) = map a_attr (attr_fields (c_cls x)) /\
  keys (c_mem x) = map a_attr (mem_fields (c_cls x)) /\
  forall a, In a (attr_fields (c_cls x)) ->
    init_attr X (c_cls x) a (get_attr (a_attr a) x) = Ok (get_attr (a_attr a) x).

Lemma settled_set a v x : settled x -> In a (attr_fields (c_cls x)) -> init_attr X (c_cls x) a v = Ok v ->
  settled (set_attrs (dict_set (a_attr a) v (c_attrs x)) x).
Proof.
  intros (K & KM & HI) Ha Hv. split; [|split]; cbn [set_attrs c_attrs c_cls c_mem]; [|easy|].
  - rewrite keys_dict_set_in; [easy|]. rewrite K. now apply in_map.
  - intros b Hb. unfold get_attr. cbn [set_attrs c_attrs]. destruct (list_eq_dec N.eq_dec (a_attr b) (a_attr a)) as [e|ne].
    + assert (b = a) as -> by (eapply NoDup_map_eq; eauto using attrs_nodup). now rewrite dict_get_set_same.
    + rewrite dict_get_set_other by congruence. apply (HI b Hb).
Qed.
Lemma settled_params p x : settled x -> settled (set_params p x). Proof. easy. Qed.
Lemma settled_store k p x : settled x -> settled (store_params k p x).
Proof. intro H. unfold store_params. destruct p; [easy|]. now apply settled_params. Qed.
Lemma settled_append k p x y : settled x -> append_params k p x = Ok y -> settled y /\ c_cls y = c_cls x.
Proof.
  intros H A. unfold append_params in A. destruct (dict_get k (c_params x)) as [[|]|]; try discriminate; injection A as <-;
    (split; [now apply settled_params|easy]).
Qed.
Lemma settled_list x a l l' : settled x -> get_attr a x = AMany l -> settled (set_attrs (dict_set a (AMany l') (c_attrs x)) x).
Proof.
  intros S G. assert (HK : In a (keys (c_attrs x))).
  { apply keys_dict_get. unfold get_attr in G. destruct (dict_get a (c_attrs x)); [easy|discriminate]. }
  destruct S as (K & KM & HI). rewrite K in HK. apply in_map_iff in HK as (b & <- & Hb).
  apply settled_set; [easy|easy|]. specialize (HI b Hb). rewrite G in HI. eapply init_list; eauto.
Qed.
Lemma settled_mem x a l : settled x -> In a (keys (c_mem x)) -> settled (set_mem (dict_set a l (c_mem x)) x).
Proof.
  intros (K & KM & HI) Ha. split; [easy|split; [|easy]]. cbn [set_mem c_mem c_cls]. now rewrite keys_dict_set_in.
Qed.

(** ** Reading keeps it *)
Definition good (st st' : lst) : Prop := settled (l_comp st) -> settled (l_comp st') /\ c_cls (l_comp st') = c_cls (l_comp st).
Lemma field_in c a : In a (class_fields c) -> has_attr a = true -> In a (attr_fields c).
Proof. intros. now apply filter_In. Qed.
Lemma good_single a convs r s cl (st st' : lst) : a_kind a = KVal convs false r s -> In a (class_fields (c_cls (l_comp st))) ->
  populate_single X a convs s cl st = Ok st' -> good st st'.
Proof.
  unfold populate_single. intros Hk Ha H HS. destruct (Nat.ltb 0 _); [discriminate|]. unbind2 H. unbind3 H. unbind H. injection H as <-.
  cbn [l_comp]. pose proof (settled_store (a_key a) b0 _ HS) as HS'.
  assert (HC : c_cls (store_params (a_key a) b0 (l_comp st)) = c_cls (l_comp st)) by (unfold store_params; now destruct b0).
  split; [|cbn; exact HC]. apply settled_set; [easy| |].
  - rewrite HC. apply field_in; [easy|]. unfold has_attr. now rewrite Hk.
  - unfold init_attr. rewrite Hk. apply set_idem in Ha2. now rewrite Ha2.
Qed.
Lemma good_values a convs r s c vals : a_kind a = KVal convs true r s -> forall ps (st st' : lst),
  In a (class_fields (c_cls (l_comp st))) -> populate_values X a c vals ps st = Ok st' -> good st st'.
Proof.
  intro Hk. induction vals as [|v vals IH]; intros ps st st' Ha H HS; cbn [populate_values] in H.
  - injection H as <-. easy.
  - unbind3 H. unbind H. unbind H. destruct (settled_append _ _ _ _ HS Ha1) as [HS1 HC1].
    assert (HS2 : settled a2 /\ c_cls a2 = c_cls a1).
    { unfold append_value in Ha2. destruct (get_attr (a_attr a) a1) as [|w|l] eqn:G; [|discriminate|]; injection Ha2 as <-; (split; [|easy]).
      - apply settled_set; [easy| |].
        + rewrite HC1. apply field_in; [easy|]. unfold has_attr. now rewrite Hk.
        + unfold init_attr. now rewrite Hk.
      - now apply settled_list with l. }
    destruct HS2 as [HS2 HC2]. apply IH in H; cbn [l_comp] in *.
    + destruct (H HS2) as [HS3 HC3]. split; [easy|]. cbn in HC3. congruence.
    + now rewrite HC2, HC1.
Qed.
Lemma good_span cl (st st' : lst) : populate_span X cl st = Ok st' -> good st st'.
Proof.
  unfold populate_span. intros H HS. destruct (existsb _ _); [discriminate|].
  assert (G : forall k p, settled (store_params k p (l_comp st)) /\ c_cls (store_params k p (l_comp st)) = c_cls (l_comp st)).
  { intros k p. split; [now apply settled_store|]. unfold store_params. now destruct p. }
  destruct (str_eqb (cl_name cl) (py "DURATION")).
  - unbind H. injection H as <-. apply G.
  - apply bind_Ok in H. destruct H as ([[[p d] ps2] zs] & _ & H). unbind H.
    destruct (str_eqb (cl_name cl) (py "DTSTART")); injection H as <-; apply G.
Qed.
Lemma good_action cl (st st' : lst) : populate_action cl st = Ok st' -> good st st'.
Proof.
  unfold populate_action. intros H HS. destruct (cls_eqb _ _); [|discriminate]. injection H as <-. cbn.
  split; [now apply settled_store|]. unfold store_params. now destruct (cl_params cl).
Qed.
Lemma good_conv a it (st st' : lst) b : In a (class_fields (c_cls (l_comp st))) ->
  populate_conv X M load_m a it st = Ok (st', b) -> good st st'.
Proof.
  unfold populate_conv. intros Ha H. destruct (a_kind a) as [convs [|] r s|k|m| |] eqn:Hk, it as [cl|nm its]; try discriminate.
  - unbind H. injection H as <- _. unfold populate_multi in Ha0. unbind2 Ha0. unbind Ha0. eapply good_values; eauto.
  - unbind H. injection H as <- _. eapply good_single; eauto.
  - unbind H. injection H as <- _. eapply good_span; eauto.
  - unbind2 H. injection H as <- _. intro HS. cbn. split; [|easy]. apply settled_mem; [easy|].
    destruct HS as (_ & -> & _). apply in_map. apply filter_In. split; [easy|]. unfold has_members. now rewrite Hk.
  - unbind H. injection H as <- _. eapply good_action; eauto.
  - injection H as <- _. now intro.
  - injection H as <- _. now intro.
Qed.
Lemma good_convs l it : forall (st st' : lst) b0 b, (forall a, In a l -> In a (class_fields (c_cls (l_comp st)))) ->
  populate_convs X M load_m l it st b0 = Ok (st', b) -> good st st'.
Proof.
  induction l as [|a l IH]; intros st st' b0 b Hl H HS; cbn [populate_convs] in H.
  - injection H as <- _. easy.
  - unbind2 H. destruct (good_conv _ _ _ _ _ (Hl a (or_introl eq_refl)) Ha HS) as [HS1 HC1].
    apply IH in H.
    + destruct (H HS1) as [HS2 HC2]. split; [easy|congruence].
    + intros a1 Ha1. rewrite HC1. apply Hl. now right.
Qed.
Lemma good_items its : forall st st' : lst, populate_items X M load_m its st = Ok st' -> good st st'.
Proof.
  induction its as [|it its IH]; intros st st' H HS; cbn [populate_items] in H.
  - injection H as <-. easy.
  - unbind H. assert (HS1 : settled (l_comp a) /\ c_cls (l_comp a) = c_cls (l_comp st)).
    { unfold populate_item in Ha. unbind2 Ha. apply good_convs in Ha0; [|intros x Hx; now apply lookup_In in Hx as [Hx _]].
      destruct (Ha0 HS) as [HS1 HC1]. destruct b; injection Ha as <-; easy. }
    destruct HS1 as [HS1 HC1]. destruct (IH _ _ H HS1) as [HS2 HC2]. split; [easy|congruence].
Qed.
Lemma good_post l : forall st st' : lst, (forall a, In a l -> In a (class_fields (c_cls (l_comp st)))) ->
  post_convs X M l st = Ok st' -> good st st'.
Proof.
  induction l as [|a l IH]; intros st st' Hl H HS; cbn [post_convs] in H.
  - injection H as <-. easy.
  - unbind H. assert (HS1 : settled (l_comp a0) /\ c_cls (l_comp a0) = c_cls (l_comp st)).
    { unfold post_conv in Ha. destruct (a_kind a) as [convs mu r s|k|m| |] eqn:Hk; try (injection Ha as <-; easy).
      - destruct (r && _); [discriminate|]. injection Ha as <-. easy.
      - unbind Ha. unbind Ha. unbind Ha. injection Ha as <-. cbn [l_comp]. split; [|easy]. apply settled_set; [easy| |].
        + apply field_in; [now apply Hl; left|]. unfold has_attr. now rewrite Hk.
        + unfold init_attr. rewrite Hk. apply set_idem in Ha2. now rewrite Ha2. }
    destruct HS1 as [HS1 HC1]. apply IH in H.
    + destruct (H HS1) as [HS2 HC2]. split; [easy|congruence].
    + intros a1 Ha1. rewrite HC1. apply Hl. now right.
Qed.
Lemma settled_populate x name its zs y zs' : settled x ->
  populate_instance X M load_m x name its zs = Ok (y, zs') -> settled y.
Proof.
  intros HS H. unfold populate_instance in H. destruct (str_eqb name _); [|discriminate]. unbind H. unbind H. injection H as <- _.
  apply good_items in Ha. destruct (Ha HS) as [HS1 HC1]. apply good_post in Ha0.
  - now apply (Ha0 HS1).
  - intros b Hb. apply converters_In in Hb. now rewrite HC1.
Qed.

(** ** New components *)
Lemma init_attrs_keys c fs args d : init_attrs X c fs args = Ok d -> keys d = map a_attr fs /\
  (NoDup (map a_attr fs) -> forall a, In a fs -> exists v, dict_get (a_attr a) d = Some v /\ init_attr X c a (args (a_attr a)) = Ok v).
Proof.
  revert d. induction fs as [|f fs IH]; cbn; intros d H.
  - injection H as <-. now split.
  - unbind H. unbind H. injection H as <-. destruct (IH _ Ha0) as [K HI]. split; [unfold keys in *; cbn [map fst]; now rewrite K|].
    intros ND a1 [<-|H1]; inversion ND as [|? ? Nx ND']; subst.
    + exists a. cbn. now rewrite str_eqb_refl.
    + destruct (HI ND' a1 H1) as (v & G & V). exists v. split; [|easy]. cbn. destruct (str_eqb _ _) eqn:E; [|easy].
      apply str_eqb_eq in E. exfalso. apply Nx. rewrite <- E. now apply in_map.
Qed.
Lemma settled_new c args (mems : list N -> list M) x : construct X c args mems = Ok x -> settled x.
Proof.
  unfold construct. intro H. unbind H. injection H as <-. apply init_attrs_keys in Ha as [K HI].
  split; [exact K|]. split; cbn.
  - unfold keys. now rewrite map_map.
  - intros b Hb. destruct (HI (attrs_nodup c) b Hb) as (v & G & V). unfold get_attr. cbn. rewrite G. eapply init_idem; eauto.
Qed.
Hypothesis Hnow : dtz (x_now X) = Some (x_utc X).
Lemma now_utc : apply_set X SUtc (VDt (x_now X)) = Ok (VDt (x_now X)).
Proof. cbn. unfold dt_astimezone, naive. rewrite Hnow, Hutc. cbn. now rewrite N.eqb_refl. Qed.
Lemma get_map (l : list aconv) (f : aconv -> attr) a : NoDup (map a_attr l) -> In a l ->
  dict_get (a_attr a) (map (fun a => (a_attr a, f a)) l) = Some (f a).
Proof.
  induction l as [|b l IH]; cbn; [easy|]. intros ND [->|H]; inversion ND as [|? ? Nx ND']; subst; [now rewrite str_eqb_refl|].
  destruct (str_eqb _ _) eqn:E; [|now apply IH]. apply str_eqb_eq in E. exfalso. apply Nx. rewrite <- E. now apply in_map.
Qed.
Lemma settled_default c : settled (new_comp X M c).
Proof.
  split; [|split]; cbn.
  - unfold keys. now rewrite map_map.
  - unfold keys. now rewrite map_map.
  - intros a Ha. unfold get_attr. cbn [c_attrs new_comp]. rewrite (get_map (attr_fields c)) by eauto using attrs_nodup.
    pose proof now_utc as HN.
    destruct c; cbn in Ha; repeat (destruct Ha as [<-|Ha]; [first [reflexivity|change (rmap AOne (apply_set X SUtc (VDt (x_now X))) = Ok (AOne (VDt (x_now X)))); now rewrite HN]|]); contradiction.
Qed.
Lemma made_settled x : made X load_m x -> settled x.
Proof.
  induction 1.
  - eapply settled_new; eauto.
  - eapply settled_populate; [apply settled_default|eassumption].
  - unfold assign in H2. unbind H2. injection H2 as <-. apply settled_set; [easy|now apply field_in|eapply init_idem; eauto].
  - eapply settled_list; eauto.
  - now apply settled_mem.
  - easy.
  - easy.
  - eapply settled_populate; eauto.
Qed.

(** ** Cloning *)
Lemma init_attrs_ok c fs args : (forall a, In a fs -> init_attr X c a (args (a_attr a)) = Ok (args (a_attr a))) ->
  init_attrs X c fs args = Ok (map (fun a => (a_attr a, args (a_attr a))) fs).
Proof.
  induction fs as [|f fs IH]; intro H; cbn; [easy|]. rewrite (H f (or_introl eq_refl)). cbn. rewrite IH; [easy|].
  intros a Ha. apply H. now right.
Qed.
Lemma dict_listed {V} (d : dict V) ks (f : list N -> V) : NoDup ks -> keys d = ks ->
  (forall k v, dict_get k d = Some v -> f k = v) -> map (fun k => (k, f k)) ks = d.
Proof.
  intros ND <- H. revert ND H. induction d as [|[k v] d IH]; cbn; intros ND H; [easy|]. inversion ND as [|? ? Nx ND']; subst. f_equal.
  - f_equal. apply H. now rewrite str_eqb_refl.
  - apply IH; [easy|]. intros k2 v2 G. apply H. destruct (str_eqb k2 k) eqn:E; [|easy]. apply str_eqb_eq in E. subst.
    exfalso. apply Nx. apply keys_dict_get. now rewrite G.
Qed.
Lemma clone_settled x : settled x ->
  clone X x = Ok (mk_comp (c_cls x) (c_attrs x) (c_mem x) (NAME (c_cls x)) [] []).
Proof.
  intros (K & KM & HI). unfold clone, construct. change (filter has_attr (class_fields (c_cls x))) with (attr_fields (c_cls x)).
  rewrite init_attrs_ok by exact HI. cbn. f_equal. f_equal.
  - rewrite <- (map_map a_attr (fun k => (k, get_attr k x))). apply dict_listed; [apply attrs_nodup|easy|].
    intros k v G. unfold get_attr. now rewrite G.
  - change (filter has_members (class_fields (c_cls x))) with (mem_fields (c_cls x)).
    rewrite <- (map_map a_attr (fun k => (k, get_mem k x))). apply dict_listed; [apply mems_nodup|easy|].
    intros k v G. unfold get_mem. now rewrite G.
Qed.
Lemma clone_made x : made X load_m x -> exists y, clone X x = Ok y /\
  c_cls y = c_cls x /\ c_attrs y = c_attrs x /\ c_mem y = c_mem x /\
  c_name y = NAME (c_cls x) /\ c_extra y = [] /\ c_params y = [].
Proof. intro H. apply made_settled in H. rewrite clone_settled by easy. eexists. split; [reflexivity|easy]. Qed.
Lemma clone_equal_iff x : made X load_m x -> forall y, clone X x = Ok y ->
  (comp_eq y x <-> c_name x = NAME (c_cls x) /\ c_extra x = [] /\ c_params x = []).
Proof.
  intros H y Hy. apply made_settled in H. rewrite clone_settled in Hy by easy. injection Hy as <-. unfold comp_eq. cbn. split.
  - intros (_ & _ & _ & E & P). inversion E as [|? ? ? F]; subst. inversion F; subst. auto.
  - intros (-> & -> & ->). repeat split; auto. constructor. constructor.
Qed.
End Members.
End Clone.

(** ** Lists *)
Section Lists.
Context {A : Type}.
Notation heap := (heap A).
Lemma write_other i j l (h : heap) : i <> j -> contents (write i l h) j = contents h j.
Proof.
  unfold contents. revert i j. induction h as [|x h IH]; intros [|i] [|j] H; cbn; try easy. apply IH. congruence.
Qed.
Lemma write_same i l (h : heap) : (i < length h)%nat -> contents (write i l h) i = l.
Proof.
  unfold contents. revert i. induction h as [|x h IH]; intros [|i] H; cbn in *; try lia; [easy|]. apply IH. lia.
Qed.
Lemma clone_lists_fresh c refs : c <> CEmail -> forall (h : heap) refs' h', clone_lists c refs h = (refs', h') ->
  Forall (fun kv => (snd kv < length h)%nat) refs ->
  map fst refs' = map fst refs /\
  (length h <= length h')%nat /\ (forall i, (i < length h)%nat -> contents h' i = contents h i) /\
  Forall (fun kv => (length h <= snd kv < length h')%nat) refs' /\
  map (fun kv => contents h' (snd kv)) refs' = map (fun kv => contents h (snd kv)) refs.
Proof.
  intro HC. assert (HE : cls_eqb c CEmail = false) by now destruct c.
  induction refs as [|[k i] refs IH]; cbn [clone_lists]; intros h refs' h' H HF.
  - injection H as <- <-. repeat split; auto.
  - rewrite HE in H. destruct (clone_lists c refs (h ++ [nth i h []])) as [r' h2] eqn:ER. injection H as <- <-.
    inversion HF as [|? ? Hi HF']; subst. cbn [snd] in Hi.
    assert (HG : forall j, (j < length h)%nat -> contents (h ++ [nth i h []]) j = contents h j).
    { intros j Hj. unfold contents. now apply app_nth1. }
    destruct (IH _ _ _ ER) as (K & L & P & F & E).
    { eapply Forall_impl; [|exact HF']. intros a Ha. rewrite app_length. cbn in *. lia. }
    rewrite app_length in L, P, F. cbn [length] in L, P, F. repeat split.
    + cbn. now rewrite K.
    + lia.
    + intros j Hj. rewrite P by lia. now apply HG.
    + constructor; [cbn; lia|]. eapply Forall_impl; [|exact F]. cbn. lia.
    + cbn. f_equal.
      * rewrite P by lia. unfold contents. rewrite app_nth2 by lia. now rewrite Nat.sub_diag.
      * rewrite E. apply map_ext_in. intros [k2 j] Hj. cbn. apply HG. now apply (proj1 (Forall_forall _ _) HF' (k2, j)).
Qed.
Lemma lists_independent c refs (h : heap) refs' h' : c <> CEmail -> Forall (fun kv => (snd kv < length h)%nat) refs ->
  clone_lists c refs h = (refs', h') ->
  map (fun kv => (fst kv, contents h' (snd kv))) refs' = map (fun kv => (fst kv, contents h (snd kv))) refs /\
  forall k i k' i' l, In (k, i) refs -> In (k', i') refs' ->
    contents (write i' l h') i = contents h i /\ contents (write i l h') i' = contents h' i'.
Proof.
  intros HC HF H. destruct (clone_lists_fresh _ _ HC _ _ _ H HF) as (K & L & P & F & E). split.
  - clear - K E. revert refs' K E. induction refs as [|[k i] r IH]; intros [|[k' i'] r']; cbn; intros K E; try discriminate; [easy|].
    injection K as -> K. injection E as E1 E. rewrite E1. f_equal. now apply IH.
  - intros k i k' i' l Hi Hi'. rewrite Forall_forall in HF, F. specialize (HF _ Hi). specialize (F _ Hi'). cbn in *.
    split; rewrite write_other by lia; [now apply P|easy].
Qed.
Lemma lists_shared refs (h : heap) : clone_lists CEmail refs h = (refs, h).
Proof. induction refs as [|[k i] r IH]; cbn; [easy|]. cbn in IH. now rewrite IH. Qed.
End Lists.

(** ** A component read with an unknown property *)
Lemma entry_unknown X n c nm its zs0 x zs : x_utc X = TzObj n -> dtz (x_now X) = Some (x_utc X) ->
  load_entry X c nm its zs0 = Ok (x, zs) -> c_extra x <> [] ->
  exists y, clone X x = Ok y /\ ~ comp_eq y x.
Proof.
  intros HU HN HL HX. unfold load_entry in HL. apply M_load_new in HL.
  destruct (clone_made X n HU (entry_member X) HN x HL) as (y & HY & _). exists y. split; [easy|]. intro HE.
  apply (clone_equal_iff X n HU (entry_member X) HN x HL y HY) in HE. now destruct HE as (_ & HX2 & _).
Qed.
From Verif Require Import S_Toy.
Lemma clone_refuted : exists (x y : entry) zs,
  load_entry toy CEvent (py "VEVENT")
    [ILine (mk_line (py "SUMMARY") [] (py "Hi")); ILine (mk_line (py "X-COLOR") [] (py "red"))] [] = Ok (x, zs) /\
  clone toy x = Ok y /\ ~ comp_eq y x.
Proof.
  assert (HX : match load_entry toy CEvent (py "VEVENT")
    [ILine (mk_line (py "SUMMARY") [] (py "Hi")); ILine (mk_line (py "X-COLOR") [] (py "red"))] [] with
    Ok (x, _) => c_extra x <> [] | Err _ => False end) by (vm_compute; discriminate).
  revert HX.
  generalize (entry_unknown toy 0 CEvent (py "VEVENT")
    [ILine (mk_line (py "SUMMARY") [] (py "Hi")); ILine (mk_line (py "X-COLOR") [] (py "red"))] []).
  generalize (load_entry toy CEvent (py "VEVENT")
    [ILine (mk_line (py "SUMMARY") [] (py "Hi")); ILine (mk_line (py "X-COLOR") [] (py "red"))] []).
  intros [[x zs]|] HU HX; [|easy].
  destruct (HU x zs eq_refl eq_refl eq_refl HX) as (y & HY & HE). exists x, y, zs. auto.
Qed.
