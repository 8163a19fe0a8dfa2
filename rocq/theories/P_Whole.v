(** * Proofs: components survive writing and reading, given that their fields do *)
From Verif Require Import M_Base M_Text M_Line M_Codec M_Cal M_Time M_Span M_Dt M_Tree M_Comp.
From Verif Require Import S_Text S_Codec S_Dt S_Tree S_Comp S_Line P_Base P_Text P_Codec P_Dt P_Comp P_Frame P_Multi S_Store P_Rt P_Field.
From Coq Require Import Lia ZifyBool ZifyNat ZifyN.
Open Scope N_scope.

(** ** Independent converters *)
Definition disjoint_names (a b : list (list N)) : bool := forallb (fun k => negb (existsb (str_eqb k) b)) a.
Definition indepb (a b : aconv) : bool :=
  negb (str_eqb (a_attr a) (a_attr b)) && disjoint_names (pkeys a) (pkeys b) && negb (is_span a && is_span b).
Definition indep (a b : aconv) : Prop :=
  a_attr a <> a_attr b /\ (forall k, In k (pkeys a) -> ~ In k (pkeys b)) /\ (is_span a = false \/ is_span b = false).
Lemma indepb_spec a b : indepb a b = true -> indep a b.
Proof.
  unfold indepb, disjoint_names. rewrite !andb_true_iff, !negb_true_iff, andb_false_iff, forallb_forall. intros [[H1 H2] H3]. repeat split; auto.
  - intro E. rewrite E, str_eqb_refl in H1. discriminate.
  - intros k Hk Hb. apply H2 in Hk. rewrite negb_true_iff in Hk. apply existsb_str in Hb. congruence.
Qed.
Lemma indep_sym a b : indep a b -> indep b a.
Proof. intros (H1 & H2 & H3). repeat split; [congruence| |tauto]. intros k Hb Ha. now apply (H2 k). Qed.
Fixpoint pairwise (l : list aconv) : Prop :=
  match l with [] => True | a :: l' => (forall b, In b l' -> indep a b) /\ pairwise l' end.
Fixpoint pairwiseb (l : list aconv) : bool :=
  match l with [] => true | a :: l' => forallb (indepb a) l' && pairwiseb l' end.
Lemma pairwiseb_spec l : pairwiseb l = true -> pairwise l.
Proof.
  induction l as [|a l IH]; cbn; [easy|]. rewrite andb_true_iff, forallb_forall. intros [H1 H2]. split; [|auto].
  intros b Hb. now apply indepb_spec, H1.
Qed.
Lemma pairwise_app l1 l2 : pairwise (l1 ++ l2) -> pairwise l1 /\ pairwise l2 /\ forall a b, In a l1 -> In b l2 -> indep a b.
Proof.
  induction l1 as [|a l1 IH]; cbn; [intuition|]. intros [H1 H2]. apply IH in H2 as (H2 & H3 & H4). split; [split; [|exact H2]|split; [exact H3|]].
  - intros b Hb. apply H1, in_app_iff. auto.
  - intros a' b [<-|Ha] Hb; [apply H1, in_app_iff; auto|auto].
Qed.

(** ** Facts about the classes *)
Definition std (c : cls) : Prop := c <> CCustom.
Definition one_lookupb (c : cls) : bool :=
  forallb (fun a => forallb (fun n => Nat.eqb (length (lookup c n)) 1) (a_names a)) (converters c).
Lemma one_lookup c a n : std c -> In a (converters c) -> In n (a_names a) -> lookup c n = [a].
Proof.
  intros HS Ha Hn. assert (B : one_lookupb c = true) by (destruct c; try reflexivity; now contradict HS).
  unfold one_lookupb in B. rewrite forallb_forall in B. specialize (B a Ha). rewrite forallb_forall in B. specialize (B n Hn).
  assert (I : In a (lookup c n)) by (apply lookup_In; split; [now apply converters_In|exact Hn]).
  destruct (lookup c n) as [|b [|? ?]]; try discriminate. destruct I as [->|[]]. reflexivity.
Qed.
Lemma class_pairwise c : std c -> pairwise (converters c).
Proof. intro HS. apply pairwiseb_spec. destruct c; vm_compute; reflexivity. Qed.
Definition memb (s : shape) : bool := match s with Members => true | _ => false end.
Definition attr_names (c : cls) : list (list N) := map a_attr (filter has_attr (converters c)).
Definition mem_names (c : cls) : list (list N) := map a_attr (filter has_members (converters c)).
Definition par_names (c : cls) : list (list N) := flat_map pkeys (converters c).
Lemma shapes_names X c a s : In (a, s) (shapes X c) -> In a (if memb s then mem_names c else attr_names c).
Proof.
  assert (B : forallb (fun p : list N * shape => existsb (str_eqb (fst p)) (if memb (snd p) then mem_names c else attr_names c)) (shapes X c) = true).
  { destruct c; vm_compute; reflexivity. }
  rewrite forallb_forall in B. intro H. apply B in H. cbn [fst snd] in H. now apply existsb_str.
Qed.
Lemma par_keys_names X c k : In k (par_keys X c) -> In k (par_names c).
Proof. apply sub_names_spec. destruct c; vm_compute; reflexivity. Qed.
Lemma note_key c a : In a NOTE_ATTRS -> In a (attr_names c) -> In (upper a) (par_names c).
Proof.
  intros HI HA. unfold attr_names in HA. apply in_map_iff in HA as (b & <- & HB). apply filter_In in HB as [HB HH].
  unfold par_names. apply in_flat_map. exists b. split; [exact HB|]. unfold pkeys, has_attr in *. destruct (a_kind b) eqn:K; try discriminate; [now left|].
  exfalso. assert (B : forallb (fun b => match a_kind b with KSpan _ => str_eqb (a_attr b) (py "timespan") | _ => true end) (converters c) = true).
  { destruct c; vm_compute; reflexivity. }
  rewrite forallb_forall in B. apply B in HB. rewrite K in HB. apply str_eqb_eq in HB. rewrite HB in HI. unfold NOTE_ATTRS in HI.
  destruct HI as [E|[E|[E|[]]]]; discriminate E.
Qed.
Lemma keys_get {V} k (d : dict V) : In k (keys d) <-> dict_get k d <> None.
Proof.
  split.
  - intros H E. apply dict_get_None in E. contradiction.
  - intro H. destruct (in_dec (list_eq_dec N.eq_dec) k (keys d)) as [I|I]; [exact I|]. exfalso. now apply H, dict_get_None.
Qed.

Section Whole.
Variable X : ext.
Variable M : Type.
Variable EM : M -> M -> Prop.
Variable UM : M -> list N -> tz -> tz -> Prop.
Variable load_m : mkind -> list N -> list item -> zones -> res (M * zones).
Variable dump_m : M -> zones -> res (item * zones).
Variable c : cls.
Notation lst := (lst M).
Notation comp := (comp M).
Notation conv_rt := (conv_rt X M EM UM load_m dump_m c).
Notation conv_write := (conv_write X M UM dump_m).
Notation conv_read := (conv_read X M EM UM load_m c).
Notation conv_uses := (conv_uses X M UM).
Notation fresh := (fresh X M c).
Notation done := (done X M EM).

(** ** Other converters do not disturb *)
Lemma indep_fresh a b st st' : indep a b -> off M a st st' -> c_cls (l_comp st') = c_cls (l_comp st) -> fresh b st -> fresh b st'.
Proof.
  intros (I1 & I2 & I3) [O1 O2 O3 O4 O5 O6 O7] HC [F1 F2 F3 F4 F5 F6]. split.
  - congruence.
  - intro H. rewrite O1; auto.
  - intro H. rewrite O4; auto.
  - intros k Hk. rewrite O3; auto. intro Hk'. now apply (I2 k).
  - rewrite O6; auto.
  - intro H. rewrite O7; auto. destruct I3; congruence.
Qed.
Lemma indep_done x a b st st' : indep a b -> off M a st st' -> done x b st -> done x b st'.
Proof.
  intros (I1 & I2 & I3) [O1 O2 O3 O4 O5 O6 O7] [D1 D2]. split.
  - intros k Hk. rewrite O3; auto. intro Hk'. now apply (I2 k).
  - unfold is_span in I3. destruct (a_kind b) as [convs m r s|k|m| |]; auto.
    + unfold count in *. rewrite O1, O6 by auto. exact D2.
    + rewrite O7; [exact D2|]. unfold is_span. destruct I3 as [I3|I3]; [exact I3|discriminate].
    + rewrite O4 by auto. exact D2.
Qed.
Lemma populate_all_frame a its : forall st st', populate_all X M load_m a its st = Ok st' -> same_frame M st st'.
Proof.
  induction its as [|it its IH]; intros st st' H; cbn [populate_all] in H; [injection H as <-; apply frame_refl|].
  unbind2 H. apply populate_conv_spec in Ha as (F & _). apply IH in H. eapply frame_trans; eauto.
Qed.

(** ** Writing *)
Definition rt (x : comp) (a : aconv) (its : list item) : Prop := conv_write a x its /\ conv_read a x its.
Definition list_uses (l : list aconv) (x : comp) (id : list N) (z z' : tz) : Prop := exists a, In a l /\ conv_uses a x id z z'.
Lemma rt_outs x l : (forall a, In a l -> conv_rt a x) -> exists outs, Forall2 (rt x) l outs.
Proof.
  induction l as [|a l IH]; intro H; [exists []; constructor|]. destruct IH as (outs & F); [intros; apply H; now right|].
  destruct (H a (or_introl eq_refl)) as (its & W & R). exists (its :: outs). constructor; [now split|exact F].
Qed.
Lemma write_all x l outs : Forall2 (rt x) l outs -> forall zs, exists zs',
  serialize_convs X M dump_m l x zs = Ok (concat outs, zs') /\ wrote (list_uses l x) zs zs'.
Proof.
  induction 1 as [|a its l outs ((W & _) & _) F IH]; intro zs.
  - exists zs. split; [reflexivity|]. apply wrote_nouse. intros id z z' (a & [] & _).
  - destruct (W zs) as (zs1 & E1 & W1). destruct (IH zs1) as (zs2 & E2 & W2). exists zs2. split.
    + cbn [serialize_convs concat]. rewrite E1. cbn [bind]. now rewrite E2.
    + eapply wrote_trans; [exact W1|exact W2|]. intros id z z'. unfold list_uses. cbn [In]. split.
      * intros (b & [<-|Hb] & HU); [now left|right; eauto].
      * intros [HU|(b & Hb & HU)]; eauto.
Qed.

(** ** Reading *)
Lemma read_all x l outs : Forall2 (rt x) l outs -> pairwise l ->
  (forall a, In a l -> forall n, In n (a_names a) -> lookup c n = [a]) ->
  forall its' st, Forall2 item_eq (concat outs) its' -> c_cls (l_comp st) = c -> (forall a, In a l -> fresh a st) ->
  (forall id z z', list_uses l x id z z' -> resolves X (l_zones st) id z) ->
  exists st', populate_items X M load_m its' st = Ok st' /\ (forall a, In a l -> done x a st') /\ zext X (l_zones st) (l_zones st') /\
    same_frame M st st' /\
    (forall b, (forall a, In a l -> indep a b) -> (fresh b st -> fresh b st') /\ (done x b st -> done x b st')) /\
    (forall k, (forall a, In a l -> ~ In k (pkeys a)) -> dict_get k (c_params (l_comp st')) = dict_get k (c_params (l_comp st))) /\
    ((forall a, In a l -> has_attr a = true -> In (a_attr a) (keys (c_attrs (l_comp st)))) -> keys (c_attrs (l_comp st')) = keys (c_attrs (l_comp st))) /\
    ((forall a, In a l -> has_members a = true -> In (a_attr a) (keys (c_mem (l_comp st)))) -> keys (c_mem (l_comp st')) = keys (c_mem (l_comp st))).
Proof.
  induction 1 as [|a its l outs ((W & WN) & R) F IH]; intros HP HL its' st HE HC HFr HR; cbn [concat] in HE.
  - inversion HE; subst. exists st. split; [reflexivity|]. split; [easy|]. split; [apply zext_refl|]. split; [apply frame_refl|]. auto.
  - destruct HP as [HP1 HP2]. apply Forall2_app_inv_l' in HE as (i1 & i2 & -> & E1 & E2).
    destruct (R i1 st E1 (HFr a (or_introl eq_refl))) as (st1 & R1 & D1 & Z1).
    { intros id z z' HU. apply (HR id z z'). exists a. split; [now left|exact HU]. }
    pose proof (populate_all_off _ _ _ _ _ _ _ R1) as O1. pose proof (populate_all_frame _ _ _ _ R1) as F1. pose proof F1 as [C1 C2 C3].
    pose proof (HL a (or_introl eq_refl)) as LA.
    assert (P1 : populate_items X M load_m i1 st = Ok st1).
    { destruct (is_zones a) eqn:ZA.
      { destruct (W []) as (zs' & WZ & _). unfold serialize_conv in WZ. unfold is_zones in ZA. destruct (a_kind a); try discriminate.
        injection WZ as <- _. inversion E1; subst. exact R1. }
      apply (populate_items_all X M load_m c a); auto. clear - E1 WN LA. induction E1 as [|x y xs ys H E1 IH]; constructor.
      - inversion WN; subst. rewrite <- (item_eq_name _ _ H). now apply LA.
      - inversion WN; subst. auto. }
    destruct (IH HP2 (fun b Hb => HL b (or_intror Hb)) i2 st1 E2 ltac:(congruence)) as (st2 & P2 & D2 & Z2 & F2 & I2 & K2 & A2 & M2).
    { intros b Hb. eapply indep_fresh; [now apply HP1|exact O1|exact C1|]. apply HFr. now right. }
    { intros id z z' (b & Hb & HU). apply Z1. apply (HR id z z'). exists b. split; [now right|exact HU]. }
    exists st2. split; [|split; [|split; [|split; [|split; [|split; [|split]]]]]].
    + clear - P1 P2. revert st P1. induction i1 as [|it i1 IHi]; intros st P1; cbn [app populate_items] in *.
      * now injection P1 as ->.
      * unbind P1. rewrite Ha. cbn [bind]. auto.
    + intros b [<-|Hb]; [|auto]. apply I2; [|exact D1]. intros b Hb. apply indep_sym. auto.
    + eapply zext_trans; eauto.
    + eapply frame_trans; eauto.
    + intros b HI. assert (HI1 : indep a b) by (apply HI; now left). destruct (I2 b) as [IF ID]; [intros; apply HI; now right|]. split; intro HH.
      * apply IF. eapply indep_fresh; eauto.
      * apply ID. eapply indep_done; eauto.
    + intros k Hk. rewrite K2 by (intros; apply Hk; now right). apply (o_par _ _ _ _ O1). apply Hk. now left.
    + intro HA. assert (E : keys (c_attrs (l_comp st1)) = keys (c_attrs (l_comp st))).
      { apply (o_keys _ _ _ _ O1). destruct (has_attr a) eqn:HAa; [left; apply HA; auto; now left|now right]. }
      rewrite <- E. apply A2. intros b Hb Hh. rewrite E. apply HA; auto. now right.
    + intro HA. assert (E : keys (c_mem (l_comp st1)) = keys (c_mem (l_comp st))).
      { apply (o_mkeys _ _ _ _ O1). destruct (has_members a) eqn:HAa; [left; apply HA; auto; now left|now right]. }
      rewrite <- E. apply M2. intros b Hb Hh. rewrite E. apply HA; auto. now right.
Qed.
Lemma populate_items_app i1 i2 : forall st st1, populate_items X M load_m i1 st = Ok st1 ->
  populate_items X M load_m (i1 ++ i2) st = populate_items X M load_m i2 st1.
Proof.
  induction i1 as [|it i1 IH]; intros st st1 H; cbn [app populate_items] in *; [now injection H as ->|].
  unbind H. rewrite Ha. cbn [bind]. auto.
Qed.
(** Unknown items. *)
Definition add_extra (its : list item) (st : lst) : lst :=
  mk_lst (set_extra (c_extra (l_comp st) ++ its) (l_comp st)) (l_count st) (l_span st) (l_zones st).
Lemma unknown_eq it it' : item_eq it it' -> known c it' -> known c it.
Proof.
  intros [a b (E & _)|n xs ys _]; cbn; [|easy]. now rewrite E.
Qed.
Lemma item_unknown it st : c_cls (l_comp st) = c -> ~ known c it -> populate_item X M load_m it st = Ok (add_extra [it] st).
Proof.
  intros HC HK. destruct it as [l|n its].
  - destruct (list_eq_dec N.eq_dec (cl_name l) (py "VTIMEZONE")) as [EV|NV].
    + assert (EC : c = CCalendar \/ lookup c (cl_name l) = []).
      { destruct (lookup c (cl_name l)) as [|a r] eqn:EL; [now right|left]. destruct c; auto; rewrite EV in EL; vm_compute in EL; discriminate. }
      destruct EC as [EC|EC]; [|apply item_none; now rewrite HC].
      unfold populate_item. rewrite HC. cbn [item_name]. rewrite EC, EV. reflexivity.
    + apply item_none. rewrite HC. cbn [item_name]. apply lookup_unknown. intro K. apply HK. cbn. split; [exact K|]. now intros [_ ?].
  - apply item_none. rewrite HC. cbn [item_name]. apply lookup_unknown. exact HK.
Qed.
Lemma items_unknown its : Forall (fun it => ~ known c it) its -> forall st, c_cls (l_comp st) = c ->
  populate_items X M load_m its st = Ok (add_extra its st).
Proof.
  induction 1 as [|it its H _ IH]; intros st HC; cbn [populate_items].
  - unfold add_extra. rewrite app_nil_r. destruct st as [[] ? ? ?]. reflexivity.
  - rewrite (item_unknown it st HC H). cbn [bind]. rewrite IH by exact HC. unfold add_extra. cbn [l_comp l_count l_span l_zones set_extra c_extra].
    rewrite <- app_assoc. destruct st as [[] ? ? ?]. reflexivity.
Qed.

(** ** Finishing *)
Definition finished (x : comp) (a : aconv) (st : lst) : Prop :=
  (forall k, In k (pkeys a) -> eq_opt eq_par (dict_get k (c_params (noted x))) (dict_get k (c_params (l_comp st)))) /\
  (has_attr a = true -> eq_opt (eq_attr X) (dict_get (a_attr a) (c_attrs x)) (dict_get (a_attr a) (c_attrs (l_comp st)))) /\
  (has_members a = true -> eq_opt (Forall2 EM) (dict_get (a_attr a) (c_mem x)) (dict_get (a_attr a) (c_mem (l_comp st)))).
Lemma post_one x a st : done x a st -> exists st', post_conv X M a st = Ok st' /\ finished x a st' /\
  (forall b, indep a b -> (done x b st -> done x b st') /\ (finished x b st -> finished x b st')) /\
  same_frame M st st' /\ l_zones st' = l_zones st /\ c_params (l_comp st') = c_params (l_comp st) /\
  c_mem (l_comp st') = c_mem (l_comp st) /\
  (has_attr a = true -> In (a_attr a) (keys (c_attrs (l_comp st))) -> keys (c_attrs (l_comp st')) = keys (c_attrs (l_comp st))).
Proof.
  intros [D1 D2]. unfold post_conv, finished, has_attr, has_members. destruct (a_kind a) as [convs m r s|k|m| |] eqn:K.
  - destruct D2 as [D2 D3]. assert (r && Nat.eqb (count (a_attr a) st) 0 = false)%bool as ->.
    { destruct r; [|easy]. cbn. apply Nat.eqb_neq. auto. }
    eexists. split; [reflexivity|]. cbn [l_comp l_zones]. split; [split; [exact D1|split; [intros _; exact D2|discriminate]]|]. split; [|repeat split].
    intros b (I1 & I2 & I3). split; [|easy]. intros [B1 B2]. split; [exact B1|]. destruct (a_kind b) as [convs2 m2 r2 s2|k2|m2| |]; auto.
    unfold count in *. cbn [l_count l_comp]. now rewrite dict_get_set_other by congruence.
  - destruct D2 as (t & E1 & t' & E2 & E3 & E4 & E5). change (M_Comp.E X) with (x_env X). rewrite E3. cbn [bind].
    assert (match sc_end_name (l_span st) with Some n => guard (negb (str_eqb n (end_name k))) ValueError | None => Ok tt end = Ok tt) as ->.
    { destruct (sc_end_name (l_span st)) as [n|] eqn:EN; [|easy]. rewrite (E4 n eq_refl), str_eqb_refl. reflexivity. }
    cbn [bind]. rewrite E5. cbn [bind]. eexists. split; [reflexivity|]. cbn [l_comp l_zones set_attrs c_attrs c_params c_mem]. split; [|split; [|repeat split]].
    + split; [exact D1|]. split; [|easy]. intros _. rewrite E1, dict_get_set_same. exact E2.
    + intros b (I1 & I2 & I3). unfold is_span in I3. rewrite K in I3. destruct I3 as [I3|I3]; [discriminate|]. split.
      * intros [B1 B2]. split; [exact B1|]. destruct (a_kind b) as [convs2 m2 r2 s2|k2|m2| |]; auto; [|discriminate].
        unfold count in *. cbn [l_count l_comp set_attrs c_attrs]. now rewrite dict_get_set_other by congruence.
      * cbn [l_comp set_attrs c_attrs c_params c_mem]. now rewrite dict_get_set_other by congruence.
    + intros _ HI. cbn [l_comp set_attrs c_attrs]. now apply keys_dict_set_in.
  - eexists. split; [reflexivity|]. split; [split; [exact D1|split; [discriminate|now intros _]]|]. split; [auto|]. split; [apply frame_refl|]. repeat split; easy.
  - eexists. split; [reflexivity|]. split; [split; [exact D1|split; discriminate]|]. split; [auto|]. split; [apply frame_refl|]. repeat split; easy.
  - eexists. split; [reflexivity|]. split; [split; [exact D1|split; discriminate]|]. split; [auto|]. split; [apply frame_refl|]. repeat split; easy.
Qed.
Lemma post_all x l : pairwise l -> forall st, (forall a, In a l -> done x a st) ->
  (forall a, In a l -> has_attr a = true -> In (a_attr a) (keys (c_attrs (l_comp st)))) ->
  exists st', post_convs X M l st = Ok st' /\ (forall a, In a l -> finished x a st') /\
    (forall b, (forall a, In a l -> indep a b) -> finished x b st -> finished x b st') /\
    same_frame M st st' /\ l_zones st' = l_zones st /\ c_params (l_comp st') = c_params (l_comp st) /\
    c_mem (l_comp st') = c_mem (l_comp st) /\ keys (c_attrs (l_comp st')) = keys (c_attrs (l_comp st)).
Proof.
  induction l as [|a l IH]; intros HP st HD HK; cbn [post_convs].
  - exists st. split; [reflexivity|]. split; [easy|]. split; [auto|]. split; [apply frame_refl|]. auto.
  - destruct HP as [HP1 HP2]. destruct (post_one x a st (HD a (or_introl eq_refl))) as (st1 & E1 & F1 & I1 & Fr1 & Z1 & P1 & M1 & K1).
    assert (KK : keys (c_attrs (l_comp st1)) = keys (c_attrs (l_comp st))).
    { destruct (has_attr a) eqn:HA; [apply K1; auto; apply HK; auto; now left|].
      unfold post_conv in E1. unfold has_attr in HA. destruct (a_kind a); try discriminate; injection E1 as <-; reflexivity. }
    destruct (IH HP2 st1) as (st2 & E2 & F2 & I2 & Fr2 & Z2 & P2 & M2 & K2).
    { intros b Hb. apply I1; auto. apply HD. now right. }
    { intros b Hb Hh. rewrite KK. apply HK; auto. now right. }
    exists st2. rewrite E1. cbn [bind]. split; [exact E2|]. split.
    { intros b [<-|Hb]; [|auto]. apply I2; [|exact F1]. intros b Hb. apply indep_sym. auto. }
    split.
    { intros b HI HF. apply I2; [intros; apply HI; now right|]. apply I1; [|exact HF]. apply HI. now left. }
    split; [eapply frame_trans; eauto|]. repeat split; congruence.
Qed.
(** ** The whole component *)
Lemma new_keys : keys (c_attrs (new_comp X M c)) = map a_attr (filter has_attr (class_fields c)) /\
  keys (c_mem (new_comp X M c)) = map a_attr (filter has_members (class_fields c)).
Proof. unfold new_comp, keys. cbn [c_attrs c_mem]. now rewrite !map_map. Qed.
Lemma attr_names_In k : In k (attr_names c) <-> In k (map a_attr (filter has_attr (class_fields c))).
Proof. unfold attr_names. rewrite !in_map_iff. split; intros (a & E & H); exists a; rewrite filter_In in *; rewrite converters_In in *; auto. Qed.
Lemma mem_names_In k : In k (mem_names c) <-> In k (map a_attr (filter has_members (class_fields c))).
Proof. unfold mem_names. rewrite !in_map_iff. split; intros (a & E & H); exists a; rewrite filter_In in *; rewrite converters_In in *; auto. Qed.
Lemma get_new {V} (f : aconv -> V) (P : aconv -> bool) l a : pairwise l -> In a l -> P a = true ->
  dict_get (a_attr a) (map (fun a => (a_attr a, f a)) (filter P l)) = Some (f a).
Proof.
  induction l as [|b l IH]; intros HP HI HPa; [easy|]. destruct HP as [H1 H2]. cbn [filter]. destruct HI as [->|HI].
  - rewrite HPa. cbn [map dict_get]. now rewrite str_eqb_refl.
  - destruct (P b); [|auto]. cbn [map dict_get]. destruct (str_eqb (a_attr a) (a_attr b)) eqn:E; [|auto].
    apply str_eqb_eq in E. destruct (H1 a HI) as (N1 & _). congruence.
Qed.
Lemma fields_pairwise : std c -> pairwise (class_fields c).
Proof. intro HS. apply pairwiseb_spec. destruct c; vm_compute; reflexivity. Qed.
Lemma new_fresh zs : std c -> forall a, In a (converters c) -> fresh a (mk_lst (new_comp X M c) [] sc0 zs).
Proof.
  intros HS a Ha. apply converters_In in Ha. split; cbn [l_comp l_count l_span]; auto.
  - intro HA. unfold new_comp. cbn [c_attrs]. apply (get_new (default_attr X c) has_attr); auto. now apply fields_pairwise.
  - intro HM. unfold new_comp. cbn [c_mem]. apply (get_new (fun _ => @nil M) has_members); auto. now apply fields_pairwise.
Qed.

(** A state in which everything has been read. *)
Record ready (SM : list N -> M -> Prop) (x : comp) (st : lst) : Prop := mk_ready {
  r_done : forall a, In a (converters c) -> done x a st;
  r_cls : c_cls (l_comp st) = c;
  r_name : c_name (l_comp st) = NAME c;
  r_extra : Forall2 item_eq (c_extra x) (c_extra (l_comp st));
  r_attrs : keys (c_attrs (l_comp st)) = keys (c_attrs (new_comp X M c));
  r_mem : keys (c_mem (l_comp st)) = keys (c_mem (new_comp X M c));
  r_par : forall k, ~ In k (par_names c) -> dict_get k (c_params (l_comp st)) = None
}.
Lemma noted_par SM (x : comp) k : storable X SM x -> c_cls x = c -> ~ In k (par_names c) -> dict_get k (c_params (noted x)) = None.
Proof.
  intros HS HC HN. rewrite noted_other.
  - destruct (dict_get k (c_params x)) eqn:E; [|easy]. exfalso. apply HN. apply (par_keys_names X). rewrite <- HC. apply (st_params _ _ _ HS). congruence.
  - intros a Ha EU HL. exfalso. apply HN. rewrite <- EU. apply note_key; [exact Ha|].
    unfold list_value in HL. destruct (dict_get a (c_attrs x)) eqn:E; [|discriminate].
    destruct (st_attrs _ _ _ HS a ltac:(congruence)) as (s & Hs & NM). apply shapes_names in Hs. rewrite HC in Hs. now destruct s.
Qed.
Lemma finish SM (x : comp) st : std c -> storable X SM x -> c_cls x = c -> ready SM x st ->
  exists st', post_convs X M (converters c) st = Ok st' /\ eq_comp X EM (noted x) (l_comp st') /\ l_zones st' = l_zones st.
Proof.
  intros HStd HS HC [R1 R2 R3 R4 R5 R6 R7]. destruct (new_keys) as [NK1 NK2].
  destruct (post_all x (converters c) (class_pairwise c HStd) st R1) as (st' & E & F & _ & [F1 F2 F3] & Z & P & MM & K).
  { intros a Ha HA. rewrite R5, NK1. apply in_map. apply filter_In. split; [now apply converters_In|exact HA]. }
  exists st'. split; [exact E|]. split; [|exact Z]. split.
  - unfold noted. cbn [set_params c_cls]. congruence.
  - unfold noted. cbn [set_params c_name]. rewrite (st_name _ _ _ HS). congruence.
  - unfold noted. cbn [set_params c_extra]. now rewrite F3.
  - intro k. change (c_attrs (noted x)) with (c_attrs x).
    destruct (in_dec (list_eq_dec N.eq_dec) k (attr_names c)) as [I|I].
    + unfold attr_names in I. apply in_map_iff in I as (a & <- & I). apply filter_In in I as [I HA]. destruct (F a I) as (_ & FA & _). auto.
    + assert (dict_get k (c_attrs x) = None) as ->.
      { destruct (dict_get k (c_attrs x)) eqn:EX; [|easy]. exfalso. apply I.
        destruct (st_attrs _ _ _ HS k ltac:(congruence)) as (s & Hs & NM). apply shapes_names in Hs. rewrite HC in Hs. now destruct s. }
      assert (dict_get k (c_attrs (l_comp st')) = None) as ->; [|easy].
      apply dict_get_None. rewrite K, R5, NK1. rewrite <- attr_names_In. exact I.
  - intro k. change (c_mem (noted x)) with (c_mem x).
    destruct (in_dec (list_eq_dec N.eq_dec) k (mem_names c)) as [I|I].
    + unfold mem_names in I. apply in_map_iff in I as (a & <- & I). apply filter_In in I as [I HA]. destruct (F a I) as (_ & _ & FA). auto.
    + assert (dict_get k (c_mem x) = None) as ->.
      { destruct (dict_get k (c_mem x)) eqn:EX; [|easy]. exfalso. apply I.
        pose proof (st_mem _ _ _ HS k ltac:(congruence)) as Hs. apply shapes_names in Hs. rewrite HC in Hs. exact Hs. }
      assert (dict_get k (c_mem (l_comp st')) = None) as ->; [|easy].
      apply dict_get_None. rewrite MM, R6, NK2. rewrite <- mem_names_In. exact I.
  - intro k. destruct (in_dec (list_eq_dec N.eq_dec) k (par_names c)) as [I|I].
    + unfold par_names in I. apply in_flat_map in I as (a & I & Hk). destruct (F a I) as (FP & _). auto.
    + rewrite (noted_par SM x k HS HC I), P, R7 by exact I. exact Logic.I.
Qed.
Lemma done_extra (x : comp) a its st : done x a st -> done x a (add_extra its st).
Proof. now intros [D1 D2]. Qed.
Lemma read_comp SM (x : comp) outs its' zs : std c -> storable X SM x -> c_cls x = c ->
  Forall2 (rt x) (converters c) outs -> Forall2 item_eq (concat outs ++ c_extra x) its' ->
  (forall id z z', list_uses (converters c) x id z z' -> resolves X zs id z) ->
  exists y zs', load_comp X M load_m c (NAME c) its' zs = Ok (y, zs') /\ eq_comp X EM (noted x) y /\ zext X zs zs'.
Proof.
  intros HStd HS HC HO HE HR. apply Forall2_app_inv_l' in HE as (i1 & i2 & -> & E1 & E2).
  set (st0 := mk_lst (new_comp X M c) [] sc0 zs).
  destruct (read_all x (converters c) outs HO (class_pairwise c HStd)) with (its' := i1) (st := st0) as (st1 & P1 & D1 & Z1 & [F1 F2 F3] & _ & K1 & A1 & M1); auto.
  { intros a Ha n Hn. now apply one_lookup. }
  { now apply new_fresh. }
  destruct new_keys as [NK1 NK2].
  destruct (finish SM x (add_extra i2 st1) HStd HS HC) as (st2 & P2 & Q2 & Z2).
  { split; cbn [add_extra l_comp set_extra c_cls c_name c_extra c_attrs c_mem c_params].
    - intros a Ha. apply done_extra. auto.
    - exact F1.
    - exact F2.
    - rewrite F3. cbn. exact E2.
    - apply A1. intros a Ha HA. cbn [st0 l_comp]. rewrite NK1. apply in_map. apply filter_In. split; [now apply converters_In|exact HA].
    - apply M1. intros a Ha HA. cbn [st0 l_comp]. rewrite NK2. apply in_map. apply filter_In. split; [now apply converters_In|exact HA].
    - intros k Hk. rewrite K1; [reflexivity|]. intros a Ha Hk'. apply Hk. unfold par_names. apply in_flat_map. eauto. }
  exists (l_comp st2), (l_zones st2). split; [|split; [exact Q2|now rewrite Z2]].
  unfold load_comp, populate_instance. change (c_cls (new_comp X M c)) with c. rewrite str_eqb_refl. fold st0.
  rewrite (populate_items_app _ i2 st0 st1 P1). rewrite items_unknown.
  - cbn [bind]. rewrite P2. reflexivity.
  - apply Forall_forall. intros it Hit HK. pose proof (st_extra _ _ _ HS) as HX. rewrite HC in HX.
    clear - E2 Hit HK HX. induction E2 as [|a b la lb H E2 IH]; [easy|]. inversion HX; subst. destruct Hit as [<-|Hit]; [|auto].
    apply (unknown_eq a b H) in HK. contradiction.
  - exact F1.
Qed.
Lemma write_comp (x : comp) outs : c_name x = NAME c -> c_cls x = c -> Forall2 (rt x) (converters c) outs -> forall zs, exists zs',
  dump_comp X M dump_m x zs = Ok (ICont (NAME c) (concat outs ++ c_extra x), zs') /\ wrote (list_uses (converters c) x) zs zs'.
Proof.
  intros HN HC HO zs. destruct (write_all x _ _ HO zs) as (zs' & E & W). exists zs'. split; [|exact W].
  unfold dump_comp. rewrite HC, E. cbn [bind]. rewrite HN. now destruct c.
Qed.
(** ** Members and actions *)
Definition member_rt (m : mkind) (names : list (list N)) (v : M) : Prop := exists n its,
  (forall zs, exists zs', dump_m v zs = Ok (ICont n its, zs') /\ wrote (UM v) zs zs') /\ In n names /\
  forall its' zs, Forall2 item_eq its its' -> (forall id z z', UM v id z z' -> resolves X zs id z) ->
    exists v' zs', load_m m n its' zs = Ok (v', zs') /\ EM v v' /\ zext X zs zs'.
Lemma members_rt (x : comp) a m l : a_kind a = KMember m -> dict_get (a_key a) (c_params x) = None ->
  dict_get (a_attr a) (c_mem x) = Some l -> (forall v, In v l -> member_rt m (a_names a) v) -> conv_rt a x.
Proof.
  intros HK HP HM HR.
  assert (HMe : has_members a = true) by (unfold has_members; now rewrite HK).
  assert (HAt : has_attr a = false) by (unfold has_attr; now rewrite HK).
  assert (CU : forall id z z', conv_uses a x id z z' <-> exists v, In v l /\ UM v id z z').
  { intros id z z'. unfold P_Field.conv_uses. rewrite HMe, HAt, HM. split.
    - intros [(E & _)|(_ & l2 & v & [= <-] & Hv & HU)]; [discriminate|eauto].
    - intros (v & Hv & HU). right. split; [easy|]. eauto. }
  assert (G : exists its, (forall zs, exists zs', dump_list M dump_m l zs = Ok (its, zs') /\ wrote (fun id z z' => exists v, In v l /\ UM v id z z') zs zs') /\
    Forall (fun it => In (item_name it) (a_names a)) its /\
    forall its' st l0, Forall2 item_eq its its' -> dict_get (a_attr a) (c_mem (l_comp st)) = Some l0 ->
      (forall id z z', (exists v, In v l /\ UM v id z z') -> resolves X (l_zones st) id z) ->
      exists st' l', populate_all X M load_m a its' st = Ok st' /\ dict_get (a_attr a) (c_mem (l_comp st')) = Some (l0 ++ l') /\ Forall2 EM l l' /\
        c_params (l_comp st') = c_params (l_comp st) /\ zext X (l_zones st) (l_zones st')).
  { clear HM CU. induction l as [|v l IH].
    - exists []. split; [|split; [constructor|]].
      + intro zs. exists zs. split; [reflexivity|]. apply wrote_nouse. intros id z z' (v & [] & _).
      + intros its' st l0 HE HG _. inversion HE; subst. exists st, []. rewrite app_nil_r. repeat split; auto. apply zext_refl.
    - destruct IH as (its & W & N0 & R); [intros; apply HR; now right|]. destruct (HR v (or_introl eq_refl)) as (n & sub & W1 & N1 & R1).
      exists (ICont n sub :: its). split; [|split; [constructor; [exact N1|exact N0]|]].
      + intro zs. destruct (W1 zs) as (zs1 & E1 & V1). destruct (W zs1) as (zs2 & E2 & V2). exists zs2. split.
        * cbn [dump_list]. rewrite E1. cbn [bind]. now rewrite E2.
        * eapply wrote_trans; [exact V1|exact V2|]. intros id z z'. cbn [In]. split.
          -- intros (u & [<-|Hu] & HU); [now left|right; eauto].
          -- intros [HU|(u & Hu & HU)]; eauto.
      + intros its' st l0 HE HG HRes. inversion HE as [|? it ? r H1 H2]; subst. apply item_eq_cont in H1 as (sub' & -> & ES).
        destruct (R1 sub' (l_zones st) ES) as (v' & zs1 & L1 & EV & ZE).
        { intros id z z' HU. apply (HRes id z z'). exists v. split; [now left|exact HU]. }
        cbn [populate_all]. unfold populate_conv. rewrite HK, L1. cbn [bind]. unfold get_mem. rewrite HG.
        match goal with |- exists st' l', populate_all _ _ _ _ _ ?s = _ /\ _ =>
          destruct (R r s (l0 ++ [v']) H2) as (st' & l' & P1 & P2 & P3 & P4 & P5) end.
        * cbn [l_comp set_mem c_mem]. now rewrite dict_get_set_same.
        * cbn [l_zones]. intros id z z' (u & Hu & HU). apply ZE. apply (HRes id z z'). exists u. split; [now right|exact HU].
        * exists st', (v' :: l'). split; [exact P1|]. split; [now rewrite P2, <- app_assoc|]. split; [now constructor|]. split; [exact P4|].
          eapply zext_trans; [exact ZE|exact P5]. }
  destruct G as (its & W & N0 & R). exists its. split; [split|].
  - intro zs. destruct (W zs) as (zs' & E & V). exists zs'. split; [|now apply (wrote_ext _ _ _ _ V)].
    unfold serialize_conv. rewrite HK, HP. unfold get_mem. now rewrite HM.
  - exact N0.
  - intros its' st HE HF HRes. destruct (R its' st [] HE (f_mem _ _ _ _ _ HF HMe)) as (st' & l' & P1 & P2 & P3 & P4 & P5).
    { intros id z z' HU. apply (HRes id z z'). now apply CU. }
    exists st'. split; [exact P1|]. split; [|exact P5]. split.
    + unfold pkeys. rewrite HK. easy.
    + rewrite HK, HM, P2. exact P3.
Qed.
Definition action_name (d : cls) : list N :=
  match d with CAudio => py "AUDIO" | CDisplay => py "DISPLAY" | CEmail => py "EMAIL" | _ => py "NONE" end.
Lemma action_rt (x : comp) : std_alarm c -> c_cls x = c -> storable_par x (py "ACTION") [] -> exists q,
  conv_write action_field x [ILine (mk_line (py "ACTION") q (action_name c))] /\
  conv_read action_field x [ILine (mk_line (py "ACTION") q (action_name c))].
Proof.
  intros HA HC HP.
  assert (HAc : action x = Ok (action_name c) /\ type_from_action (action_name c) = c).
  { unfold action. rewrite HC. unfold std_alarm in HA. destruct HA as [<-|[<-|[<-|[<-|[]]]]]; split; reflexivity. }
  destruct HAc as [A1 A2]. clear HC.
  assert (exists q, single_params (py "ACTION") x = Ok q /\ dict_get (py "ACTION") (c_params x) = match q with [] => None | _ => Some (XOne q) end) as (q & SQ & GQ).
  { unfold storable_par in HP. unfold single_params. destruct (dict_get _ _) as [[p|p]|]; [|easy|now exists []].
    exists p. destruct HP as [NE _]. now destruct p. }
  exists q. split; [split|].
  - intro zs. exists zs. split.
    + unfold serialize_conv, action_field. cbn [a_kind]. unfold serialize_action. rewrite A1. cbn [bind]. now rewrite SQ.
    + apply wrote_nouse. intros id z z' [(E & _)|(E & _)]; discriminate.
  - repeat constructor.
  - intros its' st HE HF _. inversion HE as [|? it ? r H1 H2]; subst. inversion H2; subst. apply item_eq_line in H1 as (l & -> & (L1 & L2 & L3)).
    cbn [cl_name cl_value cl_params] in *. eexists. cbn [populate_all]. unfold populate_conv, action_field. cbn [a_kind]. unfold populate_action.
    rewrite <- L2, A2, (P_Field.f_cls _ _ _ _ _ HF). assert (cls_eqb c c = true) as -> by (now destruct c). cbn [bind]. split; [reflexivity|].
    split; [|apply zext_refl]. split; [|easy]. intros k [<-|[]]. cbn [l_comp].
    rewrite noted_other; [|intros a Ha EU; exfalso; unfold NOTE_ATTRS in Ha; destruct Ha as [<-|[<-|[<-|[]]]]; vm_compute in EU; discriminate EU].
    rewrite GQ. assert (PN : dict_get (py "ACTION") (c_params (l_comp st)) = None) by (apply (f_par _ _ _ _ _ HF); now left).
    destruct (cl_params l) as [|kv Q], q as [|kv2 q]; try discriminate; cbn [store_params]; [now rewrite PN|].
    cbn [set_params c_params]. rewrite dict_get_set_same. exact L3.
Qed.
End Whole.
