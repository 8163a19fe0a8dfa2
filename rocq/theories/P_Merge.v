(** * Proofs for C60: reading into a component that already has contents *)
From Verif Require Import M_Base M_Text M_Line M_Codec M_Cal M_Time M_Span M_Dt M_Tree M_Comp.
From Verif Require Import S_Text S_Codec S_Dt S_Comp S_Multi S_Reorder P_Base P_Comp P_Cat P_Frame P_Whole P_Keep P_Local P_Reorder P_ReadGen S_Read P_Value P_ReadVal P_ReadSpan P_Read P_ReadAll S_Merge.
From Coq Require Import Lia ZifyBool ZifyNat ZifyN.
Open Scope N_scope.

Definition MA (c : cls) := map a_attr (filter is_multi (class_fields c)).
Definition MK (c : cls) := map a_key (filter is_multi (class_fields c)).
Definition MM (c : cls) := map a_attr (filter is_member (class_fields c)).
Definition sepb (c : cls) : bool := forallb (fun a =>
  match a_kind a with
  | KVal _ false _ _ => negb (is_in (a_attr a) (MA c)) && negb (is_in (a_key a) (MK c)) && negb (is_in (a_attr a) [py "timespan"])
  | KVal _ true _ _ => negb (is_in (a_attr a) [py "timespan"])
  | KSpan _ => is_in (a_attr a) [py "timespan"]
  | _ => true end) (class_fields c) &&
  forallb (fun k => negb (is_in k (MK c))) [py "BEGIN"; py "END"; py "DUE"; py "DURATION"; py "ACTION"] && negb (is_in (py "timespan") (MA c)).
Lemma sep_all c : sepb c = true.
Proof. destruct c; vm_compute; reflexivity. Qed.
Lemma is_in_false k l : is_in k l = false -> ~ In k l.
Proof. intros H I. apply existsb_str in I. unfold is_in in H. congruence. Qed.
Lemma sep_fields c a : In a (class_fields c) ->
  match a_kind a with
  | KVal _ false _ _ => ~ In (a_attr a) (MA c) /\ ~ In (a_key a) (MK c) /\ a_attr a <> py "timespan"
  | KVal _ true _ _ => In (a_attr a) (MA c) /\ In (a_key a) (MK c) /\ a_attr a <> py "timespan"
  | KSpan _ => a_attr a = py "timespan"
  | KMember _ => In (a_attr a) (MM c)
  | _ => True
  end.
Proof.
  intro I. pose proof (sep_all c) as H. unfold sepb in H. rewrite !Bool.andb_true_iff in H. destruct H as [[H _] _]. rewrite forallb_forall in H. specialize (H a I).
  destruct (a_kind a) as [convs [] r s|k|m| |] eqn:K; auto.
  - assert (F : In a (filter is_multi (class_fields c))) by (apply filter_In; split; [exact I|unfold is_multi; now rewrite K]).
    split; [now apply in_map|]. split; [now apply in_map|]. apply Bool.negb_true_iff, is_in_false in H. intro E. apply H. now left.
  - rewrite !Bool.andb_true_iff, !Bool.negb_true_iff in H. destruct H as [[H1 H2] H3]. apply is_in_false in H1, H2, H3. split; [exact H1|]. split; [exact H2|]. intro E. apply H3. now left.
  - apply existsb_str in H. destruct H as [<-|[]]. reflexivity.
  - apply in_map, filter_In. split; [exact I|]. unfold is_member. now rewrite K.
Qed.
Lemma sep_keys c k : In k [py "BEGIN"; py "END"; py "DUE"; py "DURATION"; py "ACTION"] -> ~ In k (MK c).
Proof.
  intro I. pose proof (sep_all c) as H. unfold sepb in H. rewrite !Bool.andb_true_iff in H. destruct H as [[_ H] _]. rewrite forallb_forall in H. specialize (H k I).
  now apply Bool.negb_true_iff, is_in_false in H.
Qed.
Lemma sep_span c : ~ In (py "timespan") (MA c).
Proof. pose proof (sep_all c) as H. unfold sepb in H. rewrite !Bool.andb_true_iff in H. destruct H as [_ H]. now apply Bool.negb_true_iff, is_in_false in H. Qed.

Definition both {A} (R : A -> A -> Prop) (r r0 : res A) : Prop :=
  match r, r0 with Ok a, Ok b => R a b | Err e, Err e' => e = e' | _, _ => False end.
Lemma both_bind {A B} (R : A -> A -> Prop) (Q : B -> B -> Prop) r r0 f f0 : both R r r0 -> (forall a b, R a b -> both Q (f a) (f0 b)) -> both Q (bind r f) (bind r0 f0).
Proof. destruct r, r0; cbn; try contradiction; auto. Qed.
Lemma both_refl {A} (r : res A) : both eq r r.
Proof. destruct r; reflexivity. Qed.

Section Merge.
Variable X : ext.
Variable M : Type.
Variable load_m : mkind -> list N -> list item -> zones -> res (M * zones).
Variable x0 : comp M.
Let c := c_cls x0.
Local Notation lst := (lst M).

Definition cnt (k : list N) (n : dict nat) : nat := match dict_get k n with Some m => m | None => O end.
Record csim (x y : comp M) (n : dict nat) : Prop := mk_csim {
  sm_cls : c_cls x = c /\ c_cls y = c;
  sm_name : c_name x = c_name x0;
  sm_extra : c_extra x = c_extra x0 ++ c_extra y;
  sm_many : forall k, In k (MA c) -> exists old new, dict_get k (c_attrs x0) = Some (AMany old) /\
    dict_get k (c_attrs y) = Some (AMany new) /\ dict_get k (c_attrs x) = Some (AMany (old ++ new));
  sm_one : forall k, ~ In k (MA c) -> (cnt k n = O -> dict_get k (c_attrs x) = dict_get k (c_attrs x0)) /\
    (cnt k n <> O -> dict_get k (c_attrs x) = dict_get k (c_attrs y));
  sm_par : forall k, ~ In k (MK c) -> dict_get k (c_params x) =
    match dict_get k (c_params y) with Some p => Some p | None => dict_get k (c_params x0) end;
  sm_notes : forall k, In k (MK c) -> (forall p, dict_get k (c_params x0) <> Some (XOne p)) /\
    match dict_get k (c_params y) with
    | None => dict_get k (c_params x) = dict_get k (c_params x0)
    | Some (XMany b) => dict_get k (c_params x) = Some (XMany (notes (dict_get k (c_params x0)) ++ b))
    | Some (XOne _) => False
    end;
  sm_mem : forall k, In k (MM c) -> exists old new, dict_get k (c_mem x0) = Some old /\
    dict_get k (c_mem y) = Some new /\ dict_get k (c_mem x) = Some (old ++ new);
  sm_mems : forall k, ~ In k (MM c) -> dict_get k (c_mem x) = dict_get k (c_mem x0)
}.
Record sim (s s0 : lst) : Prop := mk_sim {
  si_comp : csim (l_comp s) (l_comp s0) (l_count s);
  si_count : l_count s = l_count s0;
  si_span : l_span s = l_span s0;
  si_zones : l_zones s = l_zones s0
}.

(** ** Steps *)
Lemma sdec (k j : list N) : {k = j} + {k <> j}. Proof. apply list_eq_dec, N.eq_dec. Qed.
Lemma csim_store key p x y n : csim x y n -> ~ In key (MK c) -> csim (store_params key p x) (store_params key p y) n.
Proof.
  intros [A1 A2 A3 A4 A5 A6 A7 A8 A9] NK. destruct p as [|q p]; [now constructor|]. cbn [store_params]. constructor; cbn [set_params c_cls c_name c_extra c_attrs c_mem c_params]; auto.
  - intros k HK. destruct (sdec k key) as [->|NE]; [now rewrite !dict_get_set_same|]. rewrite !dict_get_set_other by congruence. now apply A6.
  - intros k HK. rewrite !dict_get_set_other by (intros ->; contradiction). now apply A7.
Qed.
Lemma cnt_same k m n : cnt k (dict_set k m n) = m.
Proof. unfold cnt. now rewrite dict_get_set_same. Qed.
Lemma cnt_other k j m n : k <> j -> cnt k (dict_set j m n) = cnt k n.
Proof. intro H. unfold cnt. now rewrite dict_get_set_other by congruence. Qed.
Lemma csim_set a v m x y n : csim x y n -> ~ In a (MA c) ->
  csim (set_attrs (dict_set a v (c_attrs x)) x) (set_attrs (dict_set a v (c_attrs y)) y) (dict_set a (S m) n).
Proof.
  intros [A1 A2 A3 A4 A5 A6 A7 A8 A9] NK. constructor; cbn [set_attrs c_cls c_name c_extra c_attrs c_mem c_params]; auto.
  - intros k HK. rewrite !dict_get_set_other by (intros ->; contradiction). now apply A4.
  - intros k HK. destruct (sdec k a) as [->|NE].
    + rewrite cnt_same, !dict_get_set_same. split; [discriminate|reflexivity].
    + rewrite (cnt_other _ _ _ _ NE), !dict_get_set_other by congruence. now apply A5.
Qed.
Lemma csim_count a m x y n : csim x y n -> In a (MA c) -> csim x y (dict_set a m n).
Proof.
  intros [A1 A2 A3 A4 A5 A6 A7 A8 A9] IK. constructor; auto. intros k HK. rewrite cnt_other by (intros ->; contradiction). now apply A5.
Qed.
Lemma csim_params key p x y n : csim x y n -> In key (MK c) -> both (fun x' y' => csim x' y' n) (append_params key p x) (append_params key p y).
Proof.
  intros C IK. pose proof (sm_notes _ _ _ C key IK) as [N1 N2]. unfold append_params.
  assert (K : forall w, csim (set_params (dict_set key (XMany (notes (dict_get key (c_params x0)) ++ w)) (c_params x)) x) (set_params (dict_set key (XMany w) (c_params y)) y) n).
  { intro w. destruct C as [A1 A2 A3 A4 A5 A6 A7 A8 A9]. constructor; cbn [set_params c_cls c_name c_extra c_attrs c_mem c_params]; auto.
    - intros k HK. rewrite !dict_get_set_other by (intros ->; contradiction). now apply A6.
    - intros k HK. destruct (sdec k key) as [->|NE]; [rewrite !dict_get_set_same; now split|]. rewrite !dict_get_set_other by congruence. now apply A7. }
  destruct (dict_get key (c_params y)) as [[q|b]|] eqn:EY; [contradiction| |].
  - rewrite N2. cbn [both]. rewrite <- app_assoc. apply K.
  - rewrite N2. destruct (dict_get key (c_params x0)) as [[q|b]|] eqn:E0; [now destruct (N1 q)| |]; cbn [both]; apply (K [p]).
Qed.
Lemma csim_value a v x y n : csim x y n -> In a (MA c) -> both (fun x' y' => csim x' y' n) (append_value a v x) (append_value a v y).
Proof.
  intros C IK. destruct (sm_many _ _ _ C a IK) as (old & new & E0 & EY & EX). unfold append_value, get_attr. rewrite EX, EY. cbn [both]. rewrite <- app_assoc.
  destruct C as [A1 A2 A3 A4 A5 A6 A7 A8 A9]. constructor; cbn [set_attrs c_cls c_name c_extra c_attrs c_mem c_params]; auto.
  - intros k HK. destruct (sdec k a) as [->|NE]; [rewrite !dict_get_set_same; eauto|]. rewrite !dict_get_set_other by congruence. now apply A4.
  - intros k HK. rewrite !dict_get_set_other by (intros ->; contradiction). now apply A5.
Qed.
Lemma csim_add a v x y n : csim x y n -> In a (MM c) ->
  csim (set_mem (dict_set a (get_mem a x ++ [v]) (c_mem x)) x) (set_mem (dict_set a (get_mem a y ++ [v]) (c_mem y)) y) n.
Proof.
  intros C IK. destruct (sm_mem _ _ _ C a IK) as (old & new & E0 & EY & EX). unfold get_mem. rewrite EX, EY.
  destruct C as [A1 A2 A3 A4 A5 A6 A7 A8 A9]. constructor; cbn [set_mem c_cls c_name c_extra c_attrs c_mem c_params]; auto.
  - intros k HK. destruct (sdec k a) as [->|NE]; [rewrite !dict_get_set_same, <- app_assoc; eauto|]. rewrite !dict_get_set_other by congruence. now apply A8.
  - intros k HK. rewrite !dict_get_set_other by (intros ->; contradiction). now apply A9.
Qed.
Lemma csim_extra e x y n : csim x y n -> csim (set_extra (c_extra x ++ [e]) x) (set_extra (c_extra y ++ [e]) y) n.
Proof.
  intros [A1 A2 A3 A4 A5 A6 A7 A8 A9]. constructor; cbn [set_extra c_cls c_name c_extra c_attrs c_mem c_params]; auto. now rewrite A3, app_assoc.
Qed.

Lemma sim_single a convs s0 r cl s t : In a (class_fields c) -> a_kind a = KVal convs false r s0 -> sim s t ->
  both sim (populate_single X a convs s0 cl s) (populate_single X a convs s0 cl t).
Proof.
  intros IA K [C EN ES EZ]. pose proof (sep_fields c a IA) as P. rewrite K in P. destruct P as (P1 & P2 & P3). unfold populate_single, count. rewrite <- EN, <- EZ, <- ES.
  destruct (Nat.ltb _ _); [reflexivity|]. eapply both_bind; [apply both_refl|]. intros [ps cv] ? <-. eapply both_bind; [apply both_refl|]. intros [[v ps'] zs'] ? <-.
  eapply both_bind; [apply both_refl|]. intros v' ? <-. cbn [both]. constructor; cbn [l_comp l_count l_span l_zones]; auto. apply csim_set; [|exact P1]. now apply csim_store.
Qed.
Lemma sim_values a cv vals : In (a_attr a) (MA c) -> In (a_key a) (MK c) -> forall ps s t, sim s t ->
  both sim (populate_values X a cv vals ps s) (populate_values X a cv vals ps t).
Proof.
  intros IA IK. induction vals as [|w vals IH]; intros ps s t HS; cbn [populate_values]; [exact HS|]. pose proof HS as [C EN ES EZ]. rewrite <- EZ.
  eapply both_bind; [apply both_refl|]. intros [[v ps'] zs'] ? <-. eapply both_bind; [apply csim_params; eauto|]. intros x1 y1 C1. eapply both_bind; [apply csim_value; [exact C1|exact IA]|].
  intros x2 y2 C2. apply IH. constructor; cbn [l_comp l_count l_span l_zones]; auto; [|unfold count; now rewrite EN]. now apply csim_count.
Qed.
Lemma sim_span cl s t : sim s t -> both sim (populate_span X cl s) (populate_span X cl t).
Proof.
  intros HS. pose proof HS as [C EN ES EZ]. unfold populate_span. rewrite <- ES, <- EZ, <- EN. destruct (existsb _ _); [reflexivity|]. destruct (str_eqb _ (py "DURATION")).
  - eapply both_bind; [apply both_refl|]. intros d ? <-. cbn [both]. constructor; cbn [l_comp l_count l_span l_zones]; auto. apply csim_store; [exact C|]. apply sep_keys. cbn. tauto.
  - eapply both_bind; [apply both_refl|]. intros [[[p d] ps2] zs'] ? <-. eapply both_bind; [apply both_refl|]. intros ? ? _. destruct (str_eqb _ (py "DTSTART")); [|destruct (str_eqb _ (py "DTEND"))];
      cbn [both]; (constructor; cbn [l_comp l_count l_span l_zones]; auto); (apply csim_store; [exact C|]); apply sep_keys; vm_compute; tauto.
Qed.
Lemma sim_conv a it s t : In a (class_fields c) -> sim s t -> both (fun p q => sim (fst p) (fst q) /\ snd p = snd q) (populate_conv X M load_m a it s) (populate_conv X M load_m a it t).
Proof.
  intros IA HS. pose proof HS as [C EN ES EZ]. pose proof (sep_fields c a IA) as P. unfold populate_conv. destruct (a_kind a) as [convs [] r s0|k|m| |] eqn:K, it as [l|n its]; try reflexivity.
  - unfold populate_multi. destruct (prepare_params convs (cl_params l)) as [[ps cv]|]; [|reflexivity]. cbn [bind]. destruct (vsplit cv (cl_value l)); [|reflexivity]. cbn [bind].
    eapply both_bind; [apply sim_values; [apply P|apply P|exact HS]|]. intros; now split.
  - eapply both_bind; [eapply sim_single; eauto|]. intros; now split.
  - eapply both_bind; [now apply sim_span|]. intros; now split.
  - rewrite <- EZ. eapply both_bind; [apply both_refl|]. intros [x zs'] ? <-. cbn [both fst snd]. split; [|reflexivity]. constructor; cbn [l_comp l_count l_span l_zones]; auto. now apply csim_add.
  - unfold populate_action. rewrite (proj1 (sm_cls _ _ _ C)), (proj2 (sm_cls _ _ _ C)). destruct (cls_eqb _ _); [|reflexivity]. cbn [bind both fst snd]. split; [|reflexivity].
    constructor; cbn [l_comp l_count l_span l_zones]; auto. apply csim_store; [exact C|]. apply sep_keys. cbn. tauto.
  - cbn. now split.
  - cbn. now split.
Qed.
Lemma sim_convs l it : (forall a, In a l -> In a (class_fields c)) -> forall s t b, sim s t ->
  both (fun p q => sim (fst p) (fst q) /\ snd p = snd q) (populate_convs X M load_m l it s b) (populate_convs X M load_m l it t b).
Proof.
  induction l as [|a l IH]; intros HL s t b HS; cbn [populate_convs]; [now split|]. eapply both_bind; [apply sim_conv; [apply HL; now left|exact HS]|].
  intros [s1 b1] [t1 b2] [H1 H2]. cbn [fst snd] in *. subst b2. apply IH; [|exact H1]. intros a' I. apply HL. now right.
Qed.
Lemma sim_item it s t : sim s t -> both sim (populate_item X M load_m it s) (populate_item X M load_m it t).
Proof.
  intro HS. unfold populate_item. pose proof (si_comp _ _ HS) as C. rewrite (proj1 (sm_cls _ _ _ C)), (proj2 (sm_cls _ _ _ C)). eapply both_bind; [apply sim_convs; [|exact HS]|].
  - intros a I. now apply lookup_In in I as [I _].
  - intros [s1 b1] [t1 b2] [H1 H2]. cbn [fst snd] in *. subst b2. destruct b1; [exact H1|]. destruct H1 as [C1 E1 E2 E3]. cbn [both]. constructor; cbn [l_comp l_count l_span l_zones]; auto. now apply csim_extra.
Qed.
Lemma sim_items its : forall s t, sim s t -> both sim (populate_items X M load_m its s) (populate_items X M load_m its t).
Proof. induction its as [|it its IH]; intros s t HS; cbn [populate_items]; [exact HS|]. eapply both_bind; [now apply sim_item|]. intros a b. apply IH. Qed.

(** ** After the items *)
Definition psim (n : dict nat) (d : bool) (s t : lst) : Prop :=
  (exists n', csim (l_comp s) (l_comp t) n' /\ (forall k, k <> py "timespan" \/ d = false -> cnt k n' = cnt k n) /\ (d = true -> cnt (py "timespan") n' <> O)) /\
  l_count s = l_count t /\ l_span s = l_span t /\ l_zones s = l_zones t.
Lemma psim_post n d a s t : In a (class_fields c) -> psim n d s t -> both (psim n (d || is_span a)) (post_conv X M a s) (post_conv X M a t).
Proof.
  intros IA ((n' & C & N1 & N2) & EN & ES & EZ). pose proof (sep_fields c a IA) as P. unfold post_conv, is_span, count. destruct (a_kind a) as [convs m r s0|k|m| |] eqn:K.
  - rewrite <- EN. destruct (r && _)%bool; [reflexivity|]. cbn [both]. rewrite Bool.orb_false_r. split; [exists n'; auto|]. cbn [l_count l_span l_zones]. auto.
  - rewrite <- ES. eapply both_bind; [apply both_refl|]. intros w ? <-. eapply both_bind; [apply both_refl|]. intros ? ? _. eapply both_bind; [apply both_refl|]. intros v ? <-.
    cbn [both]. split; [|cbn [l_count l_span l_zones]; auto]. exists (dict_set (a_attr a) 1%nat n'). split; [|rewrite P; split].
    + apply csim_set; [exact C|]. rewrite P. apply sep_span.
    + intros j NE. rewrite Bool.orb_true_r in NE. destruct NE as [NE|NE]; [|discriminate]. rewrite cnt_other by congruence. auto.
    + intros _. now rewrite cnt_same.
  - cbn [both]. rewrite Bool.orb_false_r. split; [exists n'; auto|auto].
  - cbn [both]. rewrite Bool.orb_false_r. split; [exists n'; auto|auto].
  - cbn [both]. rewrite Bool.orb_false_r. split; [exists n'; auto|auto].
Qed.
Lemma psim_posts n l : (forall a, In a l -> In a (class_fields c)) -> forall d s t, psim n d s t ->
  both (psim n (d || existsb is_span l)) (post_convs X M l s) (post_convs X M l t).
Proof.
  induction l as [|a l IH]; intros HL d s t HS; cbn [post_convs existsb]; [now rewrite Bool.orb_false_r|]. eapply both_bind; [apply psim_post; [apply HL; now left|exact HS]|].
  intros s1 t1 H1. rewrite Bool.orb_assoc. apply IH; [|exact H1]. intros b I. apply HL. now right.
Qed.

(** ** The start *)
Lemma new_many k : In k (MA c) -> dict_get k (c_attrs (new_comp X M c)) = Some (AMany []).
Proof. destruct c; cbn [MA]; intro I; vm_compute in I; repeat (destruct I as [<-|I]; [reflexivity|]); contradiction. Qed.
Lemma new_mem k : In k (MM c) -> dict_get k (c_mem (new_comp X M c)) = Some [].
Proof. destruct c; cbn [MM]; intro I; vm_compute in I; repeat (destruct I as [<-|I]; [reflexivity|]); contradiction. Qed.
Lemma MA_multi k : In k (MA c) <-> exists f, In f (multiples c) /\ k = h_attr f.
Proof.
  unfold MA. rewrite in_map_iff. split.
  - intros (a & <- & I). destruct (F2_r _ _ _ _ (multis_table c) I) as (f & J & [R _ _]). eauto.
  - intros (f & I & ->). destruct (F2_l _ _ _ _ (multis_table c) I) as (a & J & [R _ _]). exists a. now split.
Qed.
Lemma MK_multi k : In k (MK c) <-> exists f, In f (multiples c) /\ k = upper (h_attr f).
Proof.
  unfold MK, a_key. rewrite in_map_iff. split.
  - intros (a & <- & I). destruct (F2_r _ _ _ _ (multis_table c) I) as (f & J & [R _ _]). exists f. now rewrite R.
  - intros (f & I & ->). destruct (F2_l _ _ _ _ (multis_table c) I) as (a & J & [R _ _]). exists a. now rewrite R.
Qed.
Lemma MM_member k : In k (MM c) <-> In k (map (fun m => fst (fst m)) (members c)).
Proof.
  unfold MM. rewrite !in_map_iff. split.
  - intros (a & <- & I). destruct (F2_r _ _ _ _ (members_table c) I) as (m & J & (_ & R & _)). eauto.
  - intros (m & <- & I). destruct (F2_l _ _ _ _ (members_table c) I) as (a & J & (_ & R & _)). eauto.
Qed.
Lemma sim_start zs : mergeable x0 -> sim (mk_lst x0 [] sc0 zs) (mk_lst (new_comp X M c) [] sc0 zs).
Proof.
  intros [B1 B2 B3]. constructor; cbn [l_comp l_count l_span l_zones]; auto. constructor; try reflexivity.
  - now split.
  - cbn [new_comp c_extra]. now rewrite app_nil_r.
  - intros k I. rewrite (new_many k I). apply MA_multi in I as (f & I & ->). destruct (B1 f I) as (l & ->). exists l, []. rewrite app_nil_r. auto.
  - intros k _. now split.
  - intros k I. apply MK_multi in I as (f & I & ->). split; [|reflexivity]. intros p. now apply B2.
  - intros k I. rewrite (new_mem k I). apply MM_member, in_map_iff in I as ([[a n] m] & <- & I). cbn [fst]. specialize (B3 a n m I). destruct (dict_get a (c_mem x0)) as [l|]; [|contradiction].
    exists l, []. rewrite app_nil_r. auto.
Qed.

(** ** Lines are counted *)
Lemma conv_count a it s s' b : is_single a = true -> populate_conv X M load_m a it s = Ok (s', b) -> cnt (a_attr a) (l_count s') = S (cnt (a_attr a) (l_count s)) /\ exists l, it = ILine l.
Proof.
  unfold is_single, populate_conv. destruct (a_kind a) as [convs [] r s0|k|m| |] eqn:K; try discriminate. intros _. destruct it as [l|]; [|discriminate]. intro H.
  apply bind_Ok in H as (s1 & H & [= <- _]). split; [|eauto]. unfold populate_single in H. destruct (Nat.ltb _ _); [discriminate|]. apply bind_Ok in H as ([ps cv] & _ & H).
  apply bind_Ok in H as ([[v ps'] zs'] & _ & H). apply bind_Ok in H as (v' & _ & [= <-]). cbn [l_count]. now rewrite cnt_same.
Qed.
Lemma convs_count a it l : In a (converters c) -> is_single a = true -> NoDup l -> (forall b, In b l -> In b (converters c)) -> forall s s' b0 b,
  populate_convs X M load_m l it s b0 = Ok (s', b) ->
  (In a l -> cnt (a_attr a) (l_count s') = S (cnt (a_attr a) (l_count s)) /\ exists l, it = ILine l) /\ (~ In a l -> cnt (a_attr a) (l_count s') = cnt (a_attr a) (l_count s)).
Proof.
  intros IA SA. induction l as [|b l IH]; intros ND HL s s' b0 b1 H; cbn [populate_convs] in H; [injection H as <- _; now split|]. apply bind_Ok in H as ([s1 b2] & H1 & H).
  inversion_clear ND as [|? ? NI ND']. destruct (IH ND' (fun b I => HL b (or_intror I)) _ _ _ _ H) as [IH1 IH2].
  assert (OT : b <> a -> cnt (a_attr a) (l_count s1) = cnt (a_attr a) (l_count s)).
  { intro NE. unfold cnt. apply conv_off in H1. rewrite (o_count _ _ _ _ H1); [reflexivity|].
    apply (pairwise_indep (converters c) a b); [apply class_pairwise_all|exact IA|apply HL; now left|congruence]. }
  split.
  - intros [->|I]; [destruct (conv_count _ _ _ _ _ SA H1) as [E L]; rewrite IH2 by exact NI; auto|]. destruct (IH1 I) as [E L]. rewrite E, OT; [auto|]. intros ->. contradiction.
  - intro NI'. rewrite IH2, OT; [reflexivity| |]; intro; apply NI'; [now left|now right].
Qed.
Lemma item_count a n it s s' : In a (converters c) -> is_single a = true -> a_names a = [n] -> c_cls (l_comp s) = c -> populate_item X M load_m it s = Ok s' ->
  cnt (a_attr a) (l_count s') = (cnt (a_attr a) (l_count s) + length (lines n [it]))%nat.
Proof.
  intros IA SA NA HC H. unfold populate_item in H. apply bind_Ok in H as ([s1 b] & H1 & H). rewrite HC in H1.
  destruct (convs_count a it _ IA SA (lookup_NoDup c (item_name it)) (fun b I => proj1 (proj1 (lookup_iff c _ b) I)) _ _ _ _ H1) as [K1 K2].
  assert (E : l_count s' = l_count s1) by (destruct b; injection H as <-; reflexivity). rewrite E. unfold lines. cbn [flat_map].
  destruct (in_dec (list_eq_dec N.eq_dec) (item_name it) (a_names a)) as [I|I].
  - destruct K1 as [-> (l & ->)]; [now apply lookup_iff|]. rewrite NA in I. destruct I as [I|[]]. cbn [item_name] in I. subst n. rewrite str_eqb_refl. cbn [app length]. lia.
  - rewrite K2; [|intro J; now apply lookup_iff in J as [_ J]]. destruct it as [l|m sub]; [|cbn; lia]. cbn [item_name] in I. destruct (str_eqb (cl_name l) n) eqn:EN; [|cbn; lia].
    exfalso. apply str_eqb_eq in EN. apply I. rewrite NA. now left.
Qed.
Lemma item_cls it s s' : populate_item X M load_m it s = Ok s' -> c_cls (l_comp s') = c_cls (l_comp s).
Proof.
  unfold populate_item. intro H. apply bind_Ok in H as ([s1 b] & H1 & H).
  assert (E : forall l s s' b0 b, populate_convs X M load_m l it s b0 = Ok (s', b) -> c_cls (l_comp s') = c_cls (l_comp s)).
  { induction l as [|a l IH]; intros u u' v v' K; cbn [populate_convs] in K; [now injection K as <- _|]. apply bind_Ok in K as ([u1 v1] & K1 & K). rewrite (IH _ _ _ _ K). eapply conv_cls; eauto. }
  apply E in H1. destruct b; injection H as <-; exact H1.
Qed.
Lemma items_count a n its : In a (converters c) -> is_single a = true -> a_names a = [n] -> forall s s', c_cls (l_comp s) = c -> populate_items X M load_m its s = Ok s' ->
  cnt (a_attr a) (l_count s') = (cnt (a_attr a) (l_count s) + length (lines n its))%nat.
Proof.
  intros IA SA NA. induction its as [|it its IH]; intros s s' HC H; cbn [populate_items] in H; [injection H as <-; cbn; lia|]. apply bind_Ok in H as (s1 & H1 & H).
  rewrite (IH s1 s'); [|rewrite (item_cls _ _ _ H1); exact HC|exact H]. rewrite (item_count a n it s s1) by assumption. change (lines n (it :: its)) with (lines n ([it] ++ its)).
  unfold lines. rewrite flat_map_app, app_length. lia.
Qed.

Lemma conv_nocount k a it s s' b : In a (converters c) -> ~ In k (S_Read.attr_names c) -> populate_conv X M load_m a it s = Ok (s', b) -> cnt k (l_count s') = cnt k (l_count s).
Proof.
  intros IA NK H. pose proof (conv_off _ _ _ _ _ _ _ _ H) as O. unfold populate_conv in H. destruct (a_kind a) as [convs m r s0|j|m| |] eqn:K.
  - unfold cnt. rewrite (o_count _ _ _ _ O); [reflexivity|]. intros ->. apply NK. unfold S_Read.attr_names. rewrite !in_app_iff. destruct m.
    + right. left. destruct (conv_multi c a IA) as (f & I & [V _ _]); [unfold is_multi; now rewrite K|]. rewrite V. now apply in_map.
    + left. destruct (conv_single X c a IA) as (f & I & [V _ _]); [unfold is_single; now rewrite K|]. rewrite V. now apply in_map.
  - destruct it as [l|]; [|discriminate]. apply bind_Ok in H as (s1 & H & [= <- _]). unfold populate_span in H. destruct (existsb _ _); [discriminate|].
    destruct (str_eqb _ (py "DURATION")); [apply bind_Ok in H as (d & _ & [= <-]); reflexivity|].
    apply bind_Ok in H as ([[[p d] ps2] zs'] & _ & H). apply bind_Ok in H as (u & _ & H). destruct (str_eqb _ (py "DTSTART")); injection H as <-; reflexivity.
  - destruct it as [|n its]; [discriminate|]. apply bind_Ok in H as ([x zs'] & _ & [= <- _]). reflexivity.
  - destruct it as [l|]; [|discriminate]. apply bind_Ok in H as (s1 & H & [= <- _]). unfold populate_action in H. destruct (cls_eqb _ _); [|discriminate]. now injection H as <-.
  - destruct it; injection H as <- _; reflexivity.
Qed.
Lemma items_nocount k its : ~ In k (S_Read.attr_names c) -> forall s s', c_cls (l_comp s) = c -> populate_items X M load_m its s = Ok s' -> cnt k (l_count s') = cnt k (l_count s).
Proof.
  intro NK. induction its as [|it its IH]; intros s s' HC H; cbn [populate_items] in H; [now injection H as <-|]. apply bind_Ok in H as (s1 & H1 & H).
  rewrite (IH s1 s'); [|rewrite (item_cls _ _ _ H1); exact HC|exact H]. unfold populate_item in H1. apply bind_Ok in H1 as ([s2 b] & H2 & H1). rewrite HC in H2.
  assert (E : forall l, (forall a, In a l -> In a (converters c)) -> forall s s' b0 b, populate_convs X M load_m l it s b0 = Ok (s', b) -> cnt k (l_count s') = cnt k (l_count s)).
  { induction l as [|a l IHl]; intros HL u u' v v' Q; cbn [populate_convs] in Q; [now injection Q as <- _|]. apply bind_Ok in Q as ([u1 v1] & Q1 & Q).
    rewrite (IHl (fun b I => HL b (or_intror I)) _ _ _ _ Q). eapply conv_nocount; eauto. apply HL. now left. }
  rewrite <- (E _ (fun a I => proj1 (proj1 (lookup_iff c _ a) I)) _ _ _ _ H2). destruct b; injection H1 as <-; reflexivity.
Qed.

(** ** The theorem *)
Lemma names_split k : In k (S_Read.attr_names c) \/ ~ In k (S_Read.attr_names c).
Proof. destruct (in_dec (list_eq_dec N.eq_dec) k (S_Read.attr_names c)); auto. Qed.
Lemma merge_both n its zs : mergeable x0 -> both (fun p q => merged its x0 (fst q) (fst p) /\ snd p = snd q)
  (populate_instance X M load_m x0 n its zs) (load_comp X M load_m c n its zs).
Proof.
  intro HM. unfold load_comp, populate_instance. cbn [new_comp c_cls]. fold (new_comp X M c). fold c. destruct (str_eqb n (NAME c)); [|reflexivity].
  pose proof (sim_items its _ _ (sim_start zs HM)) as S1.
  destruct (populate_items X M load_m its (mk_lst x0 [] sc0 zs)) as [s|e] eqn:E1, (populate_items X M load_m its (mk_lst (new_comp X M c) [] sc0 zs)) as [t|e'] eqn:E2; cbn [both] in S1; try contradiction; [|exact S1].
  cbn [bind]. destruct S1 as [C EN ES EZ].
  assert (P : psim (l_count s) false s t) by (split; [exists (l_count s); split; [exact C|now split]|auto]).
  pose proof (psim_posts (l_count s) (converters c) (fun a I => proj1 (converters_In a c) I) false s t P) as P1.
  destruct (post_convs X M (converters c) s) as [s1|e], (post_convs X M (converters c) t) as [t1|e']; cbn [both] in P1; try contradiction; [|exact P1]. cbn [bind both fst snd].
  destruct P1 as ((n' & C1 & N1 & N2) & _ & _ & EZ1). split; [|exact EZ1]. destruct C1 as [A1 A2 A3 A4 A5 A6 A7 A8 A9]. constructor; fold c.
  - apply A1.
  - exact A2.
  - exact A3.
  - intros f I. destruct (single_of X c f I) as (a & J & SA & [V1 V2 (convs & r & s0 & V3 & _)]). pose proof (sep_fields c a (proj1 (converters_In a c) J)) as Q. rewrite V3 in Q.
    destruct Q as (Q1 & _ & Q3). rewrite V1 in *. specialize (A5 _ Q1). rewrite (N1 _ (or_introl Q3)) in A5.
    pose proof (items_count a (g_name f) its J SA V2 (mk_lst x0 [] sc0 zs) s eq_refl E1) as CN. rewrite V1 in CN. cbn [l_count] in CN. rewrite CN in A5. change (cnt (g_attr f) []) with O in A5. cbn [Nat.add] in A5.
    destruct (lines (g_name f) its); cbn [length] in A5; [now apply A5|now apply A5].
  - intros k NK. apply A6. intro I. apply MK_multi in I as (f & I & ->). now apply (NK f I).
  - intros f I. apply A4, MA_multi. eauto.
  - intros f I k. destruct (A7 k) as [H1 H2]; [apply MK_multi; eauto|]. destruct (dict_get k (c_params (l_comp t1))) as [[p|b]|]; [contradiction| |].
    + rewrite H2. cbn [notes]. split; [reflexivity|]. split; [discriminate|]. split; [discriminate|]. now intros [_ K].
    + rewrite H2. cbn [notes]. rewrite app_nil_r. split; [reflexivity|]. split; [exact H1|]. split; [now split|]. now intros [K _].
  - intros a m k I. apply A8, MM_member, in_map_iff. now exists (a, m, k).
  - intro IE. apply (proj2 (A5 _ (sep_span c))). apply N2. destruct (span_of c IE) as (a & k & J & K). apply existsb_exists. exists a. split; [exact J|]. unfold is_span. now rewrite K.
  - intros k NI.
    assert (NM : ~ In k (MA c)). { intro I. apply MA_multi in I as (f & I & ->). apply NI. unfold S_Read.attr_names. rewrite !in_app_iff. right. left. now apply in_map. }
    destruct (A5 k NM) as [H1 H2]. apply H1. rewrite N1; [now rewrite (items_nocount k its NI (mk_lst x0 [] sc0 zs) s eq_refl E1)|].
    destruct (sdec k (py "timespan")) as [->|NE]; [right|now left]. cbn [orb]. destruct (existsb is_span (converters c)) eqn:EX; [|reflexivity]. exfalso. apply NI.
    apply existsb_exists in EX as (a & J & SA). unfold is_span in SA. destruct (a_kind a) as [| j | | |] eqn:K; try discriminate. destruct (conv_span c a j J K) as (IE & _).
    unfold S_Read.attr_names. rewrite IE, !in_app_iff. right. right. now left.
  - intros k NI. apply A9. intro I. now apply NI, MM_member.
Qed.
End Merge.
