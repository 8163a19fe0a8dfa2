(** * Proofs: assignment to slices, names, removal and queries *)
From Verif Require Import M_Base P_Base M_Line M_Tree M_Cont S_Cont P_Cont M_ContQ S_ContQ P_ContQ.
From Coq Require Import Lia ZifyBool ZifyNat ZifyN.
Open Scope Z_scope.

Lemma set_nth_length {A} (x : A) : forall l i, length (set_nth i x l) = length l.
Proof. induction l as [|y l IH]; intros [|i]; cbn; auto. Qed.
Lemma set_nth_same {A} (x : A) : forall l i, (i < length l)%nat -> nth_error (set_nth i x l) i = Some x.
Proof. induction l as [|y l IH]; intros [|i] H; cbn in *; try lia; [reflexivity|]. apply IH. lia. Qed.
Lemma set_nth_other {A} (x : A) : forall l i j, i <> j -> nth_error (set_nth i x l) j = nth_error l j.
Proof. induction l as [|y l IH]; intros [|i] [|j] H; cbn; try easy. apply IH. congruence. Qed.

Lemma steps_nodup up : forall ps, steps up ps -> NoDup ps.
Proof.
  induction ps as [|p ps IH]; intros H; [constructor|]. destruct H as [H1 H2]. constructor; [|now apply IH].
  intros HI. rewrite Forall_forall in H1. specialize (H1 p HI). cbn in H1. destruct up; lia.
Qed.
Lemma set_positions_spec {A} : forall (ps : list Z) (xs l : list A), NoDup ps -> Forall (fun k => 0 <= k < size l) ps -> length xs = length ps ->
  let l' := set_positions (map Z.to_nat ps) xs l in
  size l' = size l /\ items_at l' ps xs /\ forall k x, 0 <= k -> ~ In k ps -> at_pos l' k x <-> at_pos l k x.
Proof.
  unfold set_positions. induction ps as [|p ps IH]; intros xs l ND HR HL; cbn [map combine fold_left].
  - destruct xs; [|discriminate]. cbn. split; [easy|]. split; [constructor|easy].
  - destruct xs as [|x xs]; [discriminate|]. cbn [combine fold_left fst snd].
    inversion ND as [|? ? N1 N2]; subst. inversion HR as [|? ? R1 R2]; subst. injection HL as HL.
    assert (SZ : size (set_nth (Z.to_nat p) x l) = size l) by (unfold size; now rewrite set_nth_length).
    specialize (IH xs (set_nth (Z.to_nat p) x l) N2). rewrite SZ in IH. specialize (IH R2 HL). cbv zeta in IH.
    set (l' := fold_left _ _ _) in *. destruct IH as (I1 & I2 & I3). split; [easy|]. split.
    + constructor; [|exact I2]. apply I3; [lia|easy|]. split; [lia|]. apply set_nth_same. unfold size in R1. lia.
    + intros k y Hk HN. cbn [In] in HN. rewrite I3 by tauto. unfold at_pos. rewrite set_nth_other; [reflexivity|].
      intros E. apply HN. left. lia.
Qed.

Lemma check_outcome l : check_items l = outcome l.
Proof.
  unfold check_items, outcome. induction l as [|[it|n] l IH]; cbn; [reflexivity|exact IH|reflexivity].
Qed.

Section Ops.
Variable same : obj -> obj -> bool.

Lemma set_segment l a b xs c : stride c = 1 -> exists x y z, l = x ++ y ++ z /\
  size x = slice_start (size l) a 1 /\ size y = Z.max 0 (slice_stop (size l) b 1 - slice_start (size l) a 1) /\
  step same l (OpSetSlice a b c (ItGen (xs, None))) = (x ++ xs ++ z, outcome (x ++ xs ++ z)).
Proof.
  intros HC. assert (HN : 0 <= size l) by (unfold size; lia).
  destruct (slice_parts_spec (size l) a b c HN) as (cnt & HP & H0 & HQ & HD); [lia|]. rewrite HC in *.
  set (st := slice_start (size l) a 1) in *. set (sp := slice_stop (size l) b 1) in *.
  assert (HST : 0 <= st <= size l) by (unfold st, slice_start, between; cbn; destruct a; lia).
  assert (HSP : 0 <= sp <= size l) by (unfold sp, slice_stop, between; cbn; destruct b; lia).
  assert (HCN : cnt = Z.max 0 (sp - st)).
  { specialize (HD ltac:(lia)). pose proof (HD cnt H0). destruct (Z.eq_dec cnt 0) as [->|]; [lia|].
    pose proof (HD (cnt - 1) ltac:(lia)). lia. }
  exists (firstn (Z.to_nat st) l), (firstn (Z.to_nat cnt) (skipn (Z.to_nat st) l)), (skipn (Z.to_nat st + Z.to_nat cnt) l).
  assert (SK : forall (l : list obj) i j, skipn j (skipn i l) = skipn (i + j) l).
  { clear. induction l as [|y l IH]; intros i j; [now rewrite !skipn_nil|]. destruct i; [reflexivity|]. apply IH. }
  split; [rewrite <- SK, !firstn_skipn; reflexivity|]. split; [|split].
  - clearbody st sp. clear - HST. unfold size in *. rewrite firstn_length. lia.
  - clearbody st sp. clear - HST HSP HCN. unfold size in *. rewrite firstn_length, skipn_length. lia.
  - cbn [step]. unfold set_slice. change (zlen l) with (size l). rewrite HP. change (1 =? 1) with true. cbv iota. cbn [validated]. now rewrite check_outcome.
Qed.
Lemma set_strided l a b xs c : stride c <> 0 -> stride c <> 1 -> exists ps,
  lists (0 <? stride c) (selected (size l) a b (stride c)) ps /\
  (size xs <> size ps -> step same l (OpSetSlice a b c (ItGen (xs, None))) = (l, Err ValueError)) /\
  (size xs = size ps -> exists l', step same l (OpSetSlice a b c (ItGen (xs, None))) = (l', outcome l') /\
     size l' = size l /\ items_at l' ps xs /\
     forall k x, 0 <= k < size l -> ~ selected (size l) a b (stride c) k -> at_pos l' k x <-> at_pos l k x).
Proof.
  intros HS H1. assert (HN : 0 <= size l) by (unfold size; lia).
  destruct (slice_parts_spec (size l) a b c HN HS) as (cnt & HP & H0 & HQ & _).
  eexists. split; [exact HQ|]. set (ps := zpositions _ _ cnt) in *.
  assert (HZ : size ps = cnt) by (unfold ps, zpositions, size; rewrite map_length, seq_length; lia).
  cbn [step]. unfold set_slice. change (zlen l) with (size l). rewrite HP. change (zlen xs) with (size xs). rewrite slice_nat. fold ps. rewrite HZ.
  destruct (Z.eqb_spec (stride c) 1); [easy|]. destruct (Z.eqb_spec (size xs) cnt) as [HE|HE]; split; intros H; try easy.
  rewrite <- HZ in HE. exists (set_positions (map Z.to_nat ps) xs l). split; [cbn [validated]; now rewrite check_outcome|].
  assert (HR : Forall (fun k => 0 <= k < size l) ps).
  { apply Forall_forall. intros k Hk. apply HQ in Hk. exact (selected_range _ _ _ _ _ HN HS Hk). }
  destruct (set_positions_spec ps xs l (steps_nodup _ _ (proj1 HQ)) HR) as (Z1 & Z2 & Z3); [unfold size in HE; lia|].
  split; [easy|]. split; [easy|]. intros k x Hk HNS. apply Z3; [lia|]. intros HI. apply HNS. now apply HQ.
Qed.
Lemma slice_refused nm l a b c v : stride c = 0 ->
  getitem nm l (SSlice a b c) = Err ValueError /\ step same l (OpDel (SSlice a b c)) = (l, Err ValueError) /\
  step same l (OpSetSlice a b c v) = (l, Err ValueError).
Proof.
  intros H. cbn [getitem step]. unfold set_slice. rewrite (slice_zero _ a b c H). easy.
Qed.

Lemma set_int' l i k x : means (size l) i k -> exists l', replaced l k x l' /\ step same l (OpSetItem i x) = (l', outcome l').
Proof.
  intros H. destruct (set_int same l i k x H) as (l' & H1 & H2). exists l'. split; [easy|]. now rewrite <- check_outcome.
Qed.
Lemma extend_broken l it xs e : exists l',
  step same l (OpExtend (ItGen (OItem it :: xs, Some e))) = (l', Err e) /\ l' = l ++ OItem it :: xs /\ l' <> l.
Proof.
  eexists. split; [reflexivity|]. split; [reflexivity|]. intros H. apply (f_equal (@length obj)) in H. rewrite app_length in H. cbn in H. lia.
Qed.
(** ** Names *)
Lemma obj_named_spec n o : is_item o = true -> exists m, obj_name o = Ok m /\ (str_eqb m n = true <-> obj_named n o).
Proof.
  destruct o as [[cl|m its]|k]; cbn; intros H; try discriminate H; eexists; (split; [reflexivity|]); apply str_eqb_eq.
Qed.
Definition nameb (n : list N) (o : obj) : bool := match obj_name o with Ok m => str_eqb m n | Err _ => false end.
Lemma nameb_spec n o : nameb n o = true <-> obj_named n o.
Proof. destruct o as [[cl|m its]|k]; cbn; try apply str_eqb_eq. easy. Qed.
Lemma with_name_ok n : forall l, forallb is_item l = true -> with_name n l = Ok (filter (nameb n) l) /\
  without_name n l = Ok (filter (fun o => negb (nameb n o)) l).
Proof.
  induction l as [|o l IH]; [easy|]. cbn [forallb]. rewrite andb_true_iff. intros [H1 H2]. destruct (IH H2) as [I1 I2].
  cbn [with_name without_name filter]. destruct (obj_named_spec n o H1) as (m & HM & _).
  assert (HB : nameb n o = str_eqb m n) by (unfold nameb; now rewrite HM). rewrite HB, HM. cbn [bind].
  rewrite I1, I2. cbn [bind]. now destruct (str_eqb m n).
Qed.
Lemma with_name_err n : forall l, forallb is_item l = false -> with_name n l = Err AttributeError /\ without_name n l = Err AttributeError.
Proof.
  induction l as [|o l IH]; [discriminate|]. cbn [forallb with_name without_name]. destruct o as [it|k]; [|easy]. cbn [is_item andb].
  intros H. destruct (IH H) as [-> ->]. destruct it; easy.
Qed.
Lemma filter_at {A} (f : A -> bool) (l : list A) : exists ps, lists true (fun k => exists x, at_pos l k x /\ f x = true) ps /\ items_at l ps (filter f l).
Proof. destruct (keep_spec (fun _ => f) (fun _ => filter f)) with (l := l) (i := 0%nat) as (ps & H1 & H2); try easy. now exists ps. Qed.
Lemma get_name nm l n : only_items l -> exists ps r,
  lists true (fun k => exists o, at_pos l k o /\ obj_named n o) ps /\ items_at l ps r /\ getitem nm l (SName n) = Ok (ATuple r).
Proof.
  intros HL. apply only_items_iff in HL. destruct (filter_at (nameb n) l) as (ps & H1 & H2). exists ps, (filter (nameb n) l).
  split; [|split; [easy|cbn [getitem]; now rewrite (proj1 (with_name_ok n l HL))]].
  revert H1. apply lists_ext. intros k. now setoid_rewrite nameb_spec.
Qed.
Lemma del_name l n : only_items l -> exists ps l',
  lists true (fun k => exists o, at_pos l k o /\ ~ obj_named n o) ps /\ items_at l ps l' /\ step same l (OpDel (SName n)) = (l', Ok tt).
Proof.
  intros HL. apply only_items_iff in HL. destruct (filter_at (fun o => negb (nameb n o)) l) as (ps & H1 & H2). exists ps, (filter (fun o => negb (nameb n o)) l).
  split; [|split; [easy|cbn [step]; now rewrite (proj2 (with_name_ok n l HL))]].
  revert H1. apply lists_ext. intros k. setoid_rewrite negb_true_iff. setoid_rewrite <- not_true_iff_false. now setoid_rewrite nameb_spec.
Qed.
Lemma name_refused nm l n : ~ only_items l ->
  getitem nm l (SName n) = Err AttributeError /\ step same l (OpDel (SName n)) = (l, Err AttributeError).
Proof.
  intros HL. rewrite only_items_iff, not_true_iff_false in HL. destruct (with_name_err n l HL) as [H1 H2].
  cbn [getitem step]. now rewrite H1, H2.
Qed.

(** ** Removal and queries by equality *)
Definition first_equal (x : obj) (l : list obj) (a : list obj) (y : obj) (b : list obj) : Prop :=
  l = a ++ y :: b /\ same y x = true /\ Forall (fun z => same z x = false) a.
Lemma remove_first_spec x : forall l, (exists a y b, first_equal x l a y b /\ remove_first same x l = Some (a ++ b)) \/
  (Forall (fun z => same z x = false) l /\ remove_first same x l = None).
Proof.
  induction l as [|z l IH]; [now right|]. cbn [remove_first]. destruct (same z x) eqn:E.
  - left. exists [], z, l. now split.
  - destruct IH as [(a & y & b & (-> & H1 & H2) & H3)|[H1 H2]].
    + left. exists (z :: a), y, b. rewrite H3. cbn. split; [|easy]. split; [easy|]. split; [easy|]. now constructor.
    + right. rewrite H2. split; [now constructor|easy].
Qed.
Lemma remove_spec l x :
  (exists a y b, l = a ++ y :: b /\ same y x = true /\ Forall (fun z => same z x = false) a /\ step same l (OpRemove x) = (a ++ b, Ok tt)) \/
  (Forall (fun z => same z x = false) l /\ step same l (OpRemove x) = (l, Err ValueError)).
Proof.
  cbn [step]. destruct (remove_first_spec x l) as [(a & y & b & (H0 & H1 & H2) & ->)|[H1 ->]]; [left|now right].
  now exists a, y, b.
Qed.
Lemma contains_spec l x : contains same x l = true <-> exists k y, at_pos l k y /\ same y x = true.
Proof.
  unfold contains. rewrite existsb_exists. split.
  - intros (y & H1 & H2). apply In_nth_error in H1. destruct H1 as [i Hi]. exists (Z.of_nat i), y. split; [|easy]. split; [lia|]. now rewrite Nat2Z.id.
  - intros (k & y & [_ H1] & H2). exists y. split; [eapply nth_error_In; exact H1|easy].
Qed.
Lemma count_filter x : forall l, count same x l = size (filter (fun y => same y x) l).
Proof. induction l as [|y l IH]; [reflexivity|]. cbn [count filter]. rewrite IH. destruct (same y x); unfold size; cbn [length]; lia. Qed.
Lemma count_spec l x : exists ps, lists true (fun k => exists y, at_pos l k y /\ same y x = true) ps /\ count same x l = size ps.
Proof.
  destruct (filter_at (fun y => same y x) l) as (ps & H1 & H2). exists ps. split; [easy|]. rewrite count_filter.
  unfold size. f_equal. symmetry. clear H1. induction H2; cbn; congruence.
Qed.
Lemma find_from_spec x st sp : forall l i, 
  (exists k y, at_pos l k y /\ same y x = true /\ st <= i + k < sp /\ find_from same x i st sp l = Ok (i + k) /\
     forall j z, at_pos l j z -> st <= i + j < sp -> j < k -> same z x = false) \/
  ((forall j z, at_pos l j z -> st <= i + j < sp -> same z x = false) /\ find_from same x i st sp l = Err ValueError).
Proof.
  induction l as [|y l IH]; intros i.
  - right. split; [|easy]. intros j z [_ H]. now destruct (Z.to_nat j).
  - cbn [find_from].
    assert (SH : forall k z, at_pos l k z -> at_pos (y :: l) (k + 1) z).
    { intros k z [H1 H2]. split; [lia|]. now replace (Z.to_nat (k + 1)) with (S (Z.to_nat k)) by lia. }
    assert (IV : forall k z, at_pos (y :: l) k z -> k = 0 /\ z = y \/ at_pos l (k - 1) z).
    { intros k z [H1 H2]. destruct (Z.eq_dec k 0) as [->|H]; [left; cbn in H2; split; congruence|right]. split; [lia|].
      now replace (Z.to_nat k) with (S (Z.to_nat (k - 1))) in H2 by lia. }
    destruct ((st <=? i) && (i <? sp) && same y x) eqn:E.
    + left. rewrite !andb_true_iff in E. exists 0, y. rewrite Z.add_0_r. split; [split; [lia|reflexivity]|]. split; [tauto|]. split; [lia|].
      split; [easy|]. intros j z [H _] _ H'. lia.
    + assert (E' : st <= i < sp -> same y x = false).
      { intros H. destruct (same y x); [|easy]. rewrite andb_true_r in E. lia. }
      destruct (IH (i + 1)) as [(k & z & H1 & H2 & H3 & H4 & H5)|[H1 H2]].
      * left. exists (k + 1), z. replace (i + (k + 1)) with (i + 1 + k) by lia. split; [now apply SH|]. split; [easy|]. split; [easy|]. split; [easy|].
        intros j w HJ HR HK. destruct (IV j w HJ) as [[-> ->]|HJ']; [apply E'; lia|]. apply (H5 (j - 1) w HJ'); lia.
      * right. split; [|easy]. intros j w HJ HR. destruct (IV j w HJ) as [[-> ->]|HJ']; [apply E'; lia|]. apply (H1 (j - 1) w HJ'). lia.
Qed.
Lemma floor0_spec n s : floor0 n s = Z.max 0 (from_end n s).
Proof. unfold floor0, from_end. destruct (Z.ltb_spec s 0); lia. Qed.
Lemma index_spec l x a b :
  (exists k y, at_pos l k y /\ same y x = true /\ low (size l) a <= k < high (size l) b /\ index same x a b l = Ok k /\
     forall j z, at_pos l j z -> low (size l) a <= j < k -> same z x = false) \/
  ((forall j z, at_pos l j z -> low (size l) a <= j < high (size l) b -> same z x = false) /\ index same x a b l = Err ValueError).
Proof.
  unfold index. change (zlen l) with (size l).
  replace (match a with Some s => floor0 (size l) s | None => 0 end) with (low (size l) a) by (destruct a; [cbn; now rewrite floor0_spec|easy]).
  replace (match b with Some s => floor0 (size l) s | None => size l end) with (high (size l) b) by (destruct b; [cbn; now rewrite floor0_spec|easy]).
  destruct (find_from_spec x (low (size l) a) (high (size l) b) l 0) as [(k & y & H1 & H2 & H3 & H4 & H5)|[H1 H2]].
  - left. exists k, y. split; [easy|]. split; [easy|]. split; [lia|]. split; [easy|]. intros j z HJ HR. apply (H5 j z HJ); lia.
  - right. split; [|easy]. intros j z HJ HR. apply (H1 j z HJ). lia.
Qed.
End Ops.
