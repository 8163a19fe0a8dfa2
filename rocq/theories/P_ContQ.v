(** * Proofs: positions meant by subscripts and slices *)
From Verif Require Import M_Base P_Base M_Line M_Tree M_Cont S_Cont P_Cont M_ContQ S_ContQ.
From Coq Require Import Lia ZifyBool ZifyNat ZifyN.
Open Scope Z_scope.

Lemma size_zlen {A} (l : list A) : zlen l = size l.
Proof. reflexivity. Qed.
Lemma size_app {A} (a b : list A) : size (a ++ b) = size a + size b.
Proof. unfold size. rewrite app_length. lia. Qed.
Lemma at_pos_range {A} (l : list A) k x : at_pos l k x -> 0 <= k < size l.
Proof. intros [H1 H2]. assert (Z.to_nat k < length l)%nat by (apply nth_error_Some; congruence). unfold size. lia. Qed.
Lemma at_pos_ex {A} (l : list A) k : 0 <= k < size l -> exists x, at_pos l k x.
Proof.
  unfold size. intros H. destruct (nth_error l (Z.to_nat k)) as [x|] eqn:E; [exists x; now split|].
  apply nth_error_None in E. lia.
Qed.
Lemma at_pos_det {A} (l : list A) k x y : at_pos l k x -> at_pos l k y -> x = y.
Proof. intros [_ H] [_ H']. congruence. Qed.
Lemma at_pos_split {A} (l : list A) k x : at_pos l k x <-> exists a b, l = a ++ x :: b /\ size a = k.
Proof.
  unfold at_pos, size. split.
  - intros [H1 H2]. apply nth_error_split in H2. destruct H2 as (a & b & -> & H). exists a, b. split; [easy|lia].
  - intros (a & b & -> & <-). split; [lia|]. rewrite Nat2Z.id. rewrite nth_error_app2 by lia.
    now rewrite Nat.sub_diag.
Qed.

(** ** Int subscripts *)
Lemma position_ok n i k : means n i k -> position n i = Ok (Z.to_nat k).
Proof.
  unfold means, position. intros [H1 H2]. destruct (Z.ltb_spec i 0).
  - assert (i + n = k) as -> by lia. destruct (Z.leb_spec 0 k), (Z.ltb_spec k n); try lia. reflexivity.
  - assert (i = k) as -> by lia. destruct (Z.leb_spec 0 k), (Z.ltb_spec k n); try lia. reflexivity.
Qed.
Lemma position_inv n i p : position n i = Ok p -> means n i (Z.of_nat p).
Proof.
  unfold means, position. destruct (Z.ltb_spec i 0).
  - destruct (Z.leb_spec 0 (i + n)), (Z.ltb_spec (i + n) n); cbn [andb]; intros H'; try discriminate H'. injection H' as <-. lia.
  - destruct (Z.leb_spec 0 i), (Z.ltb_spec i n); cbn [andb]; intros H'; try discriminate H'. injection H' as <-. lia.
Qed.
Lemma position_err n i : ~ (exists k, means n i k) -> position n i = Err IndexError.
Proof.
  intros H. destruct (position n i) as [p|e] eqn:E; [exfalso; apply H; exists (Z.of_nat p); now apply position_inv|].
  unfold position in E. destruct (_ && _); congruence.
Qed.
Lemma means_det n i k k' : means n i k -> means n i k' -> k = k'.
Proof. unfold means. lia. Qed.
Lemma means_dec n i : (exists k, means n i k) \/ ~ (exists k, means n i k).
Proof.
  destruct (position n i) as [p|e] eqn:E; [left; exists (Z.of_nat p); now apply position_inv|].
  right. intros [k H]. apply position_ok in H. congruence.
Qed.

Lemma set_nth_app {A} (x y : A) b : forall a, set_nth (length a) x (a ++ y :: b) = a ++ x :: b.
Proof. induction a as [|z a IH]; cbn; [reflexivity|]. now rewrite IH. Qed.
Lemma del_none {A} ps : forall (l : list A) i, (forall p, In p ps -> (p < i)%nat) -> del_positions i ps l = l.
Proof.
  induction l as [|x l IH]; intros i H; [reflexivity|]. cbn [del_positions].
  destruct (existsb (Nat.eqb i) ps) eqn:E.
  - apply existsb_exists in E. destruct E as (p & H1 & H2). apply Nat.eqb_eq in H2. specialize (H p H1). lia.
  - rewrite IH; [easy|]. intros p Hp. specialize (H p Hp). lia.
Qed.
Lemma del_app {A} (y : A) b : forall a i, del_positions i [(i + length a)%nat] (a ++ y :: b) = a ++ b.
Proof.
  induction a as [|z a IH]; intros i; cbn [app length del_positions existsb].
  - rewrite Nat.add_0_r, Nat.eqb_refl. cbn [orb]. apply del_none. intros p [<-|[]]. lia.
  - destruct (Nat.eqb_spec i (i + S (length a))); [lia|]. cbn [orb]. f_equal.
    specialize (IH (S i)). now replace (i + S (length a))%nat with (S i + length a)%nat by lia.
Qed.

Section Ops.
Variable same : obj -> obj -> bool.

Lemma get_int nm l i k : means (size l) i k -> exists x, at_pos l k x /\ getitem nm l (SInt i) = Ok (AObj x) /\ pop_value l i = Ok x.
Proof.
  intros H. destruct (at_pos_ex l k (proj1 H)) as [x HX]. exists x. split; [easy|].
  unfold getitem, pop_value. rewrite size_zlen, (position_ok _ _ _ H). cbn [bind].
  destruct HX as [_ ->]. easy.
Qed.
Lemma set_int l i k x : means (size l) i k -> exists l', replaced l k x l' /\
  step same l (OpSetItem i x) = (l', if forallb is_item l' then Ok tt else Err TypeError).
Proof.
  intros H. destruct (at_pos_ex l k (proj1 H)) as [y HY]. apply at_pos_split in HY. destruct HY as (a & b & EL & HK).
  exists (a ++ x :: b). split; [now exists a, y, b|].
  cbn [step]. rewrite size_zlen, (position_ok _ _ _ H). unfold size in HK.
  assert (Z.to_nat k = length a) as -> by lia. rewrite EL, set_nth_app. reflexivity.
Qed.
Lemma del_int l i k : means (size l) i k -> exists y l', removed l k y l' /\
  step same l (OpDel (SInt i)) = (l', Ok tt) /\ step same l (OpPop (Some i)) = (l', Ok tt) /\ pop_value l i = Ok y.
Proof.
  intros H. destruct (get_int [] l i k H) as (y & HY & _ & HP). assert (HY' := HY). apply at_pos_split in HY'. destruct HY' as (a & b & EL & HK).
  exists y, (a ++ b). split; [now exists a, b|].
  cbn [step]. rewrite size_zlen, (position_ok _ _ _ H). unfold size in HK.
  assert (Z.to_nat k = 0 + length a)%nat as -> by lia. rewrite EL at 1 2. rewrite del_app. now rewrite HP.
Qed.
Lemma no_int nm l i x : ~ (exists k, means (size l) i k) ->
  getitem nm l (SInt i) = Err IndexError /\ pop_value l i = Err IndexError /\
  step same l (OpSetItem i x) = (l, Err IndexError) /\ step same l (OpDel (SInt i)) = (l, Err IndexError) /\
  step same l (OpPop (Some i)) = (l, Err IndexError).
Proof.
  intros H. apply position_err in H. unfold getitem, pop_value. cbn [step]. rewrite size_zlen, H. easy.
Qed.

Lemma insert_spec l i it : exists a b, l = a ++ b /\ size a = between 0 (size l) (from_end (size l) i) /\
  step same l (OpInsert (Some i) (OItem it)) = (a ++ OItem it :: b, Ok tt).
Proof.
  cbn [step]. change (check_items [OItem it]) with (@Ok unit tt). cbv iota. unfold insert_at. change (zlen l) with (size l).
  set (j := if i <? 0 then Z.max 0 (i + size l) else Z.min i (size l)).
  exists (firstn (Z.to_nat j) l), (skipn (Z.to_nat j) l). split; [now rewrite firstn_skipn|]. split; [|reflexivity].
  unfold size. rewrite firstn_length. unfold between, from_end, j, size. destruct (Z.ltb_spec i 0); lia.
Qed.
Lemma ends_spec l it xs : only_items xs -> only_items l ->
  step same l (OpAppend (OItem it)) = (l ++ [OItem it], Ok tt) /\
  step same l (OpExtend (ItGen (xs, None))) = (l ++ xs, Ok tt) /\
  step same l OpClear = ([], Ok tt).
Proof.
  intros HX HL. split; [reflexivity|]. split; [|reflexivity]. cbn [step validated].
  rewrite (proj2 (check_items_ok (l ++ xs))); [reflexivity|]. now apply only_items_app.
Qed.
Lemma rev_at {A} (l : list A) k x : at_pos (rev l) k x <-> 0 <= k /\ at_pos l (size l - 1 - k) x.
Proof.
  rewrite at_pos_split. split.
  - intros (a & b & H & <-). split; [unfold size; lia|]. apply at_pos_split. exists (rev b), (rev a).
    rewrite <- (rev_involutive l), H, rev_app_distr. cbn [rev]. rewrite <- app_assoc. split; [reflexivity|].
    unfold size. rewrite !app_length, !rev_length. cbn [length]. lia.
  - intros [H0 H]. apply at_pos_split in H. destruct H as (a & b & -> & H). exists (rev b), (rev a).
    rewrite rev_app_distr. cbn [rev]. rewrite <- app_assoc. split; [reflexivity|]. revert H. rewrite size_app.
    unfold size. rewrite rev_length. cbn [length]. lia.
Qed.

(** ** Slices *)
Definition zpositions (start s cnt : Z) : list Z := map (fun i => start + Z.of_nat i * s) (seq 0 (Z.to_nat cnt)).
Lemma slice_nat start s cnt : slice_positions start s cnt = map Z.to_nat (zpositions start s cnt).
Proof. unfold slice_positions, zpositions. now rewrite map_map. Qed.
Lemma in_zpositions start s cnt k : In k (zpositions start s cnt) <-> exists j, 0 <= j < cnt /\ k = start + j * s.
Proof.
  unfold zpositions. rewrite in_map_iff. split.
  - intros (i & <- & H). apply in_seq in H. exists (Z.of_nat i). split; [lia|easy].
  - intros (j & H & ->). exists (Z.to_nat j). rewrite Z2Nat.id by lia. split; [easy|]. apply in_seq. lia.
Qed.
Lemma steps_zpositions start s cnt : s <> 0 -> steps (0 <? s) (zpositions start s cnt).
Proof.
  intros HS. unfold zpositions. generalize 0%nat as o. generalize (Z.to_nat cnt) as m.
  induction m as [|m IH]; intros o; cbn; [easy|]. split; [|apply IH].
  apply Forall_forall. intros q H. apply in_map_iff in H. destruct H as (i & <- & H). apply in_seq in H.
  destruct (Z.ltb_spec 0 s); nia.
Qed.
Lemma clamp_spec n s x : 0 <= n -> s <> 0 -> clamp n s x = if 0 <? s then between 0 n (from_end n x) else between (-1) (n - 1) (from_end n x).
Proof.
  intros H HS. unfold clamp, between, from_end.
  destruct (Z.ltb_spec x 0), (Z.ltb_spec s 0), (Z.ltb_spec 0 s); cbv zeta; try lia;
    try (destruct (Z.ltb_spec (x + n) 0); lia); destruct (Z.leb_spec n x); lia.
Qed.
Lemma slice_parts_spec n a b c : 0 <= n -> stride c <> 0 -> exists cnt,
  slice_parts n a b c = Ok (slice_start n a (stride c), stride c, cnt) /\ 0 <= cnt /\
  lists (0 <? stride c) (selected n a b (stride c)) (zpositions (slice_start n a (stride c)) (stride c) cnt) /\
  (0 < stride c -> forall k, 0 <= k -> (slice_start n a (stride c) + k * stride c < slice_stop n b (stride c) <-> k < cnt)).
Proof.
  intros HN HS. unfold slice_parts. fold (stride c). set (s := stride c) in *.
  destruct (Z.eqb_spec s 0) as [|_]; [easy|].
  replace (match a with Some x => clamp n s x | None => if s <? 0 then n - 1 else 0 end) with (slice_start n a s).
  2:{ unfold slice_start. destruct a as [x|]; [now rewrite clamp_spec|]. destruct (Z.ltb_spec s 0), (Z.ltb_spec 0 s); lia. }
  replace (match b with Some x => clamp n s x | None => if s <? 0 then -1 else n end) with (slice_stop n b s).
  2:{ unfold slice_stop. destruct b as [x|]; [now rewrite clamp_spec|]. destruct (Z.ltb_spec s 0), (Z.ltb_spec 0 s); lia. }
  set (st := slice_start n a s). set (sp := slice_stop n b s).
  eexists. split; [reflexivity|].
  match goal with |- 0 <= ?q /\ _ => set (cnt := q) end.
  assert (HC : 0 <= cnt /\ forall j, 0 <= j -> (j < cnt <-> if 0 <? s then st + j * s < sp else sp < st + j * s)).
  { subst cnt. destruct (Z.ltb_spec s 0), (Z.ltb_spec 0 s); try lia.
    - destruct (Z.ltb_spec sp st).
      + split; [assert (0 <= (st - sp - 1) / (- s)) by (apply Z.div_pos; lia); lia|]. intros j Hj.
        split; intros H2.
        * assert (- s * ((st - sp - 1) / - s) <= st - sp - 1) by (apply Z.mul_div_le; lia). nia.
        * assert (j <= (st - sp - 1) / - s) by (apply Z.div_le_lower_bound; nia). lia.
      + split; [lia|]. intros j Hj. nia.
    - destruct (Z.ltb_spec st sp).
      + split; [assert (0 <= (sp - st - 1) / s) by (apply Z.div_pos; lia); lia|]. intros j Hj.
        split; intros H2.
        * assert (s * ((sp - st - 1) / s) <= sp - st - 1) by (apply Z.mul_div_le; lia). nia.
        * assert (j <= (sp - st - 1) / s) by (apply Z.div_le_lower_bound; nia). lia.
      + split; [lia|]. intros j Hj. nia. }
  destruct HC as [HC0 HC]. clearbody cnt. split; [exact HC0|]. split.
  - split; [now apply steps_zpositions|]. intros k. rewrite in_zpositions. unfold selected. fold st sp. split.
    + intros (j & Hj & ->). exists j. split; [lia|]. split; [easy|]. now apply HC.
    + intros (j & Hj & -> & H). exists j. split; [|easy]. split; [easy|]. now apply HC.
  - intros HP k Hk. specialize (HC k Hk). destruct (Z.ltb_spec 0 s); [|lia]. symmetry. exact HC.
Qed.
Lemma slice_zero n a b c : stride c = 0 -> slice_parts n a b c = Err ValueError.
Proof. unfold slice_parts. fold (stride c). now intros ->. Qed.
Lemma selected_range n a b s k : 0 <= n -> s <> 0 -> selected n a b s k -> 0 <= k < n.
Proof.
  intros HN HS (j & Hj & -> & H). revert H. unfold slice_start, slice_stop, between.
  destruct (Z.ltb_spec 0 s) as [H'|H'].
  - assert (0 <= j * s) by nia. destruct a, b; lia.
  - assert (j * s <= 0) by nia. destruct a, b; lia.
Qed.

Lemma pick_at {A} (l : list A) : forall ps, Forall (fun k => 0 <= k < size l) ps -> items_at l ps (pick l (map Z.to_nat ps)).
Proof.
  induction ps as [|p ps IH]; intros H; [constructor|]. inversion H as [|? ? H1 H2]; subst.
  destruct (at_pos_ex l p H1) as [x HX]. cbn [map pick]. rewrite (proj2 HX). constructor; [easy|]. now apply IH.
Qed.
Lemma items_at_in {A} (l : list A) ps r : items_at l ps r -> incl r l.
Proof.
  intros H x Hx. induction H as [|p y ps r H H' IH]; [easy|]. destruct Hx as [<-|Hx]; [|now apply IH].
  eapply nth_error_In. exact (proj2 H).
Qed.
Lemma get_slice nm l a b c : stride c <> 0 -> nm <> [] -> only_items l -> exists ps r,
  lists (0 <? stride c) (selected (size l) a b (stride c)) ps /\ items_at l ps r /\
  getitem nm l (SSlice a b c) = Ok (ACont (upper nm) r).
Proof.
  intros HS HM HL. assert (HN : 0 <= size l) by (unfold size; lia).
  destruct (slice_parts_spec (size l) a b c HN HS) as (cnt & HP & _ & HQ & _).
  eexists _, _. split; [exact HQ|]. split.
  { apply pick_at. apply Forall_forall. intros k Hk. apply HQ in Hk. now apply (selected_range _ _ _ _ _ HN HS Hk). }
  cbn [getitem]. rewrite size_zlen, HP. cbn [bind]. rewrite <- slice_nat. destruct nm as [|ch nm]; [easy|].
  rewrite (proj2 (check_items_ok _)); [reflexivity|]. rewrite slice_nat. eapply only_items_incl; [|exact HL].
  eapply items_at_in. apply pick_at. apply Forall_forall. intros k Hk. apply HQ in Hk. now apply (selected_range _ _ _ _ _ HN HS Hk).
Qed.

(** what is left when positions are taken out *)
Lemma steps_map (o : nat) : forall ps, steps true ps -> steps true (map (fun z => Z.of_nat o + z) ps).
Proof.
  induction ps as [|p ps IH]; [easy|]. intros [H1 H2]. split; [|now apply IH].
  fold (map (fun z => Z.of_nat o + z) ps). apply Forall_forall. intros q Hq. apply in_map_iff in Hq. destruct Hq as (z & <- & Hz).
  rewrite Forall_forall in H1. specialize (H1 z Hz). cbn in H1. lia.
Qed.
(** Keeping the items whose position passes a test. *)
Lemma keep_spec {A} (f : nat -> A -> bool) (g : nat -> list A -> list A) :
  (forall i, g i [] = []) -> (forall i x l, g i (x :: l) = if f i x then x :: g (S i) l else g (S i) l) ->
  forall l i, exists ps, lists true (fun k => exists x, at_pos l k x /\ f (i + Z.to_nat k)%nat x = true) ps /\ items_at l ps (g i l).
Proof.
  intros G0 G1. induction l as [|x l IH]; intros i.
  - exists []. rewrite G0. split; [|constructor]. split; [easy|]. intros k. split; [easy|]. intros (x & [_ H] & _). now destruct (Z.to_nat k).
  - destruct (IH (S i)) as (ps & [HS HP] & HA). rewrite G1.
    assert (SH : forall k y, at_pos l k y -> at_pos (x :: l) (k + 1) y).
    { intros k y [H1 H2]. split; [lia|]. now replace (Z.to_nat (k + 1)) with (S (Z.to_nat k)) by lia. }
    assert (IV : forall k y, at_pos (x :: l) k y -> k = 0 /\ y = x \/ at_pos l (k - 1) y).
    { intros k y [H1 H2]. destruct (Z.eq_dec k 0) as [->|H]; [left; cbn in H2; split; congruence|right]. split; [lia|].
      now replace (Z.to_nat k) with (S (Z.to_nat (k - 1))) in H2 by lia. }
    assert (HA' : items_at (x :: l) (map (fun z => Z.of_nat 1 + z) ps) (g (S i) l)).
    { clear HS HP. induction HA as [|p y ps r H H' IH']; [constructor|]. cbn [map]. constructor; [|exact IH'].
      rewrite Z.add_comm. apply SH, H. }
    assert (HP' : forall k, In k (map (fun z => Z.of_nat 1 + z) ps) <-> 0 < k /\ exists y, at_pos (x :: l) k y /\ f (i + Z.to_nat k)%nat y = true).
    { intros k. rewrite in_map_iff. split.
      - intros (z & <- & Hz). apply HP in Hz. destruct Hz as (y & H1 & H2). pose proof (proj1 H1). split; [lia|]. exists y.
        rewrite Z.add_comm. split; [now apply SH|]. replace (i + Z.to_nat (z + Z.of_nat 1))%nat with (S i + Z.to_nat z)%nat by lia. exact H2.
      - intros (H0 & y & H1 & H2). destruct (IV _ _ H1) as [[-> _]|H3]; [lia|]. exists (k - 1). split; [lia|]. apply HP. exists y.
        split; [easy|]. replace (S i + Z.to_nat (k - 1))%nat with (i + Z.to_nat k)%nat by lia. exact H2. }
    assert (A0 : at_pos (x :: l) 0 x) by (split; [lia|reflexivity]).
    destruct (f i x) eqn:EF.
    + exists (0 :: map (fun z => Z.of_nat 1 + z) ps). split; [|constructor; [exact A0|exact HA']]. split.
      * split; [|now apply steps_map]. apply Forall_forall. intros q Hq. apply HP' in Hq. lia.
      * intros k. cbn [In]. rewrite HP'. split.
        -- intros [<-|(_ & H)]; [|exact H]. exists x. split; [easy|]. cbn. now rewrite Nat.add_0_r.
        -- intros (y & H1 & H2). destruct (IV _ _ H1) as [[-> _]|H3]; [now left|right]. split; [pose proof (proj1 H3); lia|]. now exists y.
    + exists (map (fun z => Z.of_nat 1 + z) ps). split; [|exact HA']. split; [now apply steps_map|].
      intros k. rewrite HP'. split; [intros (_ & H); exact H|]. intros (y & H1 & H2). split; [|now exists y].
      destruct (IV _ _ H1) as [[-> ->]|H3]; [|pose proof (proj1 H3); lia]. cbn in H2. rewrite Nat.add_0_r in H2. congruence.
Qed.
Lemma lists_ext up (Q R : Z -> Prop) ps : (forall k, Q k <-> R k) -> lists up Q ps -> lists up R ps.
Proof. intros H [H1 H2]. split; [easy|]. intros k. now rewrite H2. Qed.

Lemma del_slice l a b c : stride c <> 0 -> exists ps l',
  lists true (fun k => 0 <= k < size l /\ ~ selected (size l) a b (stride c) k) ps /\ items_at l ps l' /\
  step same l (OpDel (SSlice a b c)) = (l', Ok tt).
Proof.
  intros HS. assert (HN : 0 <= size l) by (unfold size; lia).
  destruct (slice_parts_spec (size l) a b c HN HS) as (cnt & HP & _ & HQ & _).
  set (qs := slice_positions (slice_start (size l) a (stride c)) (stride c) cnt).
  destruct (keep_spec (fun i (_ : obj) => negb (existsb (Nat.eqb i) qs)) (fun i l => del_positions i qs l)) with (l := l) (i := 0%nat) as (ps & H1 & H2).
  { reflexivity. } { intros i x l'. cbn [del_positions]. now destruct (existsb (Nat.eqb i) qs). }
  exists ps, (del_positions 0 qs l). split; [|split; [exact H2|]].
  - revert H1. apply lists_ext. intros k. cbn [Nat.add].
    assert (HE : 0 <= k -> existsb (Nat.eqb (Z.to_nat k)) qs = true <-> selected (size l) a b (stride c) k).
    { intros Hk. rewrite existsb_exists. unfold qs. rewrite slice_nat. split.
      - intros (p & H & E). apply Nat.eqb_eq in E. apply in_map_iff in H. destruct H as (z & <- & Hz). apply HQ in Hz.
        pose proof (selected_range _ _ _ _ _ HN HS Hz). assert (k = z) as -> by lia. exact Hz.
      - intros H. exists (Z.to_nat k). split; [|apply Nat.eqb_refl]. apply in_map. now apply HQ. }
    split.
    + intros (x & HX & HF). pose proof (at_pos_range _ _ _ HX) as HR. split; [easy|]. rewrite <- HE by lia.
      destruct (existsb _ qs); [discriminate HF|discriminate].
    + intros [HR HF]. destruct (at_pos_ex l k HR) as [x HX]. exists x. split; [easy|]. rewrite <- HE in HF by lia.
      destruct (existsb _ qs); [now destruct HF|easy].
  - cbn [step]. rewrite size_zlen, HP. reflexivity.
Qed.

End Ops.
Lemma get_slice_nameless l a b c : stride c <> 0 -> getitem [] l (SSlice a b c) = Err ValueError.
Proof.
  intros HS. destruct (slice_parts_spec (size l) a b c ltac:(unfold size; lia) HS) as (cnt & HP & _).
  cbn [getitem]. rewrite size_zlen, HP. reflexivity.
Qed.
