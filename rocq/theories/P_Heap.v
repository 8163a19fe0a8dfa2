(** * Proofs about heapq: the items come out sorted *)
From Verif Require Import M_Base P_Base M_Heap.
From Coq Require Import Lia Permutation Sorted.
Open Scope nat_scope.

Lemma upd_length {A} (l : list A) i x : length (upd l i x) = length l.
Proof. revert i. induction l as [|a l IH]; intros [|i]; cbn; auto. Qed.
Lemma upd_same {A} (l : list A) i x : i < length l -> nth_error (upd l i x) i = Some x.
Proof. revert i. induction l as [|a l IH]; intros [|i] H; cbn in *; try lia; auto. apply IH. lia. Qed.
Lemma upd_other {A} (l : list A) i j x : i <> j -> nth_error (upd l i x) j = nth_error l j.
Proof. revert i j. induction l as [|a l IH]; intros [|i] [|j] H; cbn; try easy. apply IH. lia. Qed.
Lemma upd_upd {A} (l : list A) i x y : upd (upd l i x) i y = upd l i y.
Proof. revert i. induction l as [|a l IH]; intros [|i]; cbn; auto. now rewrite IH. Qed.
Lemma upd_comm {A} (l : list A) i j x y : i <> j -> upd (upd l i x) j y = upd (upd l j y) i x.
Proof. revert i j. induction l as [|a l IH]; intros [|i] [|j] H; cbn; try easy. now rewrite IH by lia. Qed.
Lemma upd_id {A} (l : list A) i x : nth_error l i = Some x -> upd l i x = l.
Proof. revert i. induction l as [|a l IH]; intros [|i] H; cbn in *; try easy; [congruence|]. now rewrite IH. Qed.
Lemma upd_perm {A} (l : list A) i x b : nth_error l i = Some b -> Permutation (b :: upd l i x) (x :: l).
Proof.
  revert i. induction l as [|a l IH]; intros [|i] H; cbn in *; try easy.
  - injection H as ->. apply perm_swap.
  - rewrite perm_swap, (IH i H). apply perm_swap.
Qed.
Lemma get_ok {A} (l : list A) i : i < length l -> exists a, get l i = Ok a /\ nth_error l i = Some a.
Proof.
  intros H. unfold get. destruct (nth_error l i) as [a|] eqn:E; [now exists a|]. apply nth_error_None in E. lia.
Qed.

Section S.
Context {A : Type}.
Variable lt : A -> A -> res bool.
Variable le : A -> A -> Prop.
Variable D : A -> Prop.
Hypothesis le_trans : forall x y z, D x -> D y -> D z -> le x y -> le y z -> le x z.
Hypothesis lt_le : forall x y, D x -> D y -> exists b, lt x y = Ok b /\ if b then le x y else le y x.

Definition child (i j : nat) : Prop := j = 2 * i + 1 \/ j = 2 * i + 2.
Definition edge (l : list A) (i j : nat) : Prop :=
  forall a b, nth_error l i = Some a -> nth_error l j = Some b -> le a b.
Definition heap_from (s : nat) (l : list A) : Prop := forall i j, s <= i -> child i j -> edge l i j.
Inductive desc (s : nat) : nat -> Prop :=
| desc_self : desc s s
| desc_child i j : desc s i -> child i j -> desc s j.
Lemma desc_ge s i : desc s i -> s <= i.
Proof. induction 1; unfold child in *; lia. Qed.
Lemma desc_parent s i : desc s i -> s < i -> desc s ((i - 1) / 2) /\ child ((i - 1) / 2) i.
Proof.
  intros H L. destruct H as [|i j H C]; [lia|].
  assert (HP : (j - 1) / 2 = i).
  { destruct C as [->| ->].
    - replace (2 * i + 1 - 1) with (i * 2) by lia. now rewrite Nat.div_mul.
    - replace (2 * i + 2 - 1) with (1 + i * 2) by lia. rewrite Nat.div_add by lia. reflexivity. }
  now rewrite HP.
Qed.
Lemma child_parent i j : child i j -> (j - 1) / 2 = i.
Proof.
  intros [->| ->].
  - replace (2 * i + 1 - 1) with (i * 2) by lia. now rewrite Nat.div_mul.
  - replace (2 * i + 2 - 1) with (1 + i * 2) by lia. rewrite Nat.div_add by lia. reflexivity.
Qed.
Lemma child_fun i i' j : child i j -> child i' j -> i = i'.
Proof. intros H1 H2. apply child_parent in H1, H2. congruence. Qed.
Lemma Forall_nth l i a : Forall D l -> nth_error l i = Some a -> D a.
Proof. intros H E. apply nth_error_In in E. rewrite Forall_forall in H. auto. Qed.

(** Exchanging the items of two places. *)
Lemma exchange (l : list A) i j x p : i <> j -> nth_error l i = Some x -> nth_error l j = Some p ->
  Permutation (upd (upd l i p) j x) l.
Proof.
  intros H HI HJ. pose proof (upd_perm l i p x HI) as P1.
  assert (HJ' : nth_error (upd l i p) j = Some p) by (rewrite upd_other by easy; easy).
  pose proof (upd_perm (upd l i p) j x p HJ') as P2. apply (Permutation_cons_inv (a := p)). now rewrite P2.
Qed.

Definition down_inv (s pos : nat) (v : list A) : Prop :=
  (forall i j, s <= i -> child i j -> j <> pos -> edge v i j) /\
  (s < pos -> forall j, child pos j -> edge v ((pos - 1) / 2) j).
Lemma siftdown_ok fuel : forall h s pos x, pos < length h -> pos < fuel -> desc s pos ->
  Forall D (upd h pos x) -> down_inv s pos (upd h pos x) ->
  exists h', siftdown lt fuel h s pos x = Ok h' /\ Permutation h' (upd h pos x) /\ heap_from s h'.
Proof.
  induction fuel as [|f IH]; intros h s pos x HL HF HD FD [I1 I2]; [lia|]. cbn [siftdown].
  destruct (Nat.ltb_spec s pos) as [L|L].
  2: { exists (upd h pos x). split; [easy|]. split; [easy|]. intros i j Hi C.
       apply I1; [easy|easy|]. pose proof (desc_ge _ _ HD). unfold child in C. lia. }
  destruct (desc_parent _ _ HD L) as [DP CP]. set (q := (pos - 1) / 2) in *.
  assert (QP : q < pos) by (unfold child in CP; lia).
  destruct (get_ok h q) as (p & -> & GP); [lia|]. cbn [bind].
  set (v := upd h pos x) in *.
  assert (VP : nth_error v q = Some p) by (unfold v; rewrite upd_other by lia; easy).
  assert (VX : nth_error v pos = Some x) by (now apply upd_same).
  assert (DX : D x) by (now apply (Forall_nth v pos)). assert (DPp : D p) by (now apply (Forall_nth v q)).
  destruct (lt_le x p DX DPp) as (b & -> & HB). cbn [bind]. destruct b.
  - (* move up *)
    set (v' := upd (upd h pos p) q x).
    assert (EV : v' = upd (upd v pos p) q x) by (unfold v', v; now rewrite upd_upd).
    assert (PV : Permutation v' v) by (rewrite EV; apply exchange; [lia|easy|easy]).
    assert (LV : length v = length h) by apply upd_length.
    assert (Vpos : nth_error v' pos = Some p).
    { unfold v'. rewrite upd_other by lia. now apply upd_same. }
    assert (Vq : nth_error v' q = Some x) by (apply upd_same; rewrite upd_length; lia).
    assert (Vo : forall i, i <> pos -> i <> q -> nth_error v' i = nth_error v i).
    { intros i H1 H2. rewrite EV. now rewrite !upd_other by lia. }
    destruct (IH (upd h pos p) s q x) as (h' & H1 & H2 & H3).
    + rewrite upd_length. lia.
    + lia.
    + easy.
    + apply (Permutation_Forall (Permutation_sym PV)). easy.
    + fold v'. split.
      * intros i j Hi C Hj a b EA EB. destruct (Nat.eq_dec i pos) as [->|Nip].
        -- assert (a = p) by congruence. subst a. assert (Npos : j <> pos) by (unfold child in C; lia).
           rewrite Vo in EB by easy. now apply (I2 L j C).
        -- destruct (Nat.eq_dec i q) as [->|Niq].
           ++ assert (a = x) by congruence. subst a. destruct (Nat.eq_dec j pos) as [->|Njp].
              ** congruence.
              ** rewrite Vo in EB by easy. apply (le_trans x p b); [easy|easy|now apply (Forall_nth v j)|easy|].
                 now apply (I1 q j Hi C Njp).
           ++ destruct (Nat.eq_dec j pos) as [->|Njp].
              ** exfalso. apply Niq. now apply (child_fun _ _ pos).
              ** rewrite Vo in EA, EB by easy. now apply (I1 i j Hi C Njp).
      * intros Lq j Cj a b EA EB. destruct (desc_parent _ _ DP Lq) as [DQ CQ]. set (r := (q - 1) / 2) in *.
        assert (RQ : r < q) by (unfold child in CQ; lia).
        rewrite Vo in EA by lia.
        assert (LP : le a p) by (apply (I1 r q); [now apply desc_ge|easy|lia|easy|easy]).
        destruct (Nat.eq_dec j pos) as [->|Njp]; [congruence|].
        rewrite Vo in EB; [|easy|unfold child in Cj; lia].
        apply (le_trans a p b); [now apply (Forall_nth v r)|easy|now apply (Forall_nth v j)|easy|].
        now apply (I1 q j (desc_ge _ _ DP) Cj Njp).
    + exists h'. split; [easy|]. split; [now rewrite H2|easy].
  - (* in place *)
    exists v. split; [easy|]. split; [easy|]. intros i j Hi C. destruct (Nat.eq_dec j pos) as [->|Nj]; [|now apply I1].
    assert (i = q) by now apply (child_fun _ _ pos). subst i. intros a b EA EB. congruence.
Qed.

Definition up_inv (s pos : nat) (v : list A) : Prop :=
  (forall i j, s <= i -> child i j -> i <> pos -> j <> pos -> edge v i j) /\
  (s < pos -> forall j, child pos j -> edge v ((pos - 1) / 2) j).
Lemma siftup_loop_ok fuel : forall h s pos x, pos < length h -> length h < fuel + pos -> desc s pos ->
  Forall D (upd h pos x) -> up_inv s pos (upd h pos x) ->
  exists h' pos', siftup_loop lt fuel h pos = Ok (h', pos') /\ length h' = length h /\ pos' < length h /\ desc s pos' /\
    Permutation (upd h' pos' x) (upd h pos x) /\ down_inv s pos' (upd h' pos' x).
Proof.
  induction fuel as [|f IH]; intros h s pos x HL HF HD FD [I1 I2]; [lia|]. cbn [siftup_loop].
  destruct (Nat.ltb_spec (2 * pos + 1) (length h)) as [L|L].
  2: { exists h, pos. do 4 (split; [easy|]). split; [easy|]. split.
       - intros i j Hi C Hj a b EA EB. destruct (Nat.eq_dec i pos) as [->|Ni].
         + assert (HN : nth_error (upd h pos x) j = None) by (apply nth_error_None; rewrite upd_length; unfold child in C; lia). congruence.
         + now apply (I1 i j).
       - intros _ j C a b EA EB.
         assert (HN : nth_error (upd h pos x) j = None) by (apply nth_error_None; rewrite upd_length; unfold child in C; lia). congruence. }
  set (v := upd h pos x) in *.
  assert (LV : length v = length h) by apply upd_length.
  assert (VX : nth_error v pos = Some x) by (now apply upd_same).
  assert (HC : exists c, (if Nat.ltb (2 * pos + 1 + 1) (length h) then
      do y <- get h (2 * pos + 1); do z <- get h (2 * pos + 1 + 1);
      do b <- lt y z; Ok (if b then 2 * pos + 1 else 2 * pos + 1 + 1) else Ok (2 * pos + 1)) = Ok c /\
      child pos c /\ c < length h /\ forall j, child pos j -> j <> c -> edge v c j).
  { destruct (Nat.ltb_spec (2 * pos + 1 + 1) (length h)) as [R|R].
    - destruct (get_ok h (2 * pos + 1)) as (y & -> & GY); [lia|]. destruct (get_ok h (2 * pos + 1 + 1)) as (z & -> & GZ); [lia|]. cbn [bind].
      assert (VY : nth_error v (2 * pos + 1) = Some y) by (unfold v; rewrite upd_other by lia; easy).
      assert (VZ : nth_error v (2 * pos + 1 + 1) = Some z) by (unfold v; rewrite upd_other by lia; easy).
      destruct (lt_le y z) as (b & -> & HB); [now apply (Forall_nth v (2 * pos + 1))|now apply (Forall_nth v (2 * pos + 1 + 1))|]. cbn [bind].
      destruct b.
      + exists (2 * pos + 1). split; [easy|]. split; [unfold child; lia|]. split; [lia|].
        intros j C N a b EA EB. assert (j = 2 * pos + 1 + 1) by (unfold child in C; lia). subst j. congruence.
      + exists (2 * pos + 1 + 1). split; [easy|]. split; [unfold child; lia|]. split; [lia|].
        intros j C N a b EA EB. assert (j = 2 * pos + 1) by (unfold child in C; lia). subst j. congruence.
    - exists (2 * pos + 1). split; [easy|]. split; [unfold child; lia|]. split; [lia|].
      intros j C N a b EA EB. assert (HN : nth_error v j = None) by (apply nth_error_None; unfold child in C; lia). congruence. }
  destruct HC as (c & -> & CC & LC & HM). cbn [bind].
  assert (CP : pos < c) by (unfold child in CC; lia).
  destruct (get_ok h c) as (p & -> & GP); [easy|]. cbn [bind].
  assert (VC : nth_error v c = Some p) by (unfold v; rewrite upd_other by lia; easy).
  set (v' := upd (upd h pos p) c x).
  assert (EV : v' = upd (upd v pos p) c x) by (unfold v', v; now rewrite upd_upd).
  assert (PV : Permutation v' v) by (rewrite EV; apply exchange; [lia|easy|easy]).
  assert (Vpos : nth_error v' pos = Some p).
  { unfold v'. rewrite upd_other by lia. now apply upd_same. }
  assert (Vo : forall i, i <> pos -> i <> c -> nth_error v' i = nth_error v i).
  { intros i H1 H2. rewrite EV. now rewrite !upd_other by lia. }
  destruct (IH (upd h pos p) s c x) as (h' & pos' & H1 & H2 & H3 & H4 & H5 & H6).
  - now rewrite upd_length.
  - rewrite upd_length. lia.
  - now apply (desc_child s pos).
  - apply (Permutation_Forall (Permutation_sym PV)). easy.
  - fold v'. split.
    + intros i j Hi C Nic Njc a b EA EB. destruct (Nat.eq_dec i pos) as [->|Nip].
      * assert (a = p) by congruence. subst a. rewrite Vo in EB; [|unfold child in C; lia|easy]. now apply (HM j C Njc).
      * destruct (Nat.eq_dec j pos) as [->|Njp].
        -- assert (b = p) by congruence. subst b. rewrite Vo in EA by easy.
           assert (Lp : s < pos) by (unfold child in C; lia).
           assert (i = (pos - 1) / 2) by (symmetry; now apply child_parent). subst i. now apply (I2 Lp c CC).
        -- rewrite Vo in EA, EB by easy. now apply (I1 i j).
    + intros Lc j Cj a b EA EB. rewrite (child_parent _ _ CC) in EA. assert (a = p) by congruence. subst a.
      rewrite Vo in EB; [|unfold child in Cj; lia|unfold child in Cj; lia].
      apply (I1 c j); [pose proof (desc_ge _ _ HD); lia|easy|lia|unfold child in Cj; lia|easy|easy].
  - rewrite upd_length in *. exists h', pos'. do 4 (split; [easy|]). split; [now rewrite H5|easy].
Qed.

Lemma siftup_ok h s : s < length h -> Forall D h -> heap_from (S s) h ->
  exists h', siftup lt h s = Ok h' /\ Permutation h' h /\ heap_from s h'.
Proof.
  intros HL FD HH. unfold siftup. destruct (get_ok h s HL) as (x & -> & GX). cbn [bind].
  assert (EV : upd h s x = h) by now apply upd_id.
  destruct (siftup_loop_ok (S (length h)) h s s x) as (h' & pos' & -> & H2 & H3 & H4 & H5 & H6).
  - easy.
  - lia.
  - constructor.
  - now rewrite EV.
  - rewrite EV. split; [|lia]. intros i j Hi C Ni Nj. apply HH; [lia|easy].
  - cbn [bind]. destruct (siftdown_ok (S (length h)) (upd h' pos' x) s pos' x) as (h'' & Q1 & Q2 & Q3).
    + rewrite upd_length. lia.
    + lia.
    + easy.
    + rewrite upd_upd. apply (Permutation_Forall (Permutation_sym H5)). now rewrite EV.
    + now rewrite upd_upd.
    + exists h''. split; [easy|]. split; [|easy]. rewrite Q2, upd_upd, H5, EV. reflexivity.
Qed.
Lemma heapify_from_ok i : forall h, i <= length h -> Forall D h -> heap_from i h ->
  exists h', heapify_from lt i h = Ok h' /\ Permutation h' h /\ heap_from 0 h'.
Proof.
  induction i as [|i IH]; intros h HL FD HH; cbn [heapify_from]; [now exists h|].
  destruct (siftup_ok h i) as (h1 & -> & P1 & H1); [lia|easy|easy|]. cbn [bind].
  destruct (IH h1) as (h2 & -> & P2 & H2).
  - rewrite (Permutation_length P1). lia.
  - apply (Permutation_Forall (Permutation_sym P1)). easy.
  - easy.
  - exists h2. split; [easy|]. split; [now rewrite P2|easy].
Qed.
Lemma heapify_ok h : Forall D h -> exists h', heapify lt h = Ok h' /\ Permutation h' h /\ heap_from 0 h'.
Proof.
  intros FD. apply heapify_from_ok.
  - apply Nat.div_le_upper_bound; lia.
  - easy.
  - intros i j Hi C a b EA EB. assert (HN : nth_error h j = None).
    { apply nth_error_None. pose proof (Nat.div_mod (length h) 2 ltac:(lia)). pose proof (Nat.mod_upper_bound (length h) 2 ltac:(lia)).
      unfold child in C. lia. }
    congruence.
Qed.
(** The root is a least item. *)
Lemma root_least h x : Forall D h -> heap_from 0 h -> nth_error h 0 = Some x ->
  forall j y, nth_error h j = Some y -> le x y \/ j = 0.
Proof.
  intros FD HH EX j. induction j as [j IH] using lt_wf_ind. intros y EY. destruct (Nat.eq_dec j 0) as [->|N]; [now right|]. left.
  assert (C : child ((j - 1) / 2) j).
  { pose proof (Nat.div_mod (j - 1) 2 ltac:(lia)). pose proof (Nat.mod_upper_bound (j - 1) 2 ltac:(lia)). unfold child. lia. }
  set (i := (j - 1) / 2) in *. assert (LI : i < j) by (unfold child in C; lia).
  destruct (nth_error h i) as [z|] eqn:EZ.
  - assert (LE : le z y) by (now apply (HH i j); [lia| | |]).
    destruct (IH i LI z EZ) as [LX|E0].
    + apply (le_trans x z y); [now apply (Forall_nth h 0)|now apply (Forall_nth h i)|now apply (Forall_nth h j)|easy|easy].
    + rewrite E0 in EZ. assert (z = x) by congruence. now subst z.
  - apply nth_error_None in EZ. assert (j < length h) by (apply nth_error_Some; congruence). lia.
Qed.
Lemma heappop_ok h : h <> [] -> Forall D h -> heap_from 0 h ->
  exists x h', heappop lt h = Ok (x, h') /\ Permutation (x :: h') h /\ heap_from 0 h' /\ Forall (le x) h'.
Proof.
  intros HN FD HH. unfold heappop.
  destruct (rev h) as [|z r] eqn:ER; [apply (f_equal (@rev A)) in ER; rewrite rev_involutive in ER; now subst|].
  assert (EH : h = rev r ++ [z]) by (rewrite <- (rev_involutive h), ER; reflexivity).
  destruct (rev r) as [|x t] eqn:EX.
  - exists z, []. cbn in EH. subst h. split; [easy|]. split; [easy|]. split; [|constructor]. intros i j _ _ a b EA. now destruct i.
  - cbn in EH. subst h. cbn [upd]. change (upd (x :: t) 0 z) with (z :: t).
    assert (HP : Permutation (x :: z :: t) (x :: t ++ [z])) by (constructor; apply Permutation_cons_append).
    destruct (siftup_ok (z :: t) 0) as (h' & -> & P1 & H1).
    + cbn. lia.
    + apply (Permutation_Forall (Permutation_sym HP)) in FD. now inversion FD.
    + intros i j Hi C a b EA EB. apply (HH i j); [lia|easy| |].
      * destruct i; [lia|]. cbn in *. rewrite nth_error_app1; [easy|]. apply nth_error_Some. congruence.
      * destruct j; [unfold child in C; lia|]. cbn in *. rewrite nth_error_app1; [easy|]. apply nth_error_Some. congruence.
    + exists x, h'. split; [easy|]. split; [now rewrite P1|]. split; [easy|].
      apply (Permutation_Forall (Permutation_sym P1)). apply Forall_forall. intros y HI.
      assert (HI' : In y (t ++ [z])) by (apply in_or_app; destruct HI as [->|HI]; [right; now left|now left]).
      apply In_nth_error in HI' as (j & EJ). destruct (root_least _ x FD HH eq_refl (S j) y EJ) as [H|H]; [easy|lia].
Qed.
Lemma drain_ok fuel : forall h, length h < fuel -> Forall D h -> heap_from 0 h ->
  exists r, drain lt fuel h = (r, None) /\ Permutation r h /\ StronglySorted le r.
Proof.
  induction fuel as [|f IH]; intros h HL FD HH; [lia|]. cbn [drain]. destruct h as [|a h]; [now exists []; repeat constructor|].
  destruct (heappop_ok (a :: h)) as (x & h' & -> & P1 & H1 & F1); [easy|easy|easy|].
  assert (FD' : Forall D (x :: h')) by (apply (Permutation_Forall (Permutation_sym P1)); easy). inversion FD' as [|? ? DX FD'']; subst.
  destruct (IH h') as (r & -> & P2 & S2).
  - apply Permutation_length in P1. cbn in *. lia.
  - easy.
  - easy.
  - exists (x :: r). split; [easy|]. split; [now rewrite P2|]. constructor; [easy|].
    apply (Permutation_Forall (Permutation_sym P2)). easy.
Qed.
(** Everything comes out once, in order. *)
Theorem heap_iter_ok items : Forall D items ->
  exists r, heap_iter lt items = (r, None) /\ Permutation r items /\ StronglySorted le r.
Proof.
  intros FD. unfold heap_iter. destruct (heapify_ok items FD) as (h & -> & P1 & H1).
  destruct (drain_ok (S (length items)) h) as (r & -> & P2 & S2).
  - rewrite (Permutation_length P1). lia.
  - apply (Permutation_Forall (Permutation_sym P1)). easy.
  - easy.
  - exists r. split; [easy|]. split; [now rewrite P2|easy].
Qed.
End S.
