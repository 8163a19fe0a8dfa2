(** * Proofs about the texts of floats: their forms *)
From Verif Require Import M_Base P_Base M_Codec S_Codec P_Codec M_Float S_Float P_Float P_Float2 P_Float3 P_Float4 P_Float5 P_Float6 M_Repr S_Repr P_Repr P_Repr2 P_Repr3.
From Verif Require P_Show2.
From Coq Require Import Lia ZifyBool ZifyNat ZifyN.
Open Scope Z_scope.

Lemma digits_only_of ds : ds <> [] -> forallb is_digit ds = true -> digits_only ds.
Proof. intros HN HD. split; [easy|]. intros c HI. apply is_digit_spec. rewrite forallb_forall in HD. auto. Qed.
Lemma zdec_last c : 0 < c -> c mod 10 <> 0 -> no_last_zero (zdec c).
Proof.
  intros H HM r Q. destruct (zdec_number c ltac:(lia)) as (_ & _ & HV). rewrite Q, undec_app_Z in HV. change (Z.of_N (undec [48%N])) with 0 in HV. change (10 ^ Z.of_nat (length [48%N])) with 10 in HV.
  apply HM. rewrite HV, Z.add_0_r. apply Z.mod_mul. lia.
Qed.
Lemma zdec_first c : 0 < c -> no_first_zero (zdec c).
Proof. intros H r Q. unfold zdec in Q. apply (P_Show2.dec_first (Z.to_N c)) in Q; [easy|lia]. Qed.
Lemma last_app a b : b <> [] -> no_last_zero b -> no_last_zero (a ++ b).
Proof.
  intros HN HB r Q. destruct (exists_last HN) as (b' & x & ->). rewrite app_assoc in Q. apply app_inj_tail in Q as (_ & ->). now apply (HB b').
Qed.
Lemma last_of_app a b : no_last_zero (a ++ b) -> no_last_zero b.
Proof. intros H r ->. apply (H (a ++ r)). now rewrite app_assoc. Qed.
Lemma first_app a b : a <> [] -> no_first_zero a -> no_first_zero (a ++ b).
Proof. intros HN HA r Q. destruct a as [|x a]; [easy|]. injection Q as -> Q. now apply (HA a). Qed.
Lemma first_of_app a b : a <> [] -> no_first_zero (a ++ b) -> no_first_zero a.
Proof. intros HN HA r ->. now apply (HA (r ++ b)). Qed.
Lemma zdec_bounds c : 0 < c -> let L := Z.of_nat (length (zdec c)) in 1 <= L /\ 10 ^ (L - 1) <= c < 10 ^ L.
Proof.
  intros H L. destruct (zdec_number c ltac:(lia)) as (HN & _ & HV). assert (1 <= L) by (unfold L; destruct (zdec c); [easy|cbn [length]; lia]).
  split; [easy|]. unfold L, zdec in *. set (n := Z.to_N c) in *. assert (EC : c = Z.of_N n) by lia.
  set (l := length (dec n)) in *. split.
  - destruct (Z.le_gt_cases (10 ^ (Z.of_nat l - 1)) c) as [|G]; [easy|exfalso]. destruct (Nat.eq_dec l 1) as [E1|]; [rewrite E1 in G; change (10 ^ _) with 1 in G; lia|].
    assert (HX : (n < 10 ^ N.of_nat (S (l - 2)))%N).
    { apply N2Z.inj_lt. rewrite N2Z.inj_pow, nat_N_Z, <- EC. replace (Z.of_nat (S (l - 2))) with (Z.of_nat l - 1) by lia. exact G. }
    apply dec_length in HX. fold l in HX. lia.
  - destruct (Z.le_gt_cases (10 ^ Z.of_nat l) c) as [G|]; [exfalso|easy].
    assert (HX : (10 ^ N.of_nat l <= n)%N). { apply N2Z.inj_le. rewrite N2Z.inj_pow, nat_N_Z, <- EC. exact G. }
    apply dec_length_lower in HX. fold l in HX. lia.
Qed.
Lemma pad_long n : (2 < length (pad 2 n))%nat -> no_first_zero (pad 2 n).
Proof.
  unfold pad. rewrite app_length, repeat_length. intros H. assert (HL : (2 < length (dec n))%nat) by lia. replace (2 - length (dec n))%nat with 0%nat by lia. cbn [repeat app].
  intros r Q. apply (P_Show2.dec_first n) in Q; [easy|]. destruct (N.eq_0_gt_0_cases n) as [->|]; [|easy]. vm_compute in HL. lia.
Qed.
Lemma layout_form n d c q : 0 < c -> c mod 10 <> 0 -> 0 < d -> same_value n d c q ->
  medium n d /\ point_form (layout c q) \/ ~ medium n d /\ exponent_form (layout c q).
Proof.
  intros Hc HM Hd HV. pose proof (zdec_bounds c Hc) as HB. cbv zeta in HB. pose proof (zdec_first c Hc) as HF. pose proof (zdec_last c Hc HM) as HL.
  destruct (zdec_number c ltac:(lia)) as (HN & _ & _). assert (HD : forallb is_digit (zdec c) = true) by apply dec_digits.
  unfold layout. set (ds := zdec c) in *. set (L := Z.of_nat (length ds)) in *. cbv zeta.
  assert (MED : medium n d <-> -4 < q + L <= 16).
  { unfold same_value in HV. destruct HB as (H1 & HLo & HHi). unfold medium. set (A := 10 ^ Z.max 0 (- q)) in *. set (B := 10 ^ Z.max 0 q) in *.
    assert (PA : 0 < A) by (apply Z.pow_pos_nonneg; lia). assert (PB : 0 < B) by (apply Z.pow_pos_nonneg; lia).
    assert (C1 : d <= n * 10 ^ 4 <-> A <= c * B * 10 ^ 4).
    { rewrite (Z.mul_le_mono_pos_r d (n * 10 ^ 4) A PA). replace (n * 10 ^ 4 * A) with (n * A * 10 ^ 4) by ring. rewrite HV. replace (c * B * d * 10 ^ 4) with (c * B * 10 ^ 4 * d) by ring. rewrite (Z.mul_comm d A). symmetry. now apply Z.mul_le_mono_pos_r. }
    assert (C2 : n < 10 ^ 16 * d <-> c * B < 10 ^ 16 * A).
    { rewrite (Z.mul_lt_mono_pos_r A n (10 ^ 16 * d) PA), HV. replace (10 ^ 16 * d * A) with (10 ^ 16 * A * d) by ring. symmetry. now apply Z.mul_lt_mono_pos_r. }
    rewrite C1, C2. split.
    - intros (L1 & L2). split.
      + destruct (Z.lt_ge_cases (-4) (q + L)) as [|G]; [easy|exfalso]. assert (X : c * B * 10 ^ 4 < 10 ^ L * B * 10 ^ 4) by nia. unfold B in X at 2. rewrite <- !Z.pow_add_r in X by lia.
        assert (Y : 10 ^ (L + Z.max 0 q + 4) <= A) by (apply Z.pow_le_mono_r; lia). lia.
      + destruct (Z.le_gt_cases (q + L) 16) as [|G]; [easy|exfalso]. assert (X : 10 ^ (L - 1) * B <= c * B) by nia. unfold B in X at 1. rewrite <- Z.pow_add_r in X by lia.
        unfold A in L2. rewrite <- Z.pow_add_r in L2 by lia. assert (Y : 10 ^ (16 + Z.max 0 (- q)) <= 10 ^ (L - 1 + Z.max 0 q)) by (apply Z.pow_le_mono_r; lia). lia.
    - intros (G1 & G2). split.
      + assert (X : 10 ^ (L - 1) * B * 10 ^ 4 <= c * B * 10 ^ 4) by nia. unfold B in X at 1. rewrite <- !Z.pow_add_r in X by lia.
        assert (Y : A <= 10 ^ (L - 1 + Z.max 0 q + 4)) by (apply Z.pow_le_mono_r; lia). lia.
      + assert (X : c * B < 10 ^ L * B) by nia. unfold B in X at 2. rewrite <- Z.pow_add_r in X by lia. unfold A. rewrite <- Z.pow_add_r by lia.
        assert (Y : 10 ^ (L + Z.max 0 q) <= 10 ^ (16 + Z.max 0 (- q))) by (apply Z.pow_le_mono_r; lia). lia. }
  clear HV. set (p := q + L) in *. destruct ((-4 <? p) && (p <=? 16)) eqn:EP.
  - left. split; [apply MED; lia|]. clear MED. destruct (Z.leb_spec p 0) as [L0|L0]; [|destruct (Z.leb_spec 0 q) as [Lq|Lq]].
    + exists (py "0"), (zeros (- p) ++ ds). split; [reflexivity|]. split; [now apply digits_only_of|]. split.
      * apply digits_only_of; [intros Q; now apply app_eq_nil in Q|now rewrite forallb_app, zeros_digits].
      * split; [now left|right; now apply last_app].
    + exists (ds ++ zeros q), (py "0"). split; [now rewrite <- app_assoc|]. split.
      * apply digits_only_of; [intros Q; now apply app_eq_nil in Q|now rewrite forallb_app, zeros_digits, HD].
      * split; [now apply digits_only_of|]. split; [right; now apply first_app|now left].
    + set (i := Z.to_nat p). assert (Hi : (0 < i < length ds)%nat) by (unfold i, p in *; lia).
      assert (N1 : firstn i ds <> []) by (intros Q; apply (f_equal (@length N)) in Q; rewrite firstn_length in Q; cbn [length] in Q; lia).
      assert (N2 : skipn i ds <> []) by (intros Q; apply (f_equal (@length N)) in Q; rewrite skipn_length in Q; cbn [length] in Q; lia).
      exists (firstn i ds), (skipn i ds). split; [easy|]. split; [apply digits_only_of; [easy|now apply forallb_firstn]|]. split; [apply digits_only_of; [easy|now apply forallb_skipn]|].
      rewrite <- (firstn_skipn i ds) in HF, HL. split; right; [now apply first_of_app in HF|now apply last_of_app in HL].
  - right. split; [rewrite MED; lia|]. clear MED. destruct ds as [|a r]; [easy|]. cbn [firstn skipn]. cbn [forallb] in HD. apply andb_true_iff in HD as (HA & HD).
    exists a, (match r with [] => [] | _ => py "." ++ r end), (if p - 1 <? 0 then py "-" else py "+"), (pad 2 (Z.to_N (Z.abs (p - 1)))).
    split; [now destruct r|]. split; [apply is_digit_spec in HA; specialize (HF r); assert (a <> 48%N) by (intros ->; now apply HF); lia|].
    split; [|split; [destruct (p - 1 <? 0); auto|]].
    + destruct r as [|b r]; [now left|right]. exists (b :: r). split; [easy|]. split; [now apply digits_only_of|]. now apply (last_of_app [a]) in HL.
    + split; [|split].
      * apply digits_only_of; [|apply pad_digits]. unfold pad. intros Q. apply app_eq_nil in Q as (_ & Q). now apply dec_nonempty in Q.
      * unfold pad. rewrite app_length, repeat_length. lia.
      * apply pad_long.
Qed.
(** The form of the text of a finite double. *)
Lemma repr_form b neg m E : stands b neg m E -> 0 < m -> exists t n d, fl_repr b = (if neg then py "-" else []) ++ t /\ numeral t false n d /\
  (medium n d /\ point_form t \/ ~ medium n d /\ exponent_form t).
Proof.
  intros H H0. pose proof H as (HF & _). destruct (digits_spec m E HF H0) as (c & q & j & ED & Hq & Hc & HR & _ & _ & HM).
  rewrite (repr_stands _ _ _ _ H), ED. cbn [fst snd]. destruct (layout_numeral [] false c q ltac:(lia) (or_introl (conj eq_refl eq_refl))) as (n & d & H1 & H2). cbn [app] in H1.
  destruct (numeral_bounds _ _ _ _ H1) as (Hn & Hd). exists (layout c q), n, d. split; [easy|]. split; [easy|]. now apply layout_form.
Qed.
Lemma repr_zero b neg : stands b neg 0 0 -> fl_repr b = (if neg then py "-" else []) ++ py "0.0".
Proof. intros H. now rewrite (repr_stands _ _ _ _ H). Qed.
Lemma repr_infinite b neg : infinite b neg -> fl_repr b = (if neg then py "-" else []) ++ py "inf".
Proof.
  intros H. unfold infinite in H. assert (b = if neg then (2 ^ 63 + 2047 * 2 ^ 52)%N else (2047 * 2 ^ 52)%N) as -> by (destruct neg; vm_compute in H |- *; destruct b; try discriminate H; congruence).
  destruct neg; now vm_compute.
Qed.
