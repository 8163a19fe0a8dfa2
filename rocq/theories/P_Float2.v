(** * Proofs about the texts of doubles *)
From Verif Require Import M_Base P_Base M_Codec S_Codec P_Codec M_Float S_Float P_Float.
From Coq Require Import Lia ZifyBool ZifyNat ZifyN.
Open Scope Z_scope.

(** ** Bits *)
Lemma decode_finite b m E : decode b = DFin m E -> finite m E.
Proof.
  unfold decode. set (mag := (b mod 2 ^ 63)%N). assert (HM : (mag < 2 ^ 63)%N) by (apply N.mod_lt; discriminate).
  assert (HX : (mag / 2 ^ 52 < 2048)%N) by (apply N.div_lt_upper_bound; [discriminate|exact HM]).
  assert (HF : (mag mod 2 ^ 52 < 2 ^ 52)%N) by (apply N.mod_lt; discriminate).
  set (f := (mag mod 2 ^ 52)%N) in *. set (x := (mag / 2 ^ 52)%N) in *. clearbody f x mag. unfold finite.
  assert (Z.of_N f < 2 ^ 52) by (change (2 ^ 52) with (Z.of_N (2 ^ 52)); lia). change (2 ^ 53) with (2 ^ 52 + 2 ^ 52).
  assert (0 < 2 ^ 52) by (now vm_compute). set (P := 2 ^ 52) in *. clearbody P.
  destruct (Z.eqb_spec (Z.of_N x) 2047); [destruct (Z.of_N f =? 0); discriminate|].
  destruct (Z.eqb_spec (Z.of_N x) 0); intros Q; injection Q as <- <-; lia.
Qed.
Lemma mag_decode neg d : (match d with DFin m E => finite m E | _ => True end) -> decode (encode neg d) = d /\ is_neg (encode neg d) = neg.
Proof.
  intros HF. set (g := encode false d). assert (HG : (g < 2 ^ 63)%N).
  { unfold g, encode. destruct d as [| |m E]; [now vm_compute|now vm_compute|]. destruct HF as (Hm & HE & HD).
    rewrite N.add_0_l. change (2 ^ 63)%N with (Z.to_N (2048 * 2 ^ 52)). change (2 ^ 53) with (2 * 2 ^ 52) in Hm.
    assert (0 < 2 ^ 52) by (now vm_compute). set (P := 2 ^ 52) in *. clearbody P. apply Z2N.inj_lt; [|lia|]; destruct (Z.ltb_spec m P); nia. }
  assert (HGe : encode neg d = ((if neg then 2 ^ 63 else 0) + g)%N) by (unfold g, encode; now destruct neg).
  assert (HM : (encode neg d mod 2 ^ 63)%N = g).
  { rewrite HGe. destruct neg.
    - rewrite N.add_comm. rewrite <- (N.mul_1_l (2 ^ 63)) at 1. rewrite N.mod_add by discriminate. now apply N.mod_small.
    - now apply N.mod_small. }
  split.
  - unfold decode. rewrite HM. unfold g, encode. destruct d as [| |m E]; [now vm_compute|now vm_compute|]. rewrite N.add_0_l. clear HM HGe HG g.
    destruct HF as (Hm & HE & HD). assert (HP : 0 < 2 ^ 52) by (now vm_compute). change (2 ^ 53) with (2 * 2 ^ 52) in Hm.
    change (2 ^ 52)%N with (Z.to_N (2 ^ 52)). set (P := 2 ^ 52) in *. clearbody P.
    destruct (Z.ltb_spec m P) as [L|L].
    + rewrite <- Z2N.inj_div, <- Z2N.inj_mod, !Z2N.id by (try apply Z.div_pos; try apply Z.mod_pos_bound; lia).
      rewrite Z.div_small, Z.mod_small by lia. cbn [Z.eqb]. f_equal. lia.
    + assert (A : ((E + 1) * P + (m - P)) / P = E + 1) by (rewrite Z.add_comm, Z.div_add, Z.div_small by lia; lia).
      assert (B : ((E + 1) * P + (m - P)) mod P = m - P) by (rewrite Z.add_comm, Z.mod_add, Z.mod_small by lia; lia).
      rewrite <- Z2N.inj_div, <- Z2N.inj_mod, !Z2N.id, A, B by (try apply Z.div_pos; try apply Z.mod_pos_bound; nia).
      destruct (Z.eqb_spec (E + 1) 2047); [lia|]. destruct (Z.eqb_spec (E + 1) 0); [lia|]. f_equal; lia.
  - unfold is_neg. rewrite HGe. destruct neg; [apply N.leb_le|apply N.leb_gt]; lia.
Qed.
Lemma decode_encode b m E : bits b -> decode b = DFin m E -> encode (is_neg b) (DFin m E) = b.
Proof.
  intros HB. unfold decode, encode, is_neg, bits in *. set (g := (b mod 2 ^ 63)%N).
  assert (HG : b = ((if (2 ^ 63 <=? b)%N then 2 ^ 63 else 0) + g)%N).
  { unfold g. destruct (N.leb_spec (2 ^ 63) b) as [L|L]; [|now rewrite N.mod_small].
    pose proof (N.div_mod b (2 ^ 63) ltac:(discriminate)) as H. assert (b / 2 ^ 63 = 1)%N as Q; [|rewrite Q in H; lia].
    assert (b / 2 ^ 63 < 2)%N by (apply N.div_lt_upper_bound; [discriminate|exact HB]).
    assert (1 <= b / 2 ^ 63)%N by (apply N.div_le_lower_bound; [discriminate|lia]). lia. }
  intros HD. rewrite HG at 2. f_equal. revert HD. pose proof (N.div_mod g (2 ^ 52) ltac:(discriminate)) as H.
  assert (HF : (g mod 2 ^ 52 < 2 ^ 52)%N) by (apply N.mod_lt; discriminate). set (f := (g mod 2 ^ 52)%N) in *. set (x := (g / 2 ^ 52)%N) in *.
  change (2 ^ 52) with (Z.of_N (2 ^ 52)). set (P := (2 ^ 52)%N) in *. assert (0 < P)%N by (now vm_compute). clearbody P f x.
  destruct (Z.eqb_spec (Z.of_N x) 2047); [destruct (Z.of_N f =? 0); discriminate|].
  destruct (Z.eqb_spec (Z.of_N x) 0); intros Q; injection Q as <- <-.
  - destruct (Z.ltb_spec (Z.of_N f) (Z.of_N P)); lia.
  - destruct (Z.ltb_spec (Z.of_N P + Z.of_N f) (Z.of_N P)); [lia|]. rewrite H. nia.
Qed.

(** ** Written with six digits, read, and written again *)
Lemma million : 2 ^ 19 < 10 ^ 6 < 2 ^ 20.
Proof. now vm_compute. Qed.
Lemma unit_split k : 0 <= k <= 1074 -> UNIT = 2 ^ k * 2 ^ (1074 - k).
Proof. intros H. unfold UNIT. rewrite <- Z.pow_add_r by lia. f_equal. lia. Qed.
Lemma millionths_small m E : 0 <= m < 2 ^ 53 -> 0 <= E <= 1054 -> forall m2 E2, 
  double_of (millionths m E) (10 ^ 6) = DFin m2 E2 -> millionths m2 E2 = millionths m E.
Proof.
  intros Hm HE m2 E2 HD. pose proof unit_pos as HU. pose proof million as HMl.
  set (D := millionths m E) in *. assert (HD0 : 0 <= D).
  { apply rhe_nonneg; [|easy]. apply Z.mul_nonneg_nonneg; [|lia]. apply Z.mul_nonneg_nonneg; [lia|apply Z.pow_nonneg; lia]. }
  assert (HDs : 2 * Z.abs (m * 2 ^ E * 10 ^ 6 - D * UNIT) <= UNIT) by (now apply rhe_spec).
  destruct (double_of_cases D (10 ^ 6) HD0 ltac:(lia)) as (m0 & E0 & HE0 & HB & _ & _ & Hm0 & H2 & HN & HQ).
  rewrite HQ in HD. clear HQ.
  assert (HV : m2 * 2 ^ E2 = m0 * 2 ^ E0).
  { revert HD. destruct (Z.eqb_spec m0 (2 ^ 53)) as [->|Hc].
    - destruct (2045 <? E0 + 1); [discriminate|]. intros Q. injection Q as <- <-. exact (carry E0 HE0).
    - destruct (2045 <? E0); [discriminate|]. intros Q. now injection Q as <- <-. }
  assert (HM1 : m * 2 ^ E <= (2 ^ 53 - 1) * 2 ^ 1054).
  { apply Z.mul_le_mono_nonneg; [lia|lia|apply Z.pow_nonneg; lia|apply Z.pow_le_mono_r; lia]. }
  assert (H54 : 0 < 2 ^ 1054) by (apply Z.pow_pos_nonneg; lia).
  assert (HUe : UNIT = 2 ^ 1054 * 2 ^ 20) by (rewrite (unit_split 1054) by lia; reflexivity).
  assert (HE1 : E0 <= 1054).
  { destruct H2 as [->|(_ & H3)]; [lia|]. destruct (Z.le_gt_cases E0 1054); [easy|exfalso].
    assert (H55 : 2 ^ 1055 <= 2 ^ E0) by (apply Z.pow_le_mono_r; lia). replace 1055 with (1054 + 1) in H55 by lia. rewrite pow_split in H55 by lia.
    change (2 ^ 1) with 2 in H55. change (2 ^ 53) with (2 ^ 52 * 2) in *. rewrite HUe in *.
    set (A := 2 ^ 1054) in *. set (B := 2 ^ E0) in *. set (v := m * 2 ^ E) in *. clearbody A B v.
    assert (0 < 2 ^ 52) by now vm_compute. set (P := 2 ^ 52) in *. clearbody P.
    change (2 ^ 20) with 1048576 in *. change (10 ^ 6) with 1000000 in *. nia. }
  assert (H3 : 2 ^ E0 <= 2 ^ 1054) by (apply Z.pow_le_mono_r; lia).
  unfold millionths. rewrite HV. apply rhe_unique; [easy|].
  replace (m0 * 2 ^ E0 * 10 ^ 6) with (m0 * (10 ^ 6 * 2 ^ E0)) by ring. rewrite HUe in *. set (A := 2 ^ 1054) in *. set (B := 2 ^ E0) in *. clearbody A B.
  change (2 ^ 20) with 1048576 in *. change (10 ^ 6) with 1000000 in *. lia.
Qed.
Lemma millionths_large m E : finite m E -> 1054 < E -> double_of (millionths m E) (10 ^ 6) = DFin m E.
Proof.
  intros HF HE. pose proof HF as (Hm & HE2 & HD). destruct HD as [->|HD]; [lia|]. pose proof unit_pos as HU.
  set (D := millionths m E) in *. assert (HD0 : 0 <= D).
  { apply rhe_nonneg; [|easy]. apply Z.mul_nonneg_nonneg; [|lia]. apply Z.mul_nonneg_nonneg; [lia|apply Z.pow_nonneg; lia]. }
  assert (HDs : 2 * Z.abs (m * 2 ^ E * 10 ^ 6 - D * UNIT) <= UNIT) by (now apply rhe_spec).
  destruct (Z.eq_dec m (2 ^ 52)) as [Em|Hn].
  - apply double_exact; [easy|lia|easy|]. assert (m * 2 ^ E * 10 ^ 6 = D * UNIT); [|lia].
    unfold D, millionths. assert (m * 2 ^ E * 10 ^ 6 = (2 ^ (52 + E - 1074) * 10 ^ 6) * UNIT) as ->.
    { subst m. unfold UNIT. replace (2 ^ (52 + E - 1074) * 10 ^ 6 * 2 ^ 1074) with (2 ^ (52 + E - 1074) * 2 ^ 1074 * 10 ^ 6) by ring.
      rewrite <- !Z.pow_add_r by lia. do 2 f_equal. lia. }
    now rewrite round_half_even_exact.
  - destruct (double_of_cases D (10 ^ 6) HD0 ltac:(lia)) as (m0 & E0 & HE0 & HB & _ & _ & Hm0 & H2 & HN & ->).
    assert (HUe : UNIT = 2 ^ 1054 * 2 ^ 20) by (rewrite (unit_split 1054) by lia; reflexivity).
    assert (HE55 : 2 ^ 1054 * 2 <= 2 ^ E).
    { change (2 ^ 1054 * 2) with (2 ^ 1054 * 2 ^ 1). rewrite <- Z.pow_add_r by lia. apply Z.pow_le_mono_r; lia. }
    assert (H54 : 0 < 2 ^ 1054) by (apply Z.pow_pos_nonneg; lia). assert (HP : 0 < 2 ^ 52) by now vm_compute.
    assert (E0 = E) as ->.
    { destruct (Z.lt_trichotomy E0 E) as [L|[L|L]]; [exfalso| |exfalso]; [|easy|].
      - (* N < 10^6 * 2^53 * 2^E0 <= 10^6 * 2^52 * 2^E *)
        assert (H3 : 2 ^ E0 * 2 <= 2 ^ E). { change (2 ^ E0 * 2) with (2 ^ E0 * 2 ^ 1). rewrite <- Z.pow_add_r by lia. apply Z.pow_le_mono_r; lia. }
        change (2 ^ 53) with (2 ^ 52 * 2) in *. rewrite HUe in *. set (A := 2 ^ 1054) in *. set (B := 2 ^ E0) in *. set (C := 2 ^ E) in *. set (P := 2 ^ 52) in *.
        clearbody A B C P. change (2 ^ 20) with 1048576 in *. change (10 ^ 6) with 1000000 in *. clear HB Hm0 H2. nia.
      - destruct H2 as [->|(_ & H2)]; [lia|].
        assert (H3 : 2 ^ E * 2 <= 2 ^ E0). { change (2 ^ E * 2) with (2 ^ E * 2 ^ 1). rewrite <- Z.pow_add_r by lia. apply Z.pow_le_mono_r; lia. }
        change (2 ^ 53) with (2 ^ 52 * 2) in *. rewrite HUe in *. set (A := 2 ^ 1054) in *. set (B := 2 ^ E0) in *. set (C := 2 ^ E) in *. set (P := 2 ^ 52) in *.
        clearbody A B C P. change (2 ^ 20) with 1048576 in *. change (10 ^ 6) with 1000000 in *. clear HB Hm0 HN. nia. }
    assert (m0 = m) as ->.
    { rewrite HUe in *. set (A := 2 ^ 1054) in *. set (C := 2 ^ E) in *. clearbody A C. change (2 ^ 20) with 1048576 in *. change (10 ^ 6) with 1000000 in *.
      clear Hm0 H2 HN. nia. }
    destruct (Z.eqb_spec m (2 ^ 53)); [lia|]. destruct (Z.ltb_spec 2045 E); [lia|]. easy.
Qed.
Lemma millionths_read m E : finite m E -> exists m2 E2, double_of (millionths m E) (10 ^ 6) = DFin m2 E2 /\ finite m2 E2 /\ millionths m2 E2 = millionths m E.
Proof.
  intros HF. destruct (Z.le_gt_cases E 1054) as [L|L].
  - pose proof HF as (Hm & HE & _). pose proof unit_pos as HU.
    assert (HD0 : 0 <= millionths m E). { apply rhe_nonneg; [|easy]. apply Z.mul_nonneg_nonneg; [|lia]. apply Z.mul_nonneg_nonneg; [lia|apply Z.pow_nonneg; lia]. }
    destruct (double_not_inf (millionths m E) (10 ^ 6) (2 ^ 53 - 1) 2045 HD0 ltac:(lia)) as (m2 & E2 & HD).
    + unfold finite. assert (2 ^ 52 <= 2 ^ 53 - 1) by now vm_compute. assert (0 <= 2 ^ 53 - 1) by now vm_compute. lia.
    + assert (HDs : 2 * Z.abs (m * 2 ^ E * 10 ^ 6 - millionths m E * UNIT) <= UNIT) by (now apply rhe_spec).
      assert (HM1 : m * 2 ^ E <= (2 ^ 53 - 1) * 2 ^ 1054).
      { apply Z.mul_le_mono_nonneg; [lia|lia|apply Z.pow_nonneg; lia|apply Z.pow_le_mono_r; lia]. }
      assert (H3 : 2 ^ 1054 * 2 <= 2 ^ 2045). { change (2 ^ 1054 * 2) with (2 ^ 1054 * 2 ^ 1). rewrite <- Z.pow_add_r by lia. apply Z.pow_le_mono_r; lia. }
      assert (HUe : UNIT = 2 ^ 1054 * 2 ^ 20) by (rewrite (unit_split 1054) by lia; reflexivity).
      rewrite HUe in *. set (A := 2 ^ 1054) in *. set (C := 2 ^ 2045) in *. set (v := m * 2 ^ E) in *. clearbody A C v. change (2 ^ 20) with 1048576 in *. change (10 ^ 6) with 1000000 in *.
      assert (1 <= 2 ^ 53 - 1) by now vm_compute. set (P := 2 ^ 53 - 1) in *. clearbody P. nia.
    + exists m2, E2. split; [easy|]. destruct (double_nearest (millionths m E) (10 ^ 6) m2 E2 HD0 ltac:(lia) HD) as (HF2 & _). split; [easy|].
      now apply millionths_small.
  - exists m, E. split; [now apply millionths_large|]. now split.
Qed.
