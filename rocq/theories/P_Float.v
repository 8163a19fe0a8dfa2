(** * Proofs about doubles and their texts *)
From Verif Require Import M_Base P_Base M_Codec S_Codec P_Codec M_Float S_Float.
From Coq Require Import Lia ZifyBool ZifyNat ZifyN.
Open Scope Z_scope.

(** ** Rounding *)
Lemma rhe_spec a b : 0 < b -> 2 * Z.abs (a - round_half_even a b * b) <= b.
Proof.
  intros Hb. unfold round_half_even. pose proof (Z.div_mod a b ltac:(lia)) as H. pose proof (Z.mod_pos_bound a b Hb) as H'.
  set (q := a / b) in *. set (r := a mod b) in *. clearbody q r.
  destruct (Z.ltb_spec (2 * r) b); [nia|]. destruct (Z.ltb_spec b (2 * r)); [nia|]. destruct (Z.even q); nia.
Qed.
Lemma rhe_unique a b k : 0 < b -> 2 * Z.abs (a - k * b) < b -> round_half_even a b = k.
Proof. intros Hb H. pose proof (rhe_spec a b Hb). set (q := round_half_even a b) in *. clearbody q. nia. Qed.
Lemma rhe_nearest a b k : 0 < b -> Z.abs (a - round_half_even a b * b) <= Z.abs (a - k * b).
Proof. intros Hb. pose proof (rhe_spec a b Hb). set (q := round_half_even a b) in *. clearbody q. destruct (Z.eq_dec q k) as [->|]; nia. Qed.
Lemma rhe_nonneg a b : 0 <= a -> 0 < b -> 0 <= round_half_even a b.
Proof. intros Ha Hb. pose proof (rhe_spec a b Hb). set (q := round_half_even a b) in *. clearbody q. nia. Qed.
Lemma rhe_le a b k : 0 < b -> a <= k * b -> round_half_even a b <= k.
Proof. intros Hb Ha. pose proof (rhe_nearest a b k Hb). pose proof (rhe_spec a b Hb). set (q := round_half_even a b) in *. clearbody q. nia. Qed.
Lemma rhe_ge a b k : 0 < b -> k * b <= a -> k <= round_half_even a b.
Proof. intros Hb Ha. pose proof (rhe_nearest a b k Hb). pose proof (rhe_spec a b Hb). set (q := round_half_even a b) in *. clearbody q. nia. Qed.

Lemma rhe_even a b : 0 < b -> 2 * Z.abs (a - round_half_even a b * b) = b -> Z.even (round_half_even a b) = true.
Proof.
  intros Hb. unfold round_half_even. pose proof (Z.div_mod a b ltac:(lia)) as H. pose proof (Z.mod_pos_bound a b Hb) as H'.
  set (q := a / b) in *. set (r := a mod b) in *. clearbody q r.
  destruct (Z.ltb_spec (2 * r) b); [nia|]. destruct (Z.ltb_spec b (2 * r)); [nia|]. destruct (Z.even q) eqn:EQ; [easy|].
  intros _. rewrite Z.add_1_r, Z.even_succ, <- Z.negb_even, EQ. reflexivity.
Qed.

(** ** Reading: the nearest double *)
Lemma unit_pos : 0 < UNIT.
Proof. unfold UNIT. apply Z.pow_pos_nonneg; lia. Qed.
(** The exponent chosen: either the number has 53 bits above it, or it is the smallest. *)
Lemma exp_bounds N d : 0 <= N -> 0 < d -> let E := Z.max 0 (Z.log2 (N / d) - 52) in
  0 <= E /\ N < d * 2 ^ (E + 53) /\ (E = 0 \/ d * 2 ^ (E + 52) <= N).
Proof.
  intros HN Hd E. subst E. assert (HD : d * (N / d) <= N < d * (N / d + 1)).
  { pose proof (Z.div_mod N d ltac:(lia)). pose proof (Z.mod_pos_bound N d Hd). lia. }
  assert (0 <= N / d) by (apply Z.div_pos; lia). set (q := N / d) in *. clearbody q.
  split; [lia|]. destruct (Z.eq_dec q 0) as [->|Hq].
  - split; [|left; now vm_compute]. change (Z.max 0 (Z.log2 0 - 52) + 53) with 53. assert (1 <= 2 ^ 53) by now vm_compute. nia.
  - pose proof (Z.log2_spec q ltac:(lia)) as (L1 & L2). pose proof (Z.log2_nonneg q). set (k := Z.log2 q) in *. clearbody k.
    replace (Z.succ k) with (k + 1) in L2 by lia. split.
    + apply Z.lt_le_trans with (d * 2 ^ (k + 1)); [nia|]. apply Z.mul_le_mono_nonneg_l; [lia|]. apply Z.pow_le_mono_r; lia.
    + destruct (Z.le_gt_cases k 52); [left; lia|right]. replace (Z.max 0 (k - 52) + 52) with k by lia. nia.
Qed.
Lemma pow_split E k : 0 <= E -> 0 <= k -> 2 ^ (E + k) = 2 ^ E * 2 ^ k.
Proof. intros. now rewrite Z.pow_add_r. Qed.
(** A double that is not a multiple of [2 ^ E] lies below all with this exponent. *)
Lemma finer m' E' E : finite m' E' -> 0 <= E -> (exists k, m' * 2 ^ E' = k * 2 ^ E) \/ m' * 2 ^ E' < 2 ^ 52 * 2 ^ E.
Proof.
  intros (Hm & HE & _) HE0. destruct (Z.le_gt_cases E E') as [L|L].
  - left. exists (m' * 2 ^ (E' - E)). rewrite <- Z.mul_assoc, <- Z.pow_add_r by lia. do 2 f_equal. lia.
  - right. replace E with (E' + 1 + (E - E' - 1)) by lia. rewrite !Z.pow_add_r by lia.
    assert (0 < 2 ^ E') by (apply Z.pow_pos_nonneg; lia). assert (1 <= 2 ^ (E - E' - 1)) by (apply (Z.pow_le_mono_r 2 0); lia).
    change (2 ^ 1) with 2. change (2 ^ 53) with (2 ^ 52 * 2) in Hm. set (P := 2 ^ 52) in *. assert (0 < P) by (now vm_compute). clearbody P.
    set (A := 2 ^ E') in *. set (B := 2 ^ (E - E' - 1)) in *. clearbody A B.
    apply Z.lt_le_trans with (P * 2 * A); [nia|]. replace (P * (A * 2 * B)) with (P * 2 * A * B) by ring.
    assert (0 <= P * 2 * A) by nia. nia.
Qed.
Lemma double_of_cases n d : 0 <= n -> 0 < d -> let N := n * UNIT in exists m E, 0 <= E /\
  2 * Z.abs (N - m * (d * 2 ^ E)) <= d * 2 ^ E /\ (forall k, Z.abs (N - m * (d * 2 ^ E)) <= Z.abs (N - k * (d * 2 ^ E))) /\
  (2 * Z.abs (N - m * (d * 2 ^ E)) = d * 2 ^ E -> Z.even m = true) /\
  0 <= m <= 2 ^ 53 /\ (E = 0 \/ (2 ^ 52 <= m /\ d * (2 ^ 52 * 2 ^ E) <= N)) /\ N < d * (2 ^ 53 * 2 ^ E) /\
  double_of n d = (let '(m, E) := if m =? 2 ^ 53 then (2 ^ 52, E + 1) else (m, E) in if 2045 <? E then DInf else DFin m E).
Proof.
  intros Hn Hd N. pose proof unit_pos as HU. assert (HN : 0 <= N) by (unfold N; nia).
  destruct (exp_bounds N d HN Hd) as (HE & H1 & H2). set (E := Z.max 0 (Z.log2 (N / d) - 52)) in *.
  assert (HP : 0 < 2 ^ E) by (apply Z.pow_pos_nonneg; lia). assert (HB : 0 < d * 2 ^ E) by nia.
  rewrite pow_split in H1 by lia. rewrite pow_split in H2 by lia.
  exists (round_half_even N (d * 2 ^ E)), E. split; [easy|]. split; [now apply rhe_spec|]. split; [intros; now apply rhe_nearest|]. split; [now apply rhe_even|].
  assert (M2 : E = 0 \/ 2 ^ 52 <= round_half_even N (d * 2 ^ E) /\ d * (2 ^ 52 * 2 ^ E) <= N).
  { destruct H2 as [H2|H2]; [now left|right]. split; [|nia]. apply rhe_ge; [easy|]. nia. }
  split; [split; [now apply rhe_nonneg|apply rhe_le; [easy|nia]]|]. split; [easy|]. split; [nia|].
  unfold double_of. fold N. fold E. reflexivity.
Qed.
Lemma carry E : 0 <= E -> 2 ^ 52 * 2 ^ (E + 1) = 2 ^ 53 * 2 ^ E.
Proof. intros H. replace 53 with (52 + 1) by lia. rewrite !Z.pow_add_r by lia. generalize (2 ^ 52), (2 ^ E). intros P A. change (2 ^ 1) with 2. ring. Qed.
Lemma double_nearest n d m E : 0 <= n -> 0 < d -> double_of n d = DFin m E -> nearest n d m E.
Proof.
  intros Hn Hd HD. destruct (double_of_cases n d Hn Hd) as (m0 & E0 & HE & HB & HK & HV0 & Hm & H2 & HN & HQ). rewrite HQ in HD. clear HQ.
  fold UNIT. unfold nearest. fold UNIT. set (N := n * UNIT) in *.
  (* the value does not depend on the representation *)
  assert (HV : m * 2 ^ E = m0 * 2 ^ E0 /\ finite m E).
  { revert HD. destruct (Z.eqb_spec m0 (2 ^ 53)) as [->|Hc]; destruct (Z.ltb_spec 2045 E0) as [L|L].
    - destruct (Z.ltb_spec 2045 (E0 + 1)); [discriminate|lia].
    - destruct (Z.ltb_spec 2045 (E0 + 1)); [discriminate|]. intros [= <- <-]. split.
      + exact (carry E0 HE).
      + unfold finite. change (Z.pow_pos 2 52) with (2 ^ 52). assert (0 <= 2 ^ 52 < 2 ^ 53) by (now vm_compute). lia.
    - discriminate.
    - intros [= <- <-]. split; [easy|]. unfold finite. lia. }
  destruct HV as (HV & HF). split; [easy|]. intros m' E' HF'. rewrite HV.
  assert (0 < 2 ^ E0) by (apply Z.pow_pos_nonneg; lia).
  assert (R : forall v, Z.abs (v * d - N) = Z.abs (N - v * d)) by (intros; lia). rewrite !R. clear R HD HV HF.
  replace (m0 * 2 ^ E0 * d) with (m0 * (d * 2 ^ E0)) by ring.
  destruct (finer m' E' E0 HF' HE) as [(k & ->)|L].
  - replace (k * 2 ^ E0 * d) with (k * (d * 2 ^ E0)) by ring. apply HK.
  - destruct H2 as [->|(H2 & H3)].
    + (* smallest exponent: every double is a multiple *)
      specialize (HK (m' * 2 ^ E')). rewrite Z.pow_0_r, !Z.mul_1_r in *. lia.
    + specialize (HK (2 ^ 52)). set (P := 2 ^ 52) in *. clearbody P. set (A := 2 ^ E0) in *. set (v := m' * 2 ^ E') in *. clearbody A v. nia.
Qed.
Lemma finite_value m E m' E' : finite m E -> finite m' E' -> m * 2 ^ E = m' * 2 ^ E' -> m = m' /\ E = E'.
Proof.
  assert (W : forall m E m' E', finite m E -> finite m' E' -> m * 2 ^ E = m' * 2 ^ E' -> ~ E < E').
  { clear. intros m E m' E' (Hm & HE & _) (Hm' & HE' & HD') H L. destruct HD' as [->|HD']; [lia|].
    replace E' with (E + 1 + (E' - E - 1)) in H by lia. rewrite !Z.pow_add_r in H by lia.
    assert (0 < 2 ^ E) by (apply Z.pow_pos_nonneg; lia). assert (1 <= 2 ^ (E' - E - 1)) by (apply (Z.pow_le_mono_r 2 0); lia).
    change (2 ^ 1) with 2 in H. change (2 ^ 53) with (2 ^ 52 * 2) in *. set (P := 2 ^ 52) in *. assert (0 < P) by (now vm_compute). clearbody P.
    set (A := 2 ^ E) in *. set (B := 2 ^ (E' - E - 1)) in *. clearbody A B.
    assert (m = m' * (2 * B)) by nia. nia. }
  intros F F' H. assert (E = E') as <-.
  { pose proof (W _ _ _ _ F F' H). pose proof (W _ _ _ _ F' F (eq_sym H)). lia. }
  split; [|easy]. destruct F as (_ & HE & _). assert (0 < 2 ^ E) by (apply Z.pow_pos_nonneg; lia). nia.
Qed.
(** Reading does not overflow below the largest double. *)
Lemma double_not_inf n d m E : 0 <= n -> 0 < d -> finite m E -> n * UNIT <= m * 2 ^ E * d -> exists m' E', double_of n d = DFin m' E'.
Proof.
  intros Hn Hd (Hm & HE & _) HL. destruct (double_of_cases n d Hn Hd) as (m0 & E0 & HE0 & HB & HK & HV0 & Hm0 & H2 & HN & ->).
  set (N := n * UNIT) in *. clearbody N.
  assert (HT : m * 2 ^ E <= (2 ^ 53 - 1) * 2 ^ 2045).
  { apply Z.mul_le_mono_nonneg; [lia|lia|apply Z.pow_nonneg; lia|apply Z.pow_le_mono_r; lia]. }
  assert (HE1 : E0 <= 2045).
  { destruct H2 as [->|(_ & H3)]; [lia|]. destruct (Z.le_gt_cases E0 2045); [easy|exfalso].
    assert (2 ^ 2046 <= 2 ^ E0) by (apply Z.pow_le_mono_r; lia). replace 2046 with (2045 + 1) in H0 by lia. rewrite pow_split in H0 by lia.
    change (2 ^ 1) with 2 in H0. change (2 ^ 53) with (2 ^ 52 * 2) in *. set (P := 2 ^ 52) in *. assert (0 < P) by (now vm_compute). clearbody P.
    set (A := 2 ^ 2045) in *. assert (0 < A) by (apply Z.pow_pos_nonneg; lia). clearbody A. set (B := 2 ^ E0) in *. clearbody B. set (v := m * 2 ^ E) in *. clearbody v. nia. }
  destruct (Z.eqb_spec m0 (2 ^ 53)) as [->|Hc].
  - destruct (Z.ltb_spec 2045 (E0 + 1)); [exfalso|eauto]. assert (E0 = 2045) as -> by lia.
    (* N <= (2^53 - 1) * 2^2045 * d is nearer to that *)
    specialize (HK (2 ^ 53 - 1)). assert (0 < 2 ^ 2045) by (apply Z.pow_pos_nonneg; lia). set (A := 2 ^ 2045) in *. clearbody A.
    set (P := 2 ^ 53) in *. clearbody P. set (v := m * 2 ^ E) in *. clearbody v. nia.
  - destruct (Z.ltb_spec 2045 E0); [lia|eauto].
Qed.
Lemma double_exact n d m E : 0 <= n -> 0 < d -> finite m E -> n * UNIT = m * 2 ^ E * d -> double_of n d = DFin m E.
Proof.
  intros Hn Hd HF HX. destruct (double_not_inf n d m E Hn Hd HF ltac:(lia)) as (m' & E' & HD). rewrite HD.
  destruct (double_nearest n d m' E' Hn Hd HD) as (HF' & HK). specialize (HK m E HF). unfold UNIT in HX. rewrite HX, Z.sub_diag in HK.
  destruct (finite_value m' E' m E HF' HF) as (-> & ->); [|easy]. nia.
Qed.

(** Ties go to the even one. *)
Lemma double_even n d m E : 0 <= n -> 0 < d -> double_of n d = DFin m E -> even_tie n d m E.
Proof.
  intros Hn Hd HD m' E' HF' HNE HT. pose proof (double_nearest n d m E Hn Hd HD) as (HF & HNR).
  destruct (double_of_cases n d Hn Hd) as (m0 & E0 & HE & HB & HK & HV0 & Hm & H2 & HN & HQ). rewrite HQ in HD. clear HQ.
  fold UNIT in *. set (N := n * UNIT) in *.
  assert (HV : m * 2 ^ E = m0 * 2 ^ E0 /\ (Z.even m0 = true -> Z.even m = true)).
  { revert HD. destruct (Z.eqb_spec m0 (2 ^ 53)) as [->|Hc].
    - destruct (Z.ltb_spec 2045 (E0 + 1)); [discriminate|]. intros Q; injection Q as <- <-. split; [exact (carry E0 HE)|intros _; now vm_compute].
    - destruct (Z.ltb_spec 2045 E0); [discriminate|]. now intros [= <- <-]. }
  destruct HV as (HV & HEV). apply HEV, HV0. clear HEV HV0 HD.
  assert (HD' : m' * 2 ^ E' <> m0 * 2 ^ E0). { intros Q. rewrite <- HV in Q. destruct (finite_value _ _ _ _ HF' HF Q) as (-> & ->). now apply HNE. }
  rewrite HV in *. assert (0 < 2 ^ E0) by (apply Z.pow_pos_nonneg; lia). replace (m0 * (d * 2 ^ E0)) with (m0 * 2 ^ E0 * d) in * by ring.
  assert (HC : (exists k, m' * 2 ^ E' = k * 2 ^ E0) \/ E0 <> 0 /\ m' * 2 ^ E' < 2 ^ 52 * 2 ^ E0).
  { destruct (Z.eq_dec E0 0) as [->|]; [left; exists (m' * 2 ^ E'); now rewrite Z.pow_0_r, Z.mul_1_r|]. destruct (finer m' E' E0 HF' HE); auto. }
  destruct HC as [(k & EK)|(HZ & L)].
  - rewrite EK in *. replace (d * 2 ^ E0) with (2 ^ E0 * d) in * by ring. replace (m0 * 2 ^ E0 * d) with (m0 * (2 ^ E0 * d)) in * by ring. replace (k * 2 ^ E0 * d) with (k * (2 ^ E0 * d)) in * by ring.
    assert (0 < 2 ^ E0 * d) by nia. assert (k <> m0) by (intros ->; now apply HD'). set (D := 2 ^ E0 * d) in *. clearbody D N. clear - HB HT H0 H1.
    assert (m0 * D <> k * D) by (intros Q; apply Z.mul_reg_r in Q; lia). assert (2 * (m0 * D - N) = (m0 - k) * D) by lia. assert (m0 - k <= -1 \/ 1 <= m0 - k) as [|] by lia; nia.
  - exfalso. destruct H2 as [H2|(H2 & H3)]; [easy|]. specialize (HK (2 ^ 52)). set (P := 2 ^ 52) in *. clearbody P. set (A := 2 ^ E0) in *. set (v := m' * 2 ^ E') in *. clearbody A v N. nia.
Qed.
(** Exactly from half a step above the largest double on. *)
Lemma double_inf n d : 0 <= n -> 0 < d -> (double_of n d = DInf <-> too_large n d).
Proof.
  intros Hn Hd. assert (HL : too_large n d <-> (2 ^ 54 - 1) * 2 ^ 2044 * d <= n * UNIT).
  { unfold too_large. replace 2044 with (970 + 1074) by lia. rewrite pow_split by lia. fold UNIT. pose proof unit_pos. set (K := 2 ^ 54 - 1). set (L := 2 ^ 970). set (U := UNIT) in *. clearbody K L U. split; intros; nia. }
  rewrite HL. clear HL. destruct (double_of_cases n d Hn Hd) as (m0 & E0 & HE & HB & HK & HV0 & Hm & H2 & HN & ->).
  set (N := n * UNIT) in *. clearbody N. change (2 ^ 54) with (4 * 2 ^ 52). assert (H53 : 2 ^ 53 = 2 * 2 ^ 52) by reflexivity. assert (0 < 2 ^ 52) by now vm_compute.
  assert (HO : Z.even (2 ^ 53 - 1) = false) by now vm_compute.
  assert (H2045 : 2 ^ 2045 = 2 * 2 ^ 2044) by (change 2045 with (1 + 2044); now rewrite Z.pow_add_r).
  assert (0 < 2 ^ 2044) by (apply Z.pow_pos_nonneg; lia).
  assert (HR : (let '(m, E) := if m0 =? 2 ^ 53 then (2 ^ 52, E0 + 1) else (m0, E0) in if 2045 <? E then DInf else DFin m E) = DInf <-> 2045 < E0 \/ E0 = 2045 /\ m0 = 2 ^ 53).
  { destruct (Z.eqb_spec m0 (2 ^ 53)).
    - destruct (Z.ltb_spec 2045 (E0 + 1)); split; intros Q; try easy; lia.
    - destruct (Z.ltb_spec 2045 E0); split; intros Q; try easy; lia. }
  rewrite HR. clear HR. split.
  - intros [L|(-> & ->)].
    + destruct H2 as [->|(_ & H3)]; [lia|]. replace E0 with (2044 + 2 + (E0 - 2046)) in H3 by lia. rewrite !Z.pow_add_r in H3 by lia. change (2 ^ 2) with 4 in H3.
      assert (1 <= 2 ^ (E0 - 2046)) by (apply (Z.pow_le_mono_r 2 0); lia). set (P := 2 ^ 52) in *. set (A := 2 ^ 2044) in *. set (B := 2 ^ (E0 - 2046)) in *. clearbody P A B.
      clear - H3 H1 H0 H Hd. assert (0 < d * P * A) by (apply Z.mul_pos_pos; [apply Z.mul_pos_pos|]; lia).
      apply Z.le_trans with (4 * (d * P * A)); [nia|]. nia.
    + rewrite H2045, H53 in *. set (P := 2 ^ 52) in *. set (A := 2 ^ 2044) in *. clearbody P A. clear - HB H0 H Hd. nia.
  - intros HL. destruct (Z.lt_trichotomy E0 2045) as [L|[->|L]]; [exfalso| |now left].
    + replace 2044 with (E0 + (2044 - E0)) in * by lia. rewrite Z.pow_add_r in HL, H0 by lia. assert (1 <= 2 ^ (2044 - E0)) by (apply (Z.pow_le_mono_r 2 0); lia).
      assert (0 < 2 ^ E0) by (apply Z.pow_pos_nonneg; lia). rewrite H53 in *.
      set (P := 2 ^ 52) in *. set (A := 2 ^ E0) in *. set (B := 2 ^ (2044 - E0)) in *. clearbody P A B. clear - HL HN H1 H3 H Hd.
      assert (0 < d * P * A) by (apply Z.mul_pos_pos; [apply Z.mul_pos_pos|]; lia).
      assert ((4 * P - 1) * (A * B) * d >= (4 * P - 1) * A * d) by nia. nia.
    + right. split; [easy|]. rewrite H2045 in *. destruct (Z.eq_dec m0 (2 ^ 53)) as [|HM]; [easy|exfalso]. destruct (Z.eq_dec m0 (2 ^ 53 - 1)) as [->|HM'].
      * rewrite HV0 in HO; [discriminate|]. rewrite H53 in *. set (P := 2 ^ 52) in *. set (A := 2 ^ 2044) in *. clearbody P A. clear - HL HB H0 H Hd. nia.
      * rewrite H53 in *. set (P := 2 ^ 52) in *. set (A := 2 ^ 2044) in *. clearbody P A. clear - HL HB H0 H Hd HM HM' Hm. nia.
Qed.
Lemma double_not_nan n d : 0 <= n -> 0 < d -> double_of n d <> DNan.
Proof.
  intros Hn Hd. destruct (double_of_cases n d Hn Hd) as (m0 & E0 & _ & _ & _ & _ & _ & _ & _ & ->).
  destruct (m0 =? 2 ^ 53); [destruct (2045 <? E0 + 1)|destruct (2045 <? E0)]; discriminate.
Qed.
