(** * Proofs about seconds computed with floats (C78) *)
From Verif Require Import M_Base P_Base M_Codec P_Codec M_Float S_Float P_Float M_Seconds S_Seconds P_Float6.
From Coq Require Import Lia ZifyBool.
Open Scope Z_scope.

Lemma sec_pos : 0 < US_SEC. Proof. reflexivity. Qed.
(** ** Which numbers are doubles *)
Lemma rep j e : 0 <= j < 2 ^ 53 -> 52 <= e <= 2045 -> exists m E, finite m E /\ m * 2 ^ E = j * 2 ^ e.
Proof.
  intros Hj He. destruct (Z.eq_dec j 0) as [-> | Hj0].
  - exists 0, 0. split; [|reflexivity]. unfold finite. lia.
  - pose proof (Z.log2_spec j ltac:(lia)) as HL. assert (L0 := Z.log2_nonneg j).
    assert (HL2 : Z.log2 j < 53) by (apply Z.log2_lt_pow2; lia).
    set (L := Z.log2 j) in *. clearbody L.
    exists (j * 2 ^ (52 - L)), (e + L - 52). split.
    + assert (P1 : 2 ^ L * 2 ^ (52 - L) = 2 ^ 52) by (rewrite <- Z.pow_add_r by lia; f_equal; lia).
      assert (P2 : 2 ^ Z.succ L * 2 ^ (52 - L) = 2 ^ 53) by (rewrite <- Z.pow_add_r by lia; f_equal; lia).
      assert (P3 : 0 < 2 ^ (52 - L)) by (apply Z.pow_pos_nonneg; lia).
      unfold finite. split; [split; [nia|rewrite <- P2; nia]|]. split; [|right; rewrite <- P1; nia].
      destruct (Z.le_gt_cases (e + L - 52) 2045); [lia|]. exfalso. lia.
    + rewrite <- Z.mul_assoc, <- Z.pow_add_r by lia. do 2 f_equal. lia.
Qed.
Lemma rep_int k : 0 <= k < 2 ^ 53 -> exists m E, finite m E /\ m * 2 ^ E = k * UNIT.
Proof. intros H. exact (rep k 1074 H ltac:(lia)). Qed.
Lemma rnd_exact n d m E : 0 <= n -> 0 < d -> finite m E -> n * UNIT = m * 2 ^ E * d -> rnd n d = m * 2 ^ E.
Proof. intros Hn Hd HF H. unfold rnd. now rewrite (double_exact n d m E Hn Hd HF H). Qed.
Lemma rnd_quot k d : 0 <= k < 2 ^ 53 -> 0 < d -> rnd (k * d) d = k * UNIT.
Proof.
  intros Hk Hd. destruct (rep_int k Hk) as (m & E & HF & HV). rewrite <- HV. apply rnd_exact; [nia|exact Hd|exact HF|].
  rewrite HV. ring.
Qed.

(** ** Division without rounding errors *)
Lemma floordiv_exact v w : 0 <= v < 2 ^ 53 * UNIT -> 0 < w -> f_floordiv v w = v / (w * UNIT) * UNIT.
Proof.
  intros Hv Hw. pose proof unit_pos as HU. unfold f_floordiv, f_mod.
  assert (HM := Z.div_mod v (w * UNIT) ltac:(nia)). assert (HB := Z.mod_pos_bound v (w * UNIT) ltac:(nia)).
  set (q := v / (w * UNIT)) in *. set (r := v mod (w * UNIT)) in *. clearbody q r.
  assert (HQ : 0 <= q) by nia.
  assert (HK : 0 <= w * q < 2 ^ 53) by nia.
  assert (HQ2 : 0 <= q < 2 ^ 53) by nia.
  replace (v - r) with (w * q * UNIT) by (rewrite HM; ring). rewrite rnd_quot by assumption.
  replace (w * q * UNIT) with (q * (w * UNIT)) by ring. rewrite rnd_quot by (try assumption; nia).
  rewrite Z.div_mul by lia. rewrite Z.sub_diag. change 0 with (0 * UNIT) at 1. rewrite rnd_quot by lia.
  cbv zeta. destruct (Z.ltb_spec UNIT (2 * (0 * UNIT))); [lia|reflexivity].
Qed.

(** ** The rounded seconds *)
Lemma us_finite us : Z.abs us < 2 ^ 52 * US_SEC -> exists m E, double_of (Z.abs us) US_SEC = DFin m E.
Proof.
  intros H. destruct (rep_int (2 ^ 52) ltac:(lia)) as (m & E & HF & HV).
  apply (double_not_inf _ _ m E); [lia|exact sec_pos|exact HF|]. rewrite HV. pose proof unit_pos. pose proof sec_pos. nia.
Qed.
Lemma abs_near us : Z.abs us < 2 ^ 52 * US_SEC -> exists m E, abs_seconds us = m * 2 ^ E /\
  nearest (Z.abs us) US_SEC m E /\ even_tie (Z.abs us) US_SEC m E.
Proof.
  intros H. destruct (us_finite us H) as (m & E & HD). exists m, E. unfold abs_seconds, rnd. rewrite HD. split; [reflexivity|].
  split; [exact (double_nearest _ _ _ _ (Z.abs_nonneg _) sec_pos HD)|exact (double_even _ _ _ _ (Z.abs_nonneg _) sec_pos HD)].
Qed.
Lemma abs_closest us j e : Z.abs us < 2 ^ 52 * US_SEC -> 0 <= j < 2 ^ 53 -> 52 <= e <= 2045 ->
  Z.abs (abs_seconds us * US_SEC - Z.abs us * UNIT) <= Z.abs (j * 2 ^ e * US_SEC - Z.abs us * UNIT).
Proof.
  intros H Hj He. destruct (abs_near us H) as (m & E & -> & (_ & HN) & _). destruct (rep j e Hj He) as (m' & E' & HF & <-).
  exact (HN m' E' HF).
Qed.
Lemma near_mono v k n U S : 0 < U -> 0 < S -> Z.abs (v * S - n * U) <= Z.abs (k * U * S - n * U) ->
  (k * S <= n -> k * U <= v) /\ (n <= k * S -> v <= k * U).
Proof.
  intros HU HS H. replace (k * U * S - n * U) with (U * (k * S - n)) in H by ring. split; intros L.
  - assert (U * (k * S - n) <= 0) by nia. apply (Z.mul_le_mono_pos_r _ _ S HS). nia.
  - assert (0 <= U * (k * S - n)) by nia. apply (Z.mul_le_mono_pos_r _ _ S HS). nia.
Qed.
Lemma abs_mono us k : Z.abs us < 2 ^ 52 * US_SEC -> 0 <= k < 2 ^ 53 ->
  (k * US_SEC <= Z.abs us -> k * UNIT <= abs_seconds us) /\ (Z.abs us <= k * US_SEC -> abs_seconds us <= k * UNIT).
Proof.
  intros H Hk. pose proof (abs_closest us k 1074 H Hk ltac:(lia)) as HC. change (2 ^ 1074) with UNIT in HC.
  exact (near_mono _ _ _ _ _ unit_pos sec_pos HC).
Qed.
Lemma abs_floor us : Z.abs us < 2 ^ 52 * US_SEC ->
  Z.abs us / US_SEC * UNIT <= abs_seconds us <= (Z.abs us / US_SEC + 1) * UNIT.
Proof.
  intros H. pose proof sec_pos as HS. pose proof (Z.div_mod (Z.abs us) US_SEC ltac:(lia)) as HM.
  pose proof (Z.mod_pos_bound (Z.abs us) US_SEC HS) as HB. set (q := Z.abs us / US_SEC) in *. clearbody q.
  assert (HQ : 0 <= q < 2 ^ 52) by nia.
  split; [apply (abs_mono us q H); nia|apply (abs_mono us (q + 1) H); nia].
Qed.
Lemma shift_one : 2 ^ 52 * 2 ^ 1056 = 2 ^ 53 * 2 ^ 1055.
Proof. rewrite <- !Z.pow_add_r by lia. reflexivity. Qed.
Lemma unit_split : UNIT = 2 ^ 19 * 2 ^ 1055.
Proof. unfold UNIT. rewrite <- Z.pow_add_r by lia. reflexivity. Qed.
(** Below [2 ^ 34] seconds a fraction is not rounded away. *)
Lemma abs_whole us k : Z.abs us < 2 ^ 34 * US_SEC -> abs_seconds us = k * UNIT -> Z.abs us = k * US_SEC.
Proof.
  intros H HK. pose proof sec_pos as HS. set (n := Z.abs us) in *.
  assert (Hn : 0 <= n) by (unfold n; lia).
  set (j := (2 * n * 2 ^ 19 + US_SEC) / (2 * US_SEC)).
  assert (HJ : 2 * Z.abs (j * US_SEC - n * 2 ^ 19) <= US_SEC).
  { pose proof (Z.div_mod (2 * n * 2 ^ 19 + US_SEC) (2 * US_SEC) ltac:(lia)) as HM. fold j in HM.
    pose proof (Z.mod_pos_bound (2 * n * 2 ^ 19 + US_SEC) (2 * US_SEC) ltac:(lia)). lia. }
  clearbody j. assert (HJ2 : 0 <= j <= 2 ^ 53) by (change (2 ^ 53) with (2 ^ 34 * 2 ^ 19); unfold US_SEC in *; lia).
  assert (H52 : n < 2 ^ 52 * US_SEC) by lia.
  assert (HC : Z.abs (abs_seconds us * US_SEC - n * UNIT) <= Z.abs (j * 2 ^ 1055 * US_SEC - n * UNIT)).
  { destruct (Z.eq_dec j (2 ^ 53)) as [-> | Hne].
    - replace (2 ^ 53 * 2 ^ 1055) with (2 ^ 52 * 2 ^ 1056) by exact shift_one. apply (abs_closest us (2 ^ 52) 1056); [exact H52|lia|lia].
    - apply (abs_closest us j 1055); [exact H52|lia|lia]. }
  rewrite HK in HC. replace UNIT with (2 ^ 19 * 2 ^ 1055) in HC by (symmetry; exact unit_split).
  assert (HP : 0 < 2 ^ 1055) by (apply Z.pow_pos_nonneg; lia). set (P := 2 ^ 1055) in *. clearbody P.
  replace (k * (2 ^ 19 * P) * US_SEC - n * (2 ^ 19 * P)) with ((k * US_SEC - n) * 2 ^ 19 * P) in HC by ring.
  replace (j * P * US_SEC - n * (2 ^ 19 * P)) with ((j * US_SEC - n * 2 ^ 19) * P) in HC by ring.
  rewrite !Z.abs_mul, (Z.abs_eq P) in HC by lia. apply Z.mul_le_mono_pos_r in HC; [|exact HP].
  unfold US_SEC in *. lia.
Qed.

(** ** Whole seconds and a rest *)
Lemma part_div a r w U : 0 < U -> 0 < w -> 0 <= r < U -> (a * U + r) / (w * U) = a / w.
Proof.
  intros HU Hw Hr. rewrite (Z.mul_comm w U), <- Z.div_div by lia. f_equal.
  rewrite Z.div_add_l by lia. rewrite (Z.div_small r U Hr). lia.
Qed.
Lemma part_mod a r w U : 0 < U -> 0 < w -> 0 <= r < U -> (a * U + r) mod (w * U) = a mod w * U + r.
Proof.
  intros HU Hw Hr. rewrite Z.mod_eq by nia. rewrite part_div by assumption. rewrite (Z.mod_eq a w) by lia. ring.
Qed.
Lemma part_int a r U : 0 < U -> 0 <= r < U -> (a * U + r) / U = a.
Proof. intros HU Hr. rewrite Z.div_add_l by lia. rewrite (Z.div_small r U Hr). lia. Qed.
Lemma part_zero a r U : 0 < U -> 0 <= a -> 0 <= r < U -> (a * U + r = 0 <-> a = 0 /\ r = 0).
Proof. intros HU Ha Hr. split; [|intros (-> & ->); reflexivity]. intros H. assert (a = 0) by nia. subst a. lia. Qed.

Definition clock (a : Z) (rest : bool) : str :=
  pad 2 (Z.to_N (a / 3600)) ++ pad 2 (Z.to_N (a mod 3600 / 60))
  ++ (if (a mod 3600 mod 60 =? 0) && negb rest then [] else pad 2 (Z.to_N (a mod 3600 mod 60))).
Lemma offset_parts us a r : abs_seconds us = a * UNIT + r -> 0 <= a < 2 ^ 53 -> 0 <= r < UNIT ->
  offset_text us = (if (us <? 0) && negb (abs_seconds us =? 0) then py "-" else py "+") ++ clock a (0 <? r).
Proof.
  intros HV Ha Hr. pose proof unit_pos as HU. unfold offset_text, clock, f_mod. cbv zeta. rewrite HV.
  assert (H1 : 0 <= a mod 3600 < 3600) by (apply Z.mod_pos_bound; lia).
  rewrite (floordiv_exact (a * UNIT + r)) by nia. rewrite part_div, part_mod by (try assumption; lia).
  assert (H2 : 0 <= a mod 3600 * UNIT + r < 2 ^ 53 * UNIT) by nia.
  rewrite (floordiv_exact (a mod 3600 * UNIT + r)) by (try assumption; lia). rewrite part_div, part_mod by (try assumption; lia).
  unfold f_int. rewrite !Z.div_mul by lia. rewrite part_int by assumption.
  assert (H3 : 0 <= a mod 3600 mod 60) by (apply Z.mod_pos_bound; lia).
  pose proof (part_zero (a mod 3600 mod 60) r UNIT HU H3 Hr) as HZ.
  do 4 f_equal.
  destruct (Z.eqb_spec (a mod 3600 mod 60 * UNIT + r) 0) as [E|E]; destruct (Z.eqb_spec (a mod 3600 mod 60) 0) as [E2|E2];
    destruct (Z.ltb_spec 0 r); cbn [andb negb]; try reflexivity; exfalso; [apply HZ in E; lia|apply HZ in E; lia|apply HZ in E; lia|].
  apply E. apply HZ. lia.
Qed.
Lemma serialize_parts us : utcoffset_serialize us =
  (if us <? 0 then py "-" else py "+") ++ clock (Z.abs us / US_SEC) (0 <? Z.abs us mod US_SEC).
Proof.
  pose proof sec_pos as HS. unfold utcoffset_serialize, clock. cbv zeta.
  pose proof (Z.div_mod (Z.abs us) US_SEC ltac:(lia)) as HM. pose proof (Z.mod_pos_bound (Z.abs us) US_SEC HS) as Hr.
  assert (Ha : 0 <= Z.abs us / US_SEC) by (apply Z.div_pos; lia).
  set (a := Z.abs us / US_SEC) in *. set (r := Z.abs us mod US_SEC) in *. clearbody a r. rewrite HM. rewrite (Z.mul_comm US_SEC a).
  rewrite part_div, part_mod by (try assumption; lia). rewrite part_div, part_mod by (try assumption; lia). rewrite part_int by assumption.
  assert (H3 : 0 <= a mod 3600 mod 60) by (apply Z.mod_pos_bound; lia).
  pose proof (part_zero (a mod 3600 mod 60) r US_SEC HS H3 Hr) as HZ.
  do 4 f_equal.
  destruct (Z.eqb_spec (a mod 3600 mod 60 * US_SEC + r) 0) as [E|E]; destruct (Z.eqb_spec (a mod 3600 mod 60) 0) as [E2|E2];
    destruct (Z.ltb_spec 0 r); cbn [andb negb]; try reflexivity; exfalso; [apply HZ in E; lia|apply HZ in E; lia|apply HZ in E; lia|].
  apply E. apply HZ. lia.
Qed.

Lemma abs_zero us : Z.abs us < 2 ^ 52 * US_SEC -> abs_seconds us = 0 -> us = 0.
Proof.
  intros H HZ. pose proof unit_pos as HU. destruct (Z_lt_ge_dec (Z.abs us) US_SEC) as [L|L].
  - assert (Z.abs us = 0 * US_SEC); [|lia]. apply abs_whole; [unfold US_SEC in *; lia|]. lia.
  - destruct (abs_mono us 1 H ltac:(lia)) as (HA & _). specialize (HA ltac:(lia)). lia.
Qed.
Lemma sign_same us : Z.abs us < 2 ^ 52 * US_SEC -> (us <? 0) && negb (abs_seconds us =? 0) = (us <? 0).
Proof.
  intros H. destruct (Z.ltb_spec us 0) as [L|L]; [|reflexivity]. destruct (Z.eqb_spec (abs_seconds us) 0) as [E|E]; [|reflexivity].
  apply (abs_zero us H) in E. lia.
Qed.
Lemma parts us : Z.abs us < 2 ^ 34 * US_SEC -> exists r, abs_seconds us = Z.abs us / US_SEC * UNIT + r /\ 0 <= r < UNIT /\
  (0 <? r) = (0 <? Z.abs us mod US_SEC).
Proof.
  intros H. assert (H52 : Z.abs us < 2 ^ 52 * US_SEC) by (unfold US_SEC in *; lia). pose proof sec_pos as HS.
  pose proof (abs_floor us H52) as HF. pose proof (Z.div_mod (Z.abs us) US_SEC ltac:(lia)) as HM.
  pose proof (Z.mod_pos_bound (Z.abs us) US_SEC HS) as Hr. set (a := Z.abs us / US_SEC) in *. clearbody a.
  exists (abs_seconds us - a * UNIT). split; [ring|].
  assert (HN : abs_seconds us <> (a + 1) * UNIT) by (intros E; apply (abs_whole us _ H) in E; lia).
  split; [lia|]. destruct (Z.ltb_spec 0 (abs_seconds us - a * UNIT)) as [L|L]; destruct (Z.ltb_spec 0 (Z.abs us mod US_SEC)) as [M|M]; try reflexivity; exfalso.
  - assert (Z.abs us <= a * US_SEC) by lia. destruct (abs_mono us a H52 ltac:(unfold US_SEC in *; lia)) as (_ & HB). specialize (HB ltac:(lia)). lia.
  - assert (E : abs_seconds us = a * UNIT) by lia. apply (abs_whole us _ H) in E. lia.
Qed.
Lemma offset_same us : Z.abs us < 2 ^ 34 * US_SEC -> offset_text us = utcoffset_serialize us.
Proof.
  intros H. destruct (parts us H) as (r & HV & Hr & HB). rewrite serialize_parts. rewrite (offset_parts us _ r HV);
    [|pose proof (Z.div_pos (Z.abs us) US_SEC (Z.abs_nonneg _) sec_pos); pose proof (Z.div_lt_upper_bound (Z.abs us) US_SEC (2 ^ 34) sec_pos ltac:(lia)); lia|exact Hr].
  rewrite HB, sign_same by (unfold US_SEC in *; lia). reflexivity.
Qed.

Lemma offset_spec us : Z.abs us < 2 ^ 52 * US_SEC -> exists v, seconds_rounded us v /\
  clock_text (if us <? 0 then py "-" else py "+") v (offset_text us).
Proof.
  intros H. pose proof unit_pos as HU. exists (abs_seconds us). destruct (abs_near us H) as (m & E & HE & HN & HT). split; [exists m, E; auto|].
  pose proof (Z.div_mod (abs_seconds us) UNIT ltac:(lia)) as HM. pose proof (Z.mod_pos_bound (abs_seconds us) UNIT HU) as Hr.
  set (a := abs_seconds us / UNIT) in *. set (r := abs_seconds us mod UNIT) in *. clearbody a r.
  assert (Ha : 0 <= a < 2 ^ 53).
  { destruct (abs_mono us 0 H ltac:(lia)) as (HA & _). specialize (HA ltac:(lia)).
    destruct (abs_mono us (2 ^ 52) H ltac:(lia)) as (_ & HB). specialize (HB ltac:(lia)). nia. }
  rewrite (offset_parts us a r ltac:(lia) Ha Hr), (sign_same us H). unfold clock.
  assert (H1 : 0 <= a mod 3600 < 3600) by (apply Z.mod_pos_bound; lia).
  assert (H2 : 0 <= a mod 3600 mod 60 < 60) by (apply Z.mod_pos_bound; lia).
  assert (HA : a = a / 3600 * 3600 + a mod 3600 / 60 * 60 + a mod 3600 mod 60).
  { pose proof (Z.div_mod a 3600 ltac:(lia)). pose proof (Z.div_mod (a mod 3600) 60 ltac:(lia)). lia. }
  assert (H3 : 0 <= a mod 3600 / 60 < 60) by (split; [apply Z.div_pos; lia|apply Z.div_lt_upper_bound; lia]).
  set (s := a mod 3600 mod 60) in *. set (i := a mod 3600 / 60) in *. set (h := a / 3600) in *. clearbody s i h.
  destruct ((s =? 0) && negb (0 <? r)) eqn:B.
  - apply andb_true_iff in B. destruct B as (B1 & B2). apply Z.eqb_eq in B1. apply negb_true_iff, Z.ltb_ge in B2. rewrite app_nil_r.
    apply CT_minutes; [lia|]. change (2 ^ 1074) with UNIT. rewrite HM. replace r with 0 by lia. rewrite HA, B1. ring.
  - apply (CT_seconds _ _ h i s r); [lia|lia|change (2 ^ 1074) with UNIT; lia| |].
    + change (2 ^ 1074) with UNIT. rewrite HM, HA. ring.
    + apply andb_false_iff in B. destruct B as [B|B]; [left; apply Z.eqb_neq in B; lia|right].
      apply negb_false_iff, Z.ltb_lt in B. exact B.
Qed.

(** ** The seconds of a duration *)
Lemma rhe_scale a b k : 0 < b -> 0 < k -> round_half_even (a * k) (b * k) = round_half_even a b.
Proof.
  intros Hb Hk. unfold round_half_even. rewrite Z.div_mul_cancel_r by lia. rewrite Z.mul_mod_distr_r by lia.
  assert (H : forall r, (2 * (r * k) <? b * k) = (2 * r <? b)).
  { intros r. destruct (Z.ltb_spec (2 * (r * k)) (b * k)); destruct (Z.ltb_spec (2 * r) b); try reflexivity; nia. }
  assert (H2 : forall r, (b * k <? 2 * (r * k)) = (b <? 2 * r)).
  { intros r. destruct (Z.ltb_spec (b * k) (2 * (r * k))); destruct (Z.ltb_spec b (2 * r)); try reflexivity; nia. }
  now rewrite H, H2.
Qed.
Lemma log_scale n : US_SEC <= n -> Z.log2 (n * UNIT / US_SEC) = Z.log2 (n / US_SEC) + 1074.
Proof.
  intros H. pose proof sec_pos as HS. pose proof unit_pos as HU. pose proof (Z.div_mod n US_SEC ltac:(lia)) as HM.
  pose proof (Z.mod_pos_bound n US_SEC HS) as HB. set (q := n / US_SEC) in *. clearbody q.
  assert (HQ : 0 < q) by nia. destruct (Z.log2_spec q HQ) as (L1 & L2). pose proof (Z.log2_nonneg q) as L0.
  set (L := Z.log2 q) in *. clearbody L. apply Z.log2_unique; [lia|]. rewrite Z.pow_add_r by lia.
  replace (Z.succ (L + 1074)) with (Z.succ L + 1074) by lia. rewrite (Z.pow_add_r 2 (Z.succ L)) by lia.
  change (2 ^ 1074) with UNIT. set (A := 2 ^ L) in *. set (B := 2 ^ Z.succ L) in *. clearbody A B. split.
  - apply Z.div_le_lower_bound; [lia|]. rewrite HM. nia.
  - apply Z.div_lt_upper_bound; [lia|]. assert (n < US_SEC * B) by nia. nia.
Qed.
Lemma duration_same us : Z.abs us < 2 ^ 52 * US_SEC -> int_total_seconds (Z.abs us) = duration_total us.
Proof.
  intros H. pose proof sec_pos as HS. pose proof unit_pos as HU. unfold int_total_seconds. destruct (Z.ltb_spec (Z.abs us) US_SEC) as [L|L].
  - destruct (parts us ltac:(unfold US_SEC in *; lia)) as (r & HV & Hr & _). unfold duration_total, f_int. rewrite HV, part_int by assumption.
    rewrite Z.div_small by lia. reflexivity.
  - unfold duration_total, f_int, abs_seconds, rnd, double_of, float_exp. cbv zeta. rewrite log_scale by exact L.
    assert (HQ : 0 < Z.abs us / US_SEC) by (apply Z.div_str_pos; lia).
    assert (HL : 0 <= Z.log2 (Z.abs us / US_SEC) < 52).
    { split; [apply Z.log2_nonneg|]. apply Z.log2_lt_pow2; [exact HQ|]. apply Z.div_lt_upper_bound; lia. }
    set (l := Z.log2 (Z.abs us / US_SEC)) in *. clearbody l. rewrite Z.max_r by lia.
    assert (HE : UNIT = 2 ^ (52 - l) * 2 ^ (l + 1074 - 52)).
    { unfold UNIT. rewrite <- Z.pow_add_r by lia. f_equal. lia. }
    set (E := l + 1074 - 52) in *. assert (HE0 : 0 <= E < 2000) by (unfold E; lia). clearbody E.
    assert (HP : 0 < 2 ^ E) by (apply Z.pow_pos_nonneg; lia). assert (HP2 : 0 < 2 ^ (52 - l)) by (apply Z.pow_pos_nonneg; lia).
    replace (Z.abs us * UNIT) with (Z.abs us * 2 ^ (52 - l) * 2 ^ E) by (rewrite HE; ring). rewrite rhe_scale by assumption.
    set (m := round_half_even (Z.abs us * 2 ^ (52 - l)) US_SEC). clearbody m.
    assert (HD : m * 2 ^ E / UNIT = m / 2 ^ (52 - l)) by (rewrite HE; apply Z.div_mul_cancel_r; lia).
    destruct (Z.eqb_spec m (2 ^ 53)) as [Em|Em].
    + destruct (Z.ltb_spec 2045 (E + 1)); [lia|]. cbn [units]. rewrite <- HD. f_equal. rewrite Em, Z.pow_add_r by lia.
      change (2 ^ 53) with (2 ^ 52 * 2). ring.
    + destruct (Z.ltb_spec 2045 E); [lia|]. cbn [units]. symmetry. exact HD.
Qed.
Lemma td_small us : TD_MIN <= us <= TD_MAX -> Z.abs us < 2 ^ 52 * US_SEC.
Proof. unfold TD_MIN, TD_MAX, US_DAY, US_SEC. lia. Qed.
Lemma duration_spec us : TD_MIN <= us <= TD_MAX -> exists v, seconds_rounded us v /\
  duration_total us * 2 ^ 1074 <= v < (duration_total us + 1) * 2 ^ 1074.
Proof.
  intros H. apply td_small in H. destruct (abs_near us H) as (m & E & HE & HN & HT). exists (abs_seconds us).
  split; [exists m, E; auto|]. change (2 ^ 1074) with UNIT. unfold duration_total, f_int. pose proof unit_pos as HU.
  pose proof (Z.div_mod (abs_seconds us) UNIT ltac:(lia)). pose proof (Z.mod_pos_bound (abs_seconds us) UNIT HU). lia.
Qed.
Lemma rounded_once us v w : seconds_rounded us v -> seconds_rounded us w -> v = w.
Proof.
  intros (m & E & HN & HT & ->) (m' & E' & HN' & HT' & ->).
  pose proof (nearest_unique _ _ _ _ _ _ (eq_refl : 0 < 1000000) HN HT HN' HT') as Q. injection Q as -> ->. reflexivity.
Qed.
Lemma offset_spec_td us : TD_MIN <= us <= TD_MAX -> exists v, seconds_rounded us v /\
  clock_text (if us <? 0 then py "-" else py "+") v (offset_text us).
Proof. intros H. exact (offset_spec us (td_small us H)). Qed.
Lemma duration_same_td us : TD_MIN <= us <= TD_MAX -> int_total_seconds (Z.abs us) = duration_total us.
Proof. intros H. exact (duration_same us (td_small us H)). Qed.
Lemma offset_back us : Z.abs us < 360000 * US_SEC -> utcoffset_parse (offset_text us) = Ok (Z.quot us US_SEC * US_SEC).
Proof. intros H. rewrite offset_same by (unfold US_SEC in *; lia). exact (offset_roundtrip us H). Qed.
Lemma sign_kept us : TD_MIN <= us <= TD_MAX -> forall v, seconds_rounded us v -> (v = 0 <-> us = 0).
Proof.
  intros H v HV. apply td_small in H. destruct (abs_near us H) as (m & E & HE & HN & HT).
  assert (Q : v = abs_seconds us) by (apply (rounded_once us); [exact HV|exists m, E; auto]). rewrite Q.
  split; [exact (abs_zero us H)|]. intros ->. destruct (abs_mono 0 0 H ltac:(lia)) as (HA & HB). specialize (HA ltac:(lia)). specialize (HB ltac:(lia)). lia.
Qed.
