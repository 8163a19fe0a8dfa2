(** * Proofs about the texts of floats: the shortest number *)
From Verif Require Import M_Base P_Base M_Codec S_Codec P_Codec M_Float S_Float P_Float P_Float2 P_Float3 P_Float4 P_Float6 M_Repr S_Repr P_Repr.
From Coq Require Import Lia ZifyBool ZifyNat ZifyN.
Open Scope Z_scope.

Lemma dbl_eqb_spec x m E : dbl_eqb x m E = true <-> x = DFin m E.
Proof.
  destruct x as [| |m' E']; cbn [dbl_eqb]; [split; discriminate|split; discriminate|]. rewrite andb_true_iff, !Z.eqb_eq. split; [now intros (-> & ->)|now intros [= -> ->]].
Qed.
Definition chosen (m E q : Z) : option Z :=
  let '(c, c') := candidates m E q in
  if dbl_eqb (dec_double c q) m E then Some c else if dbl_eqb (dec_double c' q) m E then Some c' else None.
Definition dist (m E c q : Z) : Z := Z.abs (c * (UNIT * P10 q) - m * 2 ^ E * T).
(** If a multiple is read as the double, then a neighbouring one is. *)
Lemma chosen_complete m E q x : finite m E -> -400 <= q -> 0 <= x -> dec_double x q = DFin m E ->
  exists c, chosen m E q = Some c /\ dist m E c q <= dist m E x q.
Proof.
  intros HF Hq Hx HX. unfold chosen, dist. rewrite (candidates_scaled m E q Hq). cbv zeta. pose proof unit_pos as HU. pose proof T_pos as HT. pose proof (P10_pos q Hq) as HP.
  assert (HB : 0 < UNIT * P10 q) by nia. pose proof (rhe_spec (m * 2 ^ E * T) (UNIT * P10 q) HB) as HR.
  assert (Hv : 0 <= m * 2 ^ E) by (destruct HF as (Hm & HE & _); apply Z.mul_nonneg_nonneg; [lia|apply Z.pow_nonneg; lia]).
  pose proof (rhe_nearest (m * 2 ^ E * T) (UNIT * P10 q) x HB) as HN.
  pose proof (rhe_nonneg (m * 2 ^ E * T) (UNIT * P10 q) ltac:(nia) HB) as HC. set (c := round_half_even (m * 2 ^ E * T) (UNIT * P10 q)) in *. clearbody c.
  assert (SW : forall y, 0 <= y -> x <= y /\ y * (UNIT * P10 q) <= m * 2 ^ E * T \/ y <= x /\ m * 2 ^ E * T <= y * (UNIT * P10 q) -> dec_double y q = DFin m E).
  { intros y Hy HY. rewrite dec_double_scaled in * by easy. apply (sandwich (x * P10 q) T (y * P10 q) T m E); try easy; [nia|nia|]. fold UNIT.
    replace (y * P10 q * UNIT) with (y * (UNIT * P10 q)) by ring. clear - HY HT HP. set (v := m * 2 ^ E) in *. clearbody v.
    destruct HY as [(H1 & H2)|(H1 & H2)]; [left|right]; (split; [apply Z.mul_le_mono_nonneg_r; [lia|]; nia|easy]). }
  destruct (dbl_eqb (dec_double c q) m E) eqn:E0; [exists c; split; [easy|lia]|].
  assert (N0 : dec_double c q <> DFin m E) by (intros Q; apply dbl_eqb_spec in Q; congruence).
  set (B := UNIT * P10 q) in *. clearbody B. set (A := m * 2 ^ E * T) in *. assert (HA : 0 <= A) by (unfold A; nia). clearbody A.
  destruct (Z.leb_spec (c * B) A) as [L|L].
  - assert (x * B > A). { destruct (Z.le_gt_cases (x * B) A); [|lia]. exfalso. apply N0, SW; [easy|]. left. split; [nia|easy]. }
    assert (c + 1 <= x) by nia. assert (A <= (c + 1) * B) by nia.
    assert (dbl_eqb (dec_double (c + 1) q) m E = true) as -> by (apply dbl_eqb_spec, SW; [lia|right; lia]). exists (c + 1). split; [easy|]. nia.
  - assert (x * B < A). { destruct (Z.le_gt_cases A (x * B)); [|lia]. exfalso. apply N0, SW; [easy|]. right. split; [nia|lia]. }
    assert (x <= c - 1) by nia. assert ((c - 1) * B <= A) by nia.
    assert (dbl_eqb (dec_double (c - 1) q) m E = true) as -> by (apply dbl_eqb_spec, SW; [lia|left; lia]). exists (c - 1). split; [easy|]. nia.
Qed.
Lemma chosen_sound m E q c : finite m E -> 0 < m -> -400 <= q -> chosen m E q = Some c -> dec_double c q = DFin m E /\ 0 < c /\ Z.abs (c * (UNIT * P10 q) - m * 2 ^ E * T) <= UNIT * P10 q.
Proof.
  intros HF H0 Hq. unfold chosen. rewrite (candidates_scaled m E q Hq). cbv zeta. pose proof unit_pos as HU. pose proof T_pos as HT. pose proof (P10_pos q Hq) as HP.
  assert (HB : 0 < UNIT * P10 q) by nia. pose proof (rhe_spec (m * 2 ^ E * T) (UNIT * P10 q) HB) as HR.
  assert (Hv : 0 <= m * 2 ^ E) by (destruct HF as (Hm & HE & _); apply Z.mul_nonneg_nonneg; [lia|apply Z.pow_nonneg; lia]).
  pose proof (rhe_nonneg (m * 2 ^ E * T) (UNIT * P10 q) ltac:(nia) HB) as HC. set (c0 := round_half_even (m * 2 ^ E * T) (UNIT * P10 q)) in *. clearbody c0.
  assert (Z0 : dec_double 0 q <> DFin m E).
  { rewrite dec_double_scaled by easy. rewrite Z.mul_0_l. rewrite (double_exact 0 T 0 0); [intros [= Q _]; lia|lia|easy| |lia]. split; [now vm_compute|]. split; [lia|now left]. }
  assert (HA : 0 <= m * 2 ^ E * T) by nia. set (A := m * 2 ^ E * T) in *. clearbody A. set (B := UNIT * P10 q) in *. clearbody B.
  destruct (dbl_eqb (dec_double c0 q) m E) eqn:E0.
  - intros [= <-]. apply dbl_eqb_spec in E0. split; [easy|]. split; [|lia]. destruct (Z.eq_dec c0 0) as [->|]; [easy|lia].
  - set (c1 := if c0 * B <=? A then c0 + 1 else c0 - 1) in *. destruct (dbl_eqb (dec_double c1 q) m E) eqn:E1; [|discriminate]. intros [= <-]. apply dbl_eqb_spec in E1. split; [easy|].
    unfold c1 in *. destruct (Z.leb_spec (c0 * B) A); [split; [lia|nia]|]. split; [|nia]. assert (0 <= c0 - 1) by nia. destruct (Z.eq_dec (c0 - 1) 0) as [R|]; [rewrite R in E1; easy|lia].
Qed.
Lemma shortest_spec m E : forall fuel q0, chosen m E (q0 - Z.of_nat fuel) <> None ->
  exists c i, shortest fuel m E q0 = (c, q0 - Z.of_nat i) /\ (i <= fuel)%nat /\ chosen m E (q0 - Z.of_nat i) = Some c /\
    forall i', (i' < i)%nat -> chosen m E (q0 - Z.of_nat i') = None.
Proof.
  induction fuel as [|fuel IH]; intros q0 H; cbn [shortest]; pose proof (eq_refl (chosen m E q0)) as C; unfold chosen in C at 2;
    destruct (candidates m E q0) as [c c'] eqn:EC; destruct (dbl_eqb (dec_double c q0) m E) eqn:E0.
  - exists c, 0%nat. rewrite Z.sub_0_r. repeat split; [lia|easy|lia].
  - destruct (dbl_eqb (dec_double c' q0) m E) eqn:E1; [|rewrite Z.sub_0_r in H; congruence]. exists c', 0%nat. rewrite Z.sub_0_r. repeat split; [lia|easy|lia].
  - exists c, 0%nat. rewrite Z.sub_0_r. repeat split; [lia|easy|lia].
  - destruct (dbl_eqb (dec_double c' q0) m E) eqn:E1; [exists c', 0%nat; rewrite Z.sub_0_r; repeat split; [lia|easy|lia]|].
    destruct (IH (q0 - 1)) as (x & i & HS & Hi & HC & HL); [now replace (q0 - 1 - Z.of_nat fuel) with (q0 - Z.of_nat (S fuel)) by lia|].
    exists x, (S i). replace (q0 - Z.of_nat (S i)) with (q0 - 1 - Z.of_nat i) by lia. split; [easy|]. split; [lia|]. split; [easy|].
    intros [|i'] Hi'; [now rewrite Z.sub_0_r|]. replace (q0 - Z.of_nat (S i')) with (q0 - 1 - Z.of_nat i') by lia. apply HL. lia.
Qed.
(** Numbers of [j] digits that are read as the double give multiples of a power of ten that are. *)
Lemma short_multiple m E n d j : finite m E -> 0 < m -> 0 <= n -> 0 < d -> j <= 17 -> double_of n d = DFin m E -> short n d j ->
  let q := magnitude m E - j in 1 <= j /\ exists x, 0 <= x /\ dec_double x q = DFin m E /\ not_farther m E (x * P10 q) T n d.
Proof.
  intros HF H0 Hn Hd Hj HD (a & e & e' & He & He' & Ha & HE) q. destruct (magnitude_spec m E HF H0) as (HK & HL & HH). fold UNIT. pose proof unit_pos as HU. pose proof T_pos as HT.
  assert (HE10 : 0 < 10 ^ e) by (apply Z.pow_pos_nonneg; lia). assert (HE10' : 0 < 10 ^ e') by (apply Z.pow_pos_nonneg; lia).
  assert (Ha0 : 0 < a).
  { destruct (Z.eq_dec a 0) as [->|]; [|lia]. exfalso. assert (n = 0) by nia. subst n. rewrite (double_exact 0 d 0 0) in HD; [injection HD as Q _; lia|lia|easy| |lia]. split; [now vm_compute|]. split; [lia|now left]. }
  assert (Hj1 : 1 <= j). { destruct (Z.le_gt_cases 1 j); [easy|exfalso]. assert (j = 0 \/ j < 0) as [->|] by lia; [rewrite Z.pow_0_r in Ha; lia|rewrite Z.pow_neg_r in Ha; lia]. }
  split; [easy|]. assert (Hq : -400 <= q) by (unfold q; lia). pose proof (P10_pos q Hq) as HP. set (K := magnitude m E) in *. clearbody K.
  destruct (Z.le_gt_cases (P10 (K - 1) * d) (n * T)) as [L|L].
  - (* a multiple itself *)
    assert (HQ : q <= e' - e).
    { destruct (Z.le_gt_cases q (e' - e)) as [|G]; [easy|exfalso].
      assert (H1 : a * 10 ^ e' < 10 ^ (j + e')) by (rewrite Z.pow_add_r by lia; apply Z.mul_lt_mono_pos_r; lia).
      assert (H2 : 10 ^ (j + e') <= 10 ^ (K - 1 + e)) by (apply Z.pow_le_mono_r; lia).
      assert (H3 : P10 (K - 1) * 10 ^ e = 10 ^ (K - 1 + e) * T) by (unfold P10, T; rewrite <- !Z.pow_add_r by lia; f_equal; lia).
      assert (H4 : n * 10 ^ e < 10 ^ (K - 1 + e) * d) by (rewrite HE; apply Z.mul_lt_mono_pos_r; lia).
      apply (Z.mul_le_mono_nonneg_r _ _ (10 ^ e) ltac:(lia)) in L. replace (P10 (K - 1) * d * 10 ^ e) with (P10 (K - 1) * 10 ^ e * d) in L by ring. rewrite H3 in L.
      replace (n * T * 10 ^ e) with (n * 10 ^ e * T) in L by ring. set (y := n * 10 ^ e) in *. set (z := 10 ^ (K - 1 + e)) in *. clearbody y z. set (t := T) in *. clearbody t. nia. }
    exists (a * 10 ^ (e' - e - q)). assert (HX : a * 10 ^ (e' - e - q) * P10 q * d = n * T).
    { apply (Z.mul_reg_r _ _ (10 ^ e) ltac:(lia)). replace (n * T * 10 ^ e) with (n * 10 ^ e * T) by ring. rewrite HE.
      replace (a * 10 ^ (e' - e - q) * P10 q * d * 10 ^ e) with (a * (10 ^ (e' - e - q) * P10 q * 10 ^ e) * d) by ring. unfold P10, T. rewrite <- !Z.pow_add_r by lia.
      replace (e' - e - q + (q + 400) + e) with (e' + 400) by lia. rewrite Z.pow_add_r by lia. ring. }
    assert (HPX : 0 <= a * 10 ^ (e' - e - q)) by (apply Z.mul_nonneg_nonneg; [lia|apply Z.pow_nonneg; lia]). set (x := a * 10 ^ (e' - e - q)) in *. clearbody x.
    split; [easy|]. split.
    + rewrite dec_double_scaled by easy. rewrite <- (double_scale _ T d) by easy. rewrite HX, (Z.mul_comm T d), double_scale by easy. exact HD.
    + unfold not_farther. fold UNIT. rewrite !abs_mul_pos by easy. apply Z.eq_le_incl. f_equal.
      replace ((x * P10 q * UNIT - m * 2 ^ E * T) * d) with (x * P10 q * d * UNIT - m * 2 ^ E * T * d) by ring. rewrite HX. ring.
  - (* the power of ten below the double is nearer *)
    exists (10 ^ (j - 1)). assert (EX : 10 ^ (j - 1) * P10 q = P10 (K - 1)) by (unfold P10, q; rewrite <- Z.pow_add_r by lia; f_equal; lia).
    assert (0 < P10 (K - 1)) by (apply P10_pos; lia).
    split; [apply Z.pow_nonneg; lia|]. split.
    + rewrite dec_double_scaled, EX by easy. apply (sandwich n d (P10 (K - 1)) T m E); try easy; [lia|]. left. split; [lia|exact HL].
    + rewrite EX. unfold not_farther. fold UNIT. set (v := m * 2 ^ E) in *. set (p := P10 (K - 1)) in *. clearbody v p. rewrite !abs_mul_pos by easy. clear - L HL HU HT Hd.
      apply (Z.mul_le_mono_nonneg_r _ _ d ltac:(lia)) in HL. apply (Z.mul_lt_mono_pos_r UNIT) in L; [|easy].
      replace ((p * UNIT - v * T) * d) with (p * UNIT * d - v * T * d) by ring. replace ((n * UNIT - v * d) * T) with (n * T * UNIT - v * T * d) by ring. replace (p * d * UNIT) with (p * UNIT * d) in L by ring. lia.
Qed.
Lemma drop_zeros_spec fuel : forall c q, 0 <= c -> exists z, 0 <= z /\ 0 <= fst (drop_zeros fuel c q) <= c /\ snd (drop_zeros fuel c q) = q + z /\ c = fst (drop_zeros fuel c q) * 10 ^ z.
Proof.
  induction fuel as [|fuel IH]; intros c q Hc; cbn [drop_zeros]; [exists 0; cbn [fst snd]; rewrite Z.pow_0_r; lia|].
  destruct (Z.ltb_spec 0 c); [destruct (Z.eqb_spec (c mod 10) 0) as [HM|]|]; cbn [andb]; try (exists 0; cbn [fst snd]; rewrite Z.pow_0_r; lia).
  pose proof (Z.div_mod c 10 ltac:(lia)) as HD. assert (0 <= c / 10) by (apply Z.div_pos; lia). destruct (IH (c / 10) (q + 1) ltac:(easy)) as (z & Hz & HB & HS & HE).
  exists (z + 1). rewrite HS. split; [lia|]. split; [lia|]. split; [lia|]. rewrite Z.pow_add_r by lia. change (10 ^ 1) with 10. rewrite HM in HD. rewrite HE in HD at 1. nia.
Qed.
Lemma drop_zeros_trim fuel : forall c q, 0 < c < 10 ^ Z.of_nat fuel -> fst (drop_zeros fuel c q) mod 10 <> 0.
Proof.
  induction fuel as [|fuel IH]; intros c q Hc; cbn [drop_zeros]; [cbn in Hc; lia|].
  destruct (Z.ltb_spec 0 c); [|lia]. destruct (Z.eqb_spec (c mod 10) 0) as [HM|]; cbn [andb]; [|easy].
  pose proof (Z.div_mod c 10 ltac:(lia)) as HD. apply IH. rewrite Nat2Z.inj_succ, Z.pow_succ_r in Hc by lia. lia.
Qed.
Lemma digits_spec m E : finite m E -> 0 < m -> exists c q j, digits m E = (c, q) /\ -400 <= q /\ 0 < c < 10 ^ j /\ dec_double c q = DFin m E /\
  (forall n d j', 0 <= n -> 0 < d -> double_of n d = DFin m E -> short n d j' -> j <= j') /\
  (forall n d, 0 <= n -> 0 < d -> double_of n d = DFin m E -> short n d j -> not_farther m E (c * P10 q) T n d) /\ c mod 10 <> 0.
Proof.
  intros HF H0. destruct (magnitude_spec m E HF H0) as (HK & HL & HH). set (K := magnitude m E) in *.
  assert (HC17 : chosen m E (K - 1 - Z.of_nat 16) <> None).
  { replace (K - 1 - Z.of_nat 16) with (K - 17) by lia. destruct (chosen_complete m E (K - 17) (round_half_even (m * 2 ^ E * T) (UNIT * P10 (K - 17)))) as (c & -> & _); try easy; [lia| |].
    - apply rhe_nonneg; [|apply Z.mul_pos_pos; [apply unit_pos|apply P10_pos; lia]]. destruct HF as (Hm & HE & _). apply Z.mul_nonneg_nonneg; [apply Z.mul_nonneg_nonneg; [lia|apply Z.pow_nonneg; lia]|apply Z.lt_le_incl, T_pos].
    - apply seventeen; easy. }
  destruct (shortest_spec m E 16 (K - 1) HC17) as (c & i & HS & Hi & HC & HM). set (k := Z.of_nat i + 1). replace (K - 1 - Z.of_nat i) with (K - k) in * by (unfold k; lia).
  assert (Hk : 1 <= k <= 17) by (unfold k; lia). destruct (chosen_sound m E (K - k) c HF H0 ltac:(lia) HC) as (HR & Hc & HDist).
  assert (HM' : forall j, 1 <= j < k -> chosen m E (K - j) = None). { intros j Hj. replace (K - j) with (K - 1 - Z.of_nat (Z.to_nat (j - 1))) by lia. apply HM. unfold k in Hj. lia. }
  (* at most k digits, or ten to the K *)
  assert (Hc10 : c <= 10 ^ k).
  { pose proof (P10_pos (K - k) ltac:(lia)) as HP. pose proof unit_pos as HU. replace K with (K - k + k) in HH at 1 by lia. rewrite P10_add in HH by lia. set (B := P10 (K - k)) in *. clearbody B. set (A := m * 2 ^ E * T) in *. clearbody A. set (U := UNIT) in *. clearbody U. set (X := 10 ^ k) in *. clearbody X.
    clear - HH HDist HP HU. assert (0 < U * B) by nia. replace (B * X * U) with (X * (U * B)) in HH by ring. set (W := U * B) in *. clearbody W. nia. }
  assert (MIN : forall n d j', 0 <= n -> 0 < d -> double_of n d = DFin m E -> short n d j' -> k <= j').
  { intros n d j' Hn Hd HD HSh. destruct (Z.le_gt_cases k j'); [easy|exfalso]. destruct (short_multiple m E n d j' HF H0 Hn Hd ltac:(lia) HD HSh) as (Hj & x & Hx & HX & _).
    fold K in HX. destruct (chosen_complete m E (K - j') x HF ltac:(lia) Hx HX) as (y & HY & _). rewrite HM' in HY by lia. discriminate. }
  assert (NEAR : forall n d, 0 <= n -> 0 < d -> double_of n d = DFin m E -> short n d k -> not_farther m E (c * P10 (K - k)) T n d).
  { intros n d Hn Hd HD HSh. destruct (short_multiple m E n d k HF H0 Hn Hd ltac:(lia) HD HSh) as (_ & x & Hx & HX & HNF). fold K in HX, HNF.
    destruct (chosen_complete m E (K - k) x HF ltac:(lia) Hx HX) as (y & HY & HDY). rewrite HC in HY. injection HY as <-. unfold dist in HDY. unfold not_farther in *. fold UNIT in *.
    pose proof T_pos as HT. replace (x * (UNIT * P10 (K - k))) with (x * P10 (K - k) * UNIT) in HDY by ring. replace (c * (UNIT * P10 (K - k))) with (c * P10 (K - k) * UNIT) in HDY by ring.
    eapply Z.le_trans; [|exact HNF]. apply Z.mul_le_mono_nonneg_r; [lia|exact HDY]. }
  destruct (drop_zeros_spec 20 c (K - k) ltac:(lia)) as (z & Hz & HB & HZ & HE). set (r := drop_zeros 20 c (K - k)) in *.
  assert (ER : drop_zeros 20 c (K - k) = (fst r, snd r)) by (unfold r; apply surjective_pairing).
  assert (VAL : fst r * P10 (snd r) = c * P10 (K - k)). { rewrite HZ, P10_add by lia. replace (c * P10 (K - k)) with (fst r * 10 ^ z * P10 (K - k)) by (now rewrite <- HE). ring. }
  exists (fst r), (snd r), k. unfold digits. destruct (Z.eqb_spec m 0); [lia|]. fold K. rewrite HS. fold r. split; [apply surjective_pairing|].
  split; [rewrite HZ; lia|]. split; [split|].
  - destruct (Z.eq_dec (fst r) 0) as [Q|]; [|lia]. rewrite Q in HE. lia.
  - destruct (Z.eq_dec c (10 ^ k)) as [EC|]; [|lia].
    assert (k = 1).
    { destruct (Z.eq_dec k 1) as [|NK]; [easy|exfalso]. assert (HX : dec_double 10 (K - 1) = DFin m E).
      { rewrite dec_double_scaled in * by lia. rewrite <- HR, EC. f_equal. unfold P10. change 10 with (10 ^ 1) at 1. rewrite <- !Z.pow_add_r by lia. f_equal. lia. }
      destruct (chosen_complete m E (K - 1) 10 HF ltac:(lia) ltac:(lia) HX) as (y & HY & _). rewrite HM' in HY by lia. discriminate. }
    assert (c = 10) by (rewrite EC, H; reflexivity). unfold r. rewrite H1, H. reflexivity.
  - split; [rewrite dec_double_scaled in * by lia; rewrite VAL; exact HR|]. split; [exact MIN|]. rewrite VAL. split; [exact NEAR|]. unfold r. apply drop_zeros_trim. split; [easy|]. apply (Z.le_lt_trans _ _ _ Hc10). apply Z.pow_lt_mono_r; lia.
Qed.
