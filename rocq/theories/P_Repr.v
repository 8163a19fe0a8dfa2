(** * Proofs about the texts of floats: which decimal numbers are read as a double *)
From Verif Require Import M_Base P_Base M_Codec S_Codec P_Codec M_Float S_Float P_Float P_Float2 P_Float3 P_Float4 P_Float6 M_Repr.
From Coq Require Import Lia ZifyBool ZifyNat ZifyN.
Open Scope Z_scope.

(** ** Numbers between a double and a number read as it *)
Lemma abs_mul_pos a c : 0 < c -> Z.abs a * c = Z.abs (a * c).
Proof. intros. rewrite Z.abs_mul, (Z.abs_eq c); lia. Qed.
Lemma closer n d n' d' m E : 0 < d -> 0 < d' -> nearest n d m E -> even_tie n d m E ->
  (n * d' <= n' * d /\ n' * 2 ^ 1074 <= m * 2 ^ E * d' \/ n' * d <= n * d' /\ m * 2 ^ E * d' <= n' * 2 ^ 1074) ->
  nearest n' d' m E /\ even_tie n' d' m E.
Proof.
  intros Hd Hd' (HF & HN) HT HB. fold UNIT in *. pose proof unit_pos as HU.
  assert (K : forall m' E', finite m' E' -> Z.abs (m * 2 ^ E * d' - n' * UNIT) <= Z.abs (m' * 2 ^ E' * d' - n' * UNIT) /\
    (m * 2 ^ E <> m' * 2 ^ E' -> Z.abs (m * 2 ^ E * d' - n' * UNIT) = Z.abs (m' * 2 ^ E' * d' - n' * UNIT) ->
     Z.abs (m * 2 ^ E * d - n * UNIT) = Z.abs (m' * 2 ^ E' * d - n * UNIT))).
  { intros m' E' HF'. specialize (HN m' E' HF'). clear HT HF. fold UNIT in HN. set (v := m * 2 ^ E) in *. set (w := m' * 2 ^ E') in *. set (U := UNIT) in *. clearbody v w U.
    apply (Z.mul_le_mono_nonneg_r _ _ d' ltac:(lia)) in HN. rewrite !abs_mul_pos, !Z.mul_sub_distr_r in HN by lia.
    assert (X : v * d * d' = v * d' * d /\ w * d * d' = w * d' * d /\ n * U * d' = n * d' * U /\ n' * U * d = n' * d * U) by (repeat split; ring).
    assert (Y : n * d' * U <= n' * d * U /\ n' * U * d <= v * d' * d \/ n' * d * U <= n * d' * U /\ v * d' * d <= n' * U * d).
    { destruct HB as [(B1 & B2)|(B1 & B2)]; [left|right]; (split; [apply Z.mul_le_mono_nonneg_r; lia|apply Z.mul_le_mono_nonneg_r; lia]). }
    assert (G : Z.abs (v * d' * d - n' * U * d) <= Z.abs (w * d' * d - n' * U * d)) by lia.
    split.
    - apply (Z.mul_le_mono_pos_r _ _ d Hd). rewrite !abs_mul_pos, !Z.mul_sub_distr_r by lia. exact G.
    - intros NE Q. apply (f_equal (fun x => x * d)) in Q. cbv beta in Q. rewrite !abs_mul_pos, !Z.mul_sub_distr_r in Q by lia.
      apply (Z.mul_reg_r _ _ d' ltac:(lia)). rewrite !abs_mul_pos, !Z.mul_sub_distr_r by lia.
      assert (NE' : v * d' * d <> w * d' * d). { intros R. apply Z.mul_reg_r in R; [|lia]. apply Z.mul_reg_r in R; [|lia]. easy. }
      lia. }
  split; [split; [easy|]; intros; now apply K|]. intros m' E' HF' NE Q. apply (HT m' E' HF' NE). apply (K m' E' HF'); [|exact Q].
  intros R. destruct (finite_value _ _ _ _ HF HF' R) as (-> & ->). now apply NE.
Qed.
Lemma double_determined n d m E : 0 <= n -> 0 < d -> ~ too_large n d -> nearest n d m E -> even_tie n d m E -> double_of n d = DFin m E.
Proof.
  intros Hn Hd HL HN HT. pose proof (double_inf n d Hn Hd) as HI. destruct (double_of n d) as [| |m' E'] eqn:ED.
  - now apply double_not_nan in ED.
  - exfalso. now apply HL, HI.
  - pose proof (nearest_unique n d m E m' E' Hd HN HT (double_nearest _ _ _ _ Hn Hd ED) (double_even _ _ _ _ Hn Hd ED)) as [= -> ->]. reflexivity.
Qed.
Lemma not_too_large n d m E : 0 <= n -> 0 < d -> double_of n d = DFin m E -> ~ too_large n d.
Proof. intros Hn Hd HD HL. apply double_inf in HL; [congruence|easy|easy]. Qed.
Lemma sandwich n d n' d' m E : 0 <= n -> 0 < d -> 0 <= n' -> 0 < d' -> double_of n d = DFin m E ->
  (n * d' <= n' * d /\ n' * 2 ^ 1074 <= m * 2 ^ E * d' \/ n' * d <= n * d' /\ m * 2 ^ E * d' <= n' * 2 ^ 1074) ->
  double_of n' d' = DFin m E.
Proof.
  intros Hn Hd Hn' Hd' HD HB. pose proof (double_nearest _ _ _ _ Hn Hd HD) as HN. pose proof (double_even _ _ _ _ Hn Hd HD) as HT.
  destruct (closer n d n' d' m E Hd Hd' HN HT HB) as (HN' & HT'). apply double_determined; try easy. intros HL.
  destruct HB as [(_ & HB)|(HB & _)].
  - pose proof HN as (HF & _). destruct (double_not_inf n' d' m E Hn' Hd' HF HB) as (x & y & Q). now apply (not_too_large n' d' x y).
  - apply (not_too_large _ _ _ _ Hn Hd HD). unfold too_large in *. set (T := (2 ^ 54 - 1) * 2 ^ 970) in *. clearbody T. nia.
Qed.

(** ** 17 digits *)
Lemma gap m E m' E' : finite m E -> finite m' E' -> m * 2 ^ E <> m' * 2 ^ E' -> m * 2 ^ E <= Z.abs (m * 2 ^ E - m' * 2 ^ E') * 2 ^ 53.
Proof.
  intros (Hm & HE & HD) HF' NE. assert (HP : 0 < 2 ^ E) by (apply Z.pow_pos_nonneg; lia).
  assert (H53 : 2 ^ 53 = 2 * 2 ^ 52) by reflexivity. assert (0 < 2 ^ 52) by now vm_compute.
  destruct (Z.le_gt_cases E E') as [L|L].
  - assert (EW : exists k, m' * 2 ^ E' = k * 2 ^ E).
    { exists (m' * 2 ^ (E' - E)). rewrite <- Z.mul_assoc, <- Z.pow_add_r by lia. do 2 f_equal. lia. }
    destruct EW as (k & EW). rewrite EW in *. rewrite <- Z.mul_sub_distr_r, <- abs_mul_pos by easy.
    assert (1 <= Z.abs (m - k)). { destruct (Z.eq_dec m k) as [->|]; [now elim NE|lia]. }
    set (a := Z.abs (m - k)) in *. set (A := 2 ^ E) in *. set (P := 2 ^ 53) in *. clearbody a A P. clear - H0 Hm HP.
    apply Z.le_trans with (1 * A * P); [rewrite Z.mul_1_l, (Z.mul_comm A); apply Z.mul_le_mono_nonneg_r; lia|]. apply Z.mul_le_mono_nonneg_r; [lia|]. apply Z.mul_le_mono_nonneg_r; lia.
  - destruct HD as [->|HD]; [destruct HF' as (_ & HE' & _); lia|]. destruct HF' as (Hm' & HE' & _).
    replace E with (E' + (1 + (E - E' - 1))) in * by lia. rewrite !(Z.pow_add_r 2 E'), (Z.pow_add_r 2 1) in * by lia. change (2 ^ 1) with 2 in *.
    assert (1 <= 2 ^ (E - E' - 1)) by (apply (Z.pow_le_mono_r 2 0); lia). assert (0 < 2 ^ E') by (apply Z.pow_pos_nonneg; lia).
    rewrite H53 in *. set (P := 2 ^ 52) in *. set (A := 2 ^ E') in *. set (B := 2 ^ (E - E' - 1)) in *. clearbody P A B.
    replace (m * (A * (2 * B))) with (m * (2 * B) * A) in * by ring. rewrite <- Z.mul_sub_distr_r, <- abs_mul_pos by easy.
    assert (2 * P <= m * (2 * B)) by nia. set (x := m * (2 * B)) in *. clearbody x. rewrite Z.abs_eq by lia. clear - Hm' H H1 H2.
    assert (0 <= (2 * P - 1) * (x - 2 * P)) by (apply Z.mul_nonneg_nonneg; lia). assert ((x - 2 * P + 1) * (2 * P) <= (x - m') * (2 * P)) by (apply Z.mul_le_mono_nonneg_r; lia).
    replace ((x - m') * A * (2 * P)) with ((x - m') * (2 * P) * A) by ring. apply Z.mul_le_mono_nonneg_r; lia.
Qed.

(** ** All numbers as fractions with the same denominator *)
Definition T : Z := 10 ^ 400.
Definition P10 (q : Z) : Z := 10 ^ (q + 400).
Lemma T_pos : 0 < T.
Proof. apply Z.pow_pos_nonneg; lia. Qed.
Lemma P10_pos q : -400 <= q -> 0 < P10 q.
Proof. intros. apply Z.pow_pos_nonneg; lia. Qed.
Lemma P10_add q k : -400 <= q -> 0 <= k -> P10 (q + k) = P10 q * 10 ^ k.
Proof. intros. unfold P10. rewrite <- Z.pow_add_r by lia. f_equal. lia. Qed.
Lemma P10_nonneg q : 0 <= q -> P10 q = 10 ^ q * T.
Proof. intros. unfold P10, T. rewrite <- Z.pow_add_r by lia. reflexivity. Qed.
Lemma P10_neg q : -400 <= q <= 0 -> 10 ^ (- q) * P10 q = T.
Proof. intros. unfold P10, T. rewrite <- Z.pow_add_r by lia. f_equal. lia. Qed.
Lemma dec_double_scaled c q : -400 <= q -> dec_double c q = double_of (c * P10 q) T.
Proof.
  intros Hq. unfold dec_double. pose proof T_pos. destruct (Z.leb_spec 0 q).
  - rewrite P10_nonneg by lia. rewrite Z.mul_assoc. rewrite <- (Z.mul_1_l T) at 2. rewrite double_scale by lia. reflexivity.
  - rewrite <- (P10_neg q) by lia. rewrite double_scale; [reflexivity|apply Z.pow_pos_nonneg; lia|now apply P10_pos].
Qed.
Lemma candidates_scaled m E q : -400 <= q -> let A := m * 2 ^ E * T in let B := UNIT * P10 q in let c := round_half_even A B in
  candidates m E q = (c, if c * B <=? A then c + 1 else c - 1).
Proof.
  intros Hq A B c. unfold candidates, c, A, B. clear c A B. pose proof unit_pos as HU. pose proof T_pos as HT. destruct (Z.leb_spec 0 q) as [L|L].
  - rewrite P10_nonneg by easy. assert (0 < UNIT * 10 ^ q) by (apply Z.mul_pos_pos; [easy|apply Z.pow_pos_nonneg; lia]).
    rewrite (Z.mul_assoc UNIT). rewrite rhe_scale by easy. set (c := round_half_even _ _). set (b := UNIT * 10 ^ q) in *. set (a := m * 2 ^ E). clearbody a b c. set (t := T) in *. clearbody t.
    assert ((c * b <=? a) = (c * (b * t) <=? a * t)) as -> by (destruct (Z.leb_spec (c * b) a), (Z.leb_spec (c * (b * t)) (a * t)); (reflexivity || nia)). reflexivity.
  - pose proof (P10_pos q Hq) as HP. rewrite <- (P10_neg q) by lia. rewrite Z.mul_assoc. rewrite rhe_scale by easy.
    set (c := round_half_even _ _). set (a := m * 2 ^ E * 10 ^ (- q)). set (b := UNIT) in *. clearbody a b c. set (t := P10 q) in *. clearbody t.
    assert ((c * b <=? a) = (c * (b * t) <=? a * t)) as -> by (destruct (Z.leb_spec (c * b) a), (Z.leb_spec (c * (b * t)) (a * t)); (reflexivity || nia)). reflexivity.
Qed.
Lemma dec_bounds n : (0 < n)%N -> (10 ^ (N.of_nat (length (dec n)) - 1) <= n < 10 ^ N.of_nat (length (dec n)))%N.
Proof.
  intros Hn. split.
  - destruct (N.le_gt_cases (10 ^ (N.of_nat (length (dec n)) - 1)) n) as [|L]; [easy|exfalso].
    destruct (length (dec n)) as [|[|k]] eqn:EL; [destruct (dec n) eqn:ED; [now apply dec_nonempty in ED|discriminate]|change (N.of_nat 1 - 1)%N with 0%N in L; cbn in L; lia|].
    replace (N.of_nat (S (S k)) - 1)%N with (N.of_nat (S k)) in L by lia. apply dec_length in L. lia.
  - rewrite <- (undec_dec n) at 1. apply undec_bound, dec_digits.
Qed.
Lemma magnitude_spec m E : finite m E -> 0 < m -> -329 <= magnitude m E /\
  P10 (magnitude m E - 1) * UNIT <= m * 2 ^ E * T < P10 (magnitude m E) * UNIT.
Proof.
  intros (Hm & HE & _) H0. unfold magnitude. pose proof unit_pos as HU. assert (1 <= m * 2 ^ E). { assert (0 < 2 ^ E) by (apply Z.pow_pos_nonneg; lia). nia. }
  set (v := m * 2 ^ E) in *. clearbody v. assert (HQ : 1 <= v * 10 ^ 330 / UNIT).
  { apply Z.div_le_lower_bound; [easy|]. rewrite Z.mul_1_r. apply Z.le_trans with (1 * 10 ^ 330); [now vm_compute|]. apply Z.mul_le_mono_nonneg_r; [apply Z.pow_nonneg; lia|lia]. }
  pose proof (Z.div_mod (v * 10 ^ 330) UNIT ltac:(lia)) as D1. pose proof (Z.mod_pos_bound (v * 10 ^ 330) UNIT HU) as D2.
  set (x := v * 10 ^ 330 / UNIT) in *. set (r := (v * 10 ^ 330) mod UNIT) in *. clearbody x r.
  pose proof (dec_bounds (Z.to_N x) ltac:(lia)) as HB. pose proof (dec_nonempty (Z.to_N x)) as HNE. set (len := length (dec (Z.to_N x))) in *.
  assert (1 <= Z.of_nat len) by (unfold len; destruct (dec (Z.to_N x)); [easy|cbn [length]; lia]). clearbody len. clear HNE.
  assert (HB' : 10 ^ (Z.of_nat len - 1) <= x < 10 ^ Z.of_nat len).
  { split; [apply proj1 in HB|apply proj2 in HB].
    - apply N2Z.inj_le in HB. rewrite N2Z.inj_pow, Z2N.id, N2Z.inj_sub, nat_N_Z in HB by lia. exact HB.
    - apply N2Z.inj_lt in HB. rewrite N2Z.inj_pow, Z2N.id, nat_N_Z in HB by lia. exact HB. }
  split; [lia|]. assert (ET : T = 10 ^ 330 * 10 ^ 70) by (unfold T; now rewrite <- Z.pow_add_r).
  assert (E1 : P10 (Z.of_nat len - 330 - 1) = 10 ^ (Z.of_nat len - 1) * 10 ^ 70) by (unfold P10; rewrite <- Z.pow_add_r by lia; f_equal; lia).
  assert (E2 : P10 (Z.of_nat len - 330) = 10 ^ Z.of_nat len * 10 ^ 70) by (unfold P10; rewrite <- Z.pow_add_r by lia; f_equal; lia).
  rewrite ET, E1, E2. assert (0 < 10 ^ 70) by now vm_compute. set (s := 10 ^ 70) in *. set (y := 10 ^ 330) in *. set (l := 10 ^ (Z.of_nat len - 1)) in *. set (h := 10 ^ Z.of_nat len) in *. set (U := UNIT) in *.
  clearbody s y l h U. clear - D1 D2 HB' H2 HU. rewrite (Z.mul_assoc v), D1. split.
  - replace (l * s * U) with (U * l * s) by ring. apply Z.mul_le_mono_nonneg_r; [lia|]. nia.
  - replace (h * s * U) with (U * h * s) by ring. apply Z.mul_lt_mono_pos_r; [lia|]. nia.
Qed.
(** With 17 digits the nearest number is read as the double. *)
Lemma seventeen m E : finite m E -> 0 < m -> let q := magnitude m E - 17 in
  dec_double (round_half_even (m * 2 ^ E * T) (UNIT * P10 q)) q = DFin m E.
Proof.
  intros HF H0 q. destruct (magnitude_spec m E HF H0) as (HK & HL & _). assert (Hq : -400 <= q) by (unfold q; lia).
  rewrite dec_double_scaled by easy. pose proof unit_pos as HU. pose proof T_pos as HT. pose proof (P10_pos q Hq) as HP.
  assert (HB : 0 < UNIT * P10 q) by nia. pose proof (rhe_spec (m * 2 ^ E * T) (UNIT * P10 q) HB) as HR.
  assert (Hv : 0 <= m * 2 ^ E) by (apply Z.mul_nonneg_nonneg; [lia|apply Z.pow_nonneg; lia]).
  pose proof (rhe_nonneg (m * 2 ^ E * T) (UNIT * P10 q) ltac:(nia) HB) as HC. set (c := round_half_even (m * 2 ^ E * T) (UNIT * P10 q)) in *. clearbody c.
  replace (magnitude m E - 1) with (q + 16) in HL by (unfold q; lia). rewrite P10_add in HL by lia.
  (* the error is at most a part in 2 * 10 ^ 16 *)
  assert (HX : 2 * 10 ^ 16 * Z.abs (m * 2 ^ E * T - c * P10 q * UNIT) <= m * 2 ^ E * T).
  { replace (c * P10 q * UNIT) with (c * (UNIT * P10 q)) by ring. set (a := Z.abs _) in *. clearbody a.
    replace (P10 q * 10 ^ 16 * UNIT) with (10 ^ 16 * (UNIT * P10 q)) in HL by ring. set (b := UNIT * P10 q) in *. clearbody b. set (A := m * 2 ^ E * T) in *. clearbody A. nia. }
  assert (H16 : 0 < 2 ^ 53 < 10 ^ 16) by now vm_compute.
  assert (HS : forall m' E', finite m' E' -> m * 2 ^ E <> m' * 2 ^ E' -> Z.abs (m * 2 ^ E * T - c * P10 q * UNIT) < Z.abs (m' * 2 ^ E' * T - c * P10 q * UNIT)).
  { intros m' E' HF' NE. pose proof (gap m E m' E' HF HF' NE) as HG. set (v := m * 2 ^ E) in *. set (w := m' * 2 ^ E') in *. set (x := c * P10 q * UNIT) in *. clearbody v w x.
    apply (Z.mul_le_mono_nonneg_r _ _ T ltac:(lia)) in HG. replace (Z.abs (v - w) * 2 ^ 53 * T) with (Z.abs (v - w) * T * 2 ^ 53) in HG by ring.
    rewrite abs_mul_pos, Z.mul_sub_distr_r in HG by easy. assert (0 < Z.abs (v * T - w * T)) by (rewrite <- Z.mul_sub_distr_r, <- abs_mul_pos by easy; nia).
    set (vT := v * T) in *. set (wT := w * T) in *. clearbody vT wT. set (P := 2 ^ 53) in *. set (HH := 10 ^ 16) in *. clearbody P HH.
    assert (Z.abs (vT - wT) * P < Z.abs (vT - wT) * HH) by nia. assert (2 * Z.abs (vT - x) < Z.abs (vT - wT)) by (apply (Z.mul_lt_mono_pos_r HH); [lia|]; lia). lia. }
  fold UNIT. apply double_determined; [nia|easy| | |].
  - intros HT'. unfold too_large in HT'.
    assert (HM : m * 2 ^ E <= (2 ^ 53 - 1) * 2 ^ 2045).
    { destruct HF as (Hm & HE & _). apply Z.mul_le_mono_nonneg; [lia|lia|apply Z.pow_nonneg; lia|apply Z.pow_le_mono_r; lia]. }
    assert (HQ : (2 ^ 54 - 1) * 2 ^ 2044 * T <= c * P10 q * UNIT).
    { replace 2044 with (970 + 1074) by lia. rewrite (pow_split 970) by lia. fold UNIT. apply (Z.mul_le_mono_nonneg_r _ _ UNIT ltac:(lia)) in HT'. 
      replace ((2 ^ 54 - 1) * (2 ^ 970 * UNIT) * T) with ((2 ^ 54 - 1) * 2 ^ 970 * T * UNIT) by ring. exact HT'. }
    clear HT' HS HR. set (x := c * P10 q * UNIT) in *. set (v := m * 2 ^ E) in *. clearbody x v.
    replace 2045 with (1 + 2044) in HM by lia. rewrite (pow_split 1) in HM by lia. change (2 ^ 1) with 2 in HM. assert (0 < 2 ^ 2044) by (apply Z.pow_pos_nonneg; lia). set (G := 2 ^ 2044) in *. clearbody G.
    apply (Z.mul_le_mono_nonneg_r _ _ T ltac:(lia)) in HM. set (vT := v * T) in *. clearbody vT. assert (HGT : 0 < G * T) by nia.
    replace ((2 ^ 53 - 1) * (2 * G) * T) with ((2 ^ 54 - 2) * (G * T)) in HM by ring. replace ((2 ^ 54 - 1) * G * T) with ((2 ^ 54 - 1) * (G * T)) in HQ by ring.
    set (g := G * T) in *. clearbody g. change (2 ^ 54) with 18014398509481984 in *. change (10 ^ 16) with 10000000000000000 in *. lia.
  - split; [easy|]. intros m' E' HF'. fold UNIT. destruct (Z.eq_dec (m * 2 ^ E) (m' * 2 ^ E')) as [->|NE]; [lia|]. apply Z.lt_le_incl. now apply HS.
  - intros m' E' HF' NE Q. exfalso. destruct (Z.eq_dec (m * 2 ^ E) (m' * 2 ^ E')) as [R|R].
    + destruct (finite_value _ _ _ _ HF HF' R) as (-> & ->). now apply NE.
    + fold UNIT in Q. pose proof (HS m' E' HF' R). lia.
Qed.
