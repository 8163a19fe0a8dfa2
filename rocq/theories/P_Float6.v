(** * The double of a number is determined; small numbers are lost *)
From Verif Require Import M_Base P_Base M_Codec S_Codec P_Codec M_Float S_Float P_Float P_Float2 P_Float3 P_Float4 P_Float5.
From Coq Require Import Lia ZifyBool ZifyNat ZifyN.
Open Scope Z_scope.

Lemma between v w d N : v < w -> 0 < d -> Z.abs (v * d - N) = Z.abs (w * d - N) -> forall x, v < x < w -> Z.abs (x * d - N) < Z.abs (v * d - N).
Proof. intros. assert (v * d < x * d < w * d) by nia. lia. Qed.
(** Next to a double that ends in a zero bit there is no other such double. *)
Lemma neighbours m E m' E' : finite m E -> finite m' E' -> Z.even m = true -> Z.even m' = true -> m * 2 ^ E < m' * 2 ^ E' ->
  exists k K, finite k K /\ m * 2 ^ E < k * 2 ^ K < m' * 2 ^ E'.
Proof.
  intros (Hm & HE & HD) (Hm' & HE' & HD') HV HV' HL. assert (HP : 0 < 2 ^ E) by (apply Z.pow_pos_nonneg; lia). assert (HP' : 0 < 2 ^ E') by (apply Z.pow_pos_nonneg; lia).
  assert (H53 : 2 ^ 53 = 2 * 2 ^ 52) by reflexivity. assert (0 < 2 ^ 52) by now vm_compute.
  apply Z.even_spec in HV as (a & ->), HV' as (b & ->).
  exists (2 * a + 1), E. assert (HM : 2 * a + 1 < 2 ^ 53) by lia. split; [unfold finite; lia|]. split; [nia|].
  destruct (Z.lt_trichotomy E E') as [L|[<-|L]].
  - destruct HD' as [->|HD']; [lia|]. replace E' with (E + 1 + (E' - E - 1)) by lia. rewrite !Z.pow_add_r by lia. change (2 ^ 1) with 2.
    assert (1 <= 2 ^ (E' - E - 1)) by (apply (Z.pow_le_mono_r 2 0); lia). rewrite H53 in *. set (P := 2 ^ 52) in *. set (A := 2 ^ E) in *. set (B := 2 ^ (E' - E - 1)) in *. clearbody P A B.
    clear - HM HD' HP H0 H. apply Z.lt_le_trans with (2 * P * A); [nia|]. apply Z.le_trans with (2 * b * (A * 2 * 1)); [nia|]. apply Z.mul_le_mono_nonneg_l; [lia|]. nia.
  - assert (a < b) by nia. assert (2 * a + 1 < 2 * b) by lia. nia.
  - exfalso. destruct HD as [->|HD]; [lia|]. replace E with (E' + 1 + (E - E' - 1)) in HL by lia. rewrite !Z.pow_add_r in HL by lia. change (2 ^ 1) with 2 in HL.
    assert (1 <= 2 ^ (E - E' - 1)) by (apply (Z.pow_le_mono_r 2 0); lia). rewrite H53 in *. set (P := 2 ^ 52) in *. set (A := 2 ^ E') in *. set (B := 2 ^ (E - E' - 1)) in *. clearbody P A B.
    clear - HL HD HP' H0 H Hm'. assert (2 * b * A < 2 * P * A) by nia. assert (2 * P * A <= 2 * a * (A * 2 * B)); [|lia].
    apply Z.le_trans with (2 * a * (A * 2 * 1)); [nia|]. apply Z.mul_le_mono_nonneg_l; [lia|nia].
Qed.
Lemma nearest_unique n d m E m' E' : 0 < d -> nearest n d m E -> even_tie n d m E -> nearest n d m' E' -> even_tie n d m' E' -> (m, E) = (m', E').
Proof.
  intros Hd (HF & HN) HT (HF' & HN') HT'. pose proof (HN _ _ HF') as L1. pose proof (HN' _ _ HF) as L2.
  destruct (Z.eq_dec (m * 2 ^ E) (m' * 2 ^ E')) as [Q|Q]; [destruct (finite_value _ _ _ _ HF HF' Q) as (-> & ->); easy|]. exfalso.
  assert (NE : (m', E') <> (m, E)) by (intros [= -> ->]; now apply Q).
  pose proof (HT _ _ HF' NE ltac:(lia)) as V. pose proof (HT' _ _ HF (fun e => NE (eq_sym e)) ltac:(lia)) as V'.
  assert (TE : Z.abs (m * 2 ^ E * d - n * 2 ^ 1074) = Z.abs (m' * 2 ^ E' * d - n * 2 ^ 1074)) by lia.
  assert (m * 2 ^ E < m' * 2 ^ E' \/ m' * 2 ^ E' < m * 2 ^ E) as [L|L] by lia.
  - destruct (neighbours _ _ _ _ HF HF' V V' L) as (k & K & HK & B). specialize (HN k K HK).
    pose proof (between _ _ d _ L Hd TE _ B). lia.
  - destruct (neighbours _ _ _ _ HF' HF V' V L) as (k & K & HK & B). specialize (HN' k K HK).
    pose proof (between _ _ d _ L Hd (eq_sym TE) _ B). lia.
Qed.
Lemma rounded_unique neg n d b b' : 0 < d -> rounded neg n d b -> rounded neg n d b' -> b = b'.
Proof.
  intros Hd [(HL & m & E & HS & HN & HT)|(HL & HI)] [(HL' & m' & E' & HS' & HN' & HT')|(HL' & HI')]; try easy.
  - pose proof (nearest_unique _ _ _ _ _ _ Hd HN HT HN' HT') as [= <- <-]. rewrite (stands_encode _ _ _ _ HS), (stands_encode _ _ _ _ HS'). reflexivity.
  - unfold infinite in *. rewrite <- HI' in HI. lia.
Qed.
Lemma numeral_only t neg n d b : numeral t neg n d -> rounded neg n d b -> fl_read t = Ok b.
Proof.
  intros H HR. destruct (numeral_bounds _ _ _ _ H) as (Hn & Hd). rewrite (numeral_read _ _ _ _ H). f_equal. apply (rounded_unique neg n d); [easy|now apply encode_rounded|easy].
Qed.
Lemma small_lost b neg m E : stands b neg m E -> 2 * (m * 2 ^ E * 10 ^ 6) < 2 ^ 1074 -> exists b', fl_read (fl_show b) = Ok b' /\ stands b' neg 0 0.
Proof.
  intros H HL. rewrite (show_stands _ _ _ _ H). assert (millionths m E = 0) as ->.
  { apply rhe_unique; [apply unit_pos|]. destruct H as ((Hm & HE & _) & _). assert (0 <= m * 2 ^ E) by (apply Z.mul_nonneg_nonneg; [lia|apply Z.pow_nonneg; lia]).
    fold UNIT in HL. set (u := m * 2 ^ E) in *. clearbody u. rewrite Z.mul_0_l, Z.sub_0_r, Z.abs_eq by lia. easy. }
  exists (encode neg (DFin 0 0)). split; [destruct neg; vm_compute; reflexivity|]. apply encode_stands. split; [now vm_compute|]. split; [lia|now left].
Qed.
