(** * Proofs: the texts of spans and entries (C64) *)
From Verif Require Import M_Base M_Codec M_Cal M_Time M_Span M_Dt M_Cmp M_Show.
From Verif Require Import S_Codec S_Dt S_Show.
From Verif Require Import P_Base P_Cal P_Codec P_Dt P_Show.
From Coq Require Import Lia ZifyBool ZifyNat ZifyN.
Open Scope Z_scope.

(** ** The texts of the parts *)
Lemma pad_number k n : 0 <= n -> number (pad (S k) (Z.to_N n)) n.
Proof.
  intro H. split; [|split].
  - intro E. pose proof (undec_pad (S k) (Z.to_N n)) as U. unfold pad in E. apply app_eq_nil in E as [_ E]. now apply dec_nonempty in E.
  - intros c Hc. apply is_digit_spec. pose proof (pad_digits (S k) (Z.to_N n)) as HD. rewrite forallb_forall in HD. now apply HD.
  - rewrite undec_pad. lia.
Qed.
Lemma dec_first n : (0 < n)%N -> forall c s, dec n = c :: s -> c <> 48%N.
Proof.
  intros P c s H ->. pose proof (undec_dec n) as U. pose proof (dec_digits n) as DD. rewrite H in U, DD.
  assert (B : (n < 10 ^ N.of_nat (length s))%N).
  { rewrite <- U. unfold undec. cbn [fold_left]. change (fold_left (fun a c : N => (a * 10 + (c - 48))%N) s (0 * 10 + (48 - 48))%N) with (undec s). apply undec_bound. now cbn in DD. }
  destruct s as [|d s]; [cbn in B; lia|]. assert (L := dec_len_bounds n (length (d :: s)) B ltac:(cbn; lia)). rewrite H in L. cbn [length] in L. lia.
Qed.
Lemma dec_plain n : 0 <= n -> plain_number (zdec n) n.
Proof.
  intro H. split; [now apply zdec_number|]. destruct (Z.eq_dec n 0) as [-> | NZ]; [now left|]. right. intros c s. apply dec_first. lia.
Qed.
Lemma frac_shown us : 0 <= us < 1000000 -> fraction (frac_str us) us.
Proof.
  intro H. unfold frac_str. destruct (Z.eqb_spec us 0) as [-> | N]; [now left|]. right. split; [lia|]. exists (pad 6 (Z.to_N us)).
  split; [apply pad_length; change (10 ^ N.of_nat 6)%N with 1000000%N; lia|]. split; [apply pad_number; lia|reflexivity].
Qed.
Lemma z2_shown n : 0 <= n < 60 -> two_digits (z2 n) n.
Proof. intro H. apply two_digits_pad. lia. Qed.
Lemma clock_shown (hours : list N -> Z -> Prop) hh t : 0 <= t < US_DAY -> (forall h, 0 <= h < 24 -> h = t / (3600 * US_SEC) -> hours hh h) ->
  clock hours (hh ++ py ":" ++ z2 (t / (60 * US_SEC) mod 60) ++ py ":" ++ z2 (t / US_SEC mod 60) ++ frac_str (t mod US_SEC)) t.
Proof.
  intros T HH. pose proof (clock_split t ltac:(lia)) as (A1 & A2 & A3 & A4 & A5 & _). assert (HB : 0 <= t / (3600 * US_SEC) < 24) by (unfold US_DAY, US_SEC in *; lia).
  specialize (HH _ HB eq_refl). set (h := t / (3600 * US_SEC)) in *. set (m := t / (60 * US_SEC) mod 60) in *. set (s := t / US_SEC mod 60) in *. set (u := t mod US_SEC) in *. clearbody h m s u.
  exists hh, h, (z2 m), m, (z2 s), s, (frac_str u), u. split; [exact HH|]. split; [now apply z2_shown|]. split; [now apply z2_shown|]. split; [apply frac_shown; exact A5|].
  split; [exact HB|]. split; [exact A3|]. split; [exact A4|]. split; [reflexivity|exact A1].
Qed.
Lemma offset_is_shown o : Z.abs o < US_DAY -> offset_shown (offset_str o) (Some o).
Proof.
  intro A. unfold offset_str. cbv zeta. assert (AB : 0 <= Z.abs o < US_DAY) by lia. set (k := if o <? 0 then -1 else 1). assert (KO : k * o = Z.abs o) by (unfold k; destruct (Z.ltb_spec o 0); lia).
  assert (SG : (if o <? 0 then py "-" else py "+") = py "+" /\ k = 1 /\ 0 <= o \/ (if o <? 0 then py "-" else py "+") = py "-" /\ k = -1 /\ o < 0) by (unfold k; destruct (Z.ltb_spec o 0); [right|left]; (split; [reflexivity|split; [reflexivity|lia]])).
  eexists _, k, _. split; [exact SG|]. split; [|reflexivity]. rewrite KO. clear SG KO k A. set (t := Z.abs o) in *. clearbody t. clear o.
  assert (CL : clock two_digits (z2 (t / (3600 * US_SEC)) ++ py ":" ++ z2 (t / (60 * US_SEC) mod 60) ++ py ":" ++ z2 (t / US_SEC mod 60) ++ frac_str (t mod US_SEC)) t).
  { apply clock_shown; [exact AB|]. intros h HB <-. apply two_digits_pad. lia. }
  change 60000000 with (60 * US_SEC). destruct (Z.eqb_spec (t mod (60 * US_SEC)) 0) as [EZ|NZ].
  - right. assert (SZ : t / US_SEC mod 60 = 0 /\ t mod US_SEC = 0) by (clear CL; unfold US_SEC in *; lia). destruct SZ as [SZ UZ]. rewrite SZ, UZ in CL.
    rewrite app_nil_r, <- !app_assoc. exact CL.
  - left. split; [exact CL|exact NZ].
Qed.
Section Shown.
Variable E : env.
Lemma wall_day w : wall_ok w = true -> day_number (f_y (fields_of w), f_m (fields_of w), f_d (fields_of w)) (w / 86400000000 + 1).
Proof.
  intro W. assert (HN : 1 <= w / US_DAY + 1) by (unfold wall_ok, US_DAY, US_SEC in *; lia). pose proof (ord2ymd_day_number _ HN) as D. unfold fields_of. destruct (ord2ymd (w / US_DAY + 1)) as [[y m] d]. exact D.
Qed.
Lemma wall_time w : exists H, let f := fields_of w in f_H f = H / (3600 * US_SEC) /\ f_M f = H / (60 * US_SEC) mod 60 /\ f_S f = H / US_SEC mod 60 /\ f_us f = H mod US_SEC /\ H = w mod US_DAY.
Proof. exists (w mod US_DAY). cbv zeta. unfold fields_of. destruct (ord2ymd (w / US_DAY + 1)) as [[y m] d]. cbn [f_H f_M f_S f_us]. now repeat split. Qed.
Lemma dt_is_shown d : python_time E d -> moment_shown (dt_str E d) (wall d) (utcoffset E d).
Proof.
  intros [W O]. unfold dt_str. cbv zeta. pose proof (fields_nonneg _ W) as F. cbv zeta in F. destruct (wall_time (wall d)) as (t & T). cbv zeta in T. destruct T as (TH & TM & TS & TU & TT).
  pose proof (wall_day _ W) as DN. set (f := fields_of (wall d)) in *.
  assert (TB : 0 <= t < US_DAY) by (subst t; apply Z.mod_pos_bound; reflexivity).
  eexists _, _, _, t, _. split; [|split; [|split; [|split]]].
  - exists (pad 4 (Z.to_N (f_y f))), (f_y f), (z2 (f_m f)), (f_m f), (z2 (f_d f)), (f_d f). split; [split; [apply pad_length; change (10 ^ N.of_nat 4)%N with 10000%N; (clear - F; lia)|apply pad_number; clear - F; lia]|].
    split; [apply two_digits_pad; clear - F; lia|]. split; [apply two_digits_pad; clear - F; lia|]. split; [exact DN|reflexivity].
  - apply (clock_shown two_digits (z2 (t / (3600 * US_SEC))) t TB). intros h HB <-. apply two_digits_pad. clear - HB; lia.
  - instantiate (1 := match utcoffset E d with None => [] | Some off => offset_str off end). unfold utcoffset. destruct (dtz d) as [z|] eqn:EZ; [apply offset_is_shown, (O z eq_refl)|reflexivity].
  - subst t. unfold US_DAY, US_SEC. clear. pose proof (Z.div_mod (wall d) 86400000000 ltac:(lia)). change (86400 * 1000000) with 86400000000. lia.
  - rewrite TH, TM, TS, TU. rewrite <- !app_assoc. reflexivity.
Qed.
Lemma date_is_shown d : wall_ok (wall d) = true -> day_shown plain_number (date_str d) (wall d / 86400000000 + 1).
Proof.
  intro W. unfold date_str. cbv zeta. pose proof (fields_nonneg _ W) as F. cbv zeta in F. pose proof (wall_day _ W) as DN. set (f := fields_of (wall d)) in *.
  exists (zdec (f_y f)), (f_y f), (z2 (f_m f)), (f_m f), (z2 (f_d f)), (f_d f). split; [apply dec_plain; clear - F; lia|]. split; [apply two_digits_pad; clear - F; lia|]. split; [apply two_digits_pad; clear - F; lia|]. split; [exact DN|reflexivity].
Qed.
End Shown.
Lemma td_is_shown td : length_shown (td_str td) td.
Proof.
  unfold td_str. cbv zeta. assert (TB : 0 <= td mod US_DAY < US_DAY) by (apply Z.mod_pos_bound; reflexivity).
  eexists _, (td / US_DAY), _, (td mod US_DAY). split; [|split; [|split]].
  - instantiate (1 := if td / US_DAY =? 0 then [] else int_serialize (td / US_DAY) ++ py " day" ++ (if Z.abs (td / US_DAY) =? 1 then [] else py "s") ++ py ", ").
    set (d := td / US_DAY). destruct (Z.eqb_spec d 0) as [-> | N]; [now left|]. right. unfold int_serialize. destruct (Z.ltb_spec d 0).
    + exists (py "-"), (-1), (zdec (- d)). split; [right; split; [reflexivity|split; [reflexivity|lia]]|]. replace (-1 * d) with (- d) by lia. split; [apply dec_plain; lia|]. replace (Z.abs d) with (- d) by lia. unfold zdec. destruct (- d =? 1); reflexivity.
    + exists [], 1, (zdec d). split; [left; split; [reflexivity|split; [reflexivity|lia]]|]. replace (1 * d) with d by lia. split; [apply dec_plain; lia|]. replace (Z.abs d) with d by lia. unfold zdec. destruct (d =? 1); reflexivity.
  - apply (clock_shown plain_number (zdec (td mod US_DAY / (3600 * US_SEC))) _ TB). intros h HB <-. apply dec_plain. clear - HB; lia.
  - reflexivity.
  - change 86400000000 with US_DAY. pose proof (Z.div_mod td US_DAY ltac:(discriminate)). lia.
Qed.
