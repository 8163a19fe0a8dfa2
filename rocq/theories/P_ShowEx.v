(** * Proofs: equal texts and equal spans, and examples (C64) *)
From Verif Require Import M_Base M_Codec M_Cal M_Time M_Span M_Dt M_Cmp M_Show.
From Verif Require Import S_Codec S_Dt S_Show.
From Verif Require Import P_Base P_Cal P_Codec P_Dt P_Show P_Show2 P_Show3.
From Coq Require Import Lia ZifyBool ZifyNat ZifyN.
Open Scope Z_scope.

Section Equal.
Variable E : env.
Definition midnight (d : datetime) : Prop := wall d mod 86400000000 = 0 /\ dtz d = None.
Lemma view_equal t t' a b : is_all_day t = is_all_day t' -> (is_all_day t = true -> midnight a /\ midnight b) ->
  fold_matters E a = false -> fold_matters E b = false -> view E t a = view E t' b -> dt_eqb E a b = true.
Proof.
  intros AD D FA FB V. unfold view in V. rewrite <- AD in V. destruct (is_all_day t).
  - destruct (D eq_refl) as [[MA ZA] [MB ZB]]. injection V as V. unfold dt_eqb. rewrite ZA, ZB. cbn [same_tz]. apply Z.eqb_eq. pose proof (Z.div_mod (wall a) 86400000000 ltac:(lia)). pose proof (Z.div_mod (wall b) 86400000000 ltac:(lia)). lia.
  - injection V as V U. unfold dt_eqb, naive, instant. rewrite FA, FB. unfold utcoffset in *. destruct (dtz a), (dtz b); try discriminate; cbn [orb].
    + injection U as U. rewrite V in U |- *. destruct (same_tz _ _); [apply Z.eqb_refl|]. rewrite U, Z.eqb_refl. reflexivity.
    + cbn [same_tz]. now apply Z.eqb_eq.
Qed.
Lemma precise t d : validate_precision E t d = Ok tt -> is_all_day t = true -> midnight d.
Proof.
  unfold validate_precision, is_all_day. intros H D. rewrite D in H. destruct (dt_eqb E (floor_midnight d) d) eqn:EQ; [|discriminate]. cbn [negb guard bind] in H. unfold naive in H. destruct (dtz d) eqn:Z; [discriminate|].
  split; [|exact Z]. unfold dt_eqb, floor_midnight in EQ. cbn [dtz wall] in EQ. rewrite Z in EQ. cbn [same_tz] in EQ. change US_DAY with 86400000000 in EQ. lia.
Qed.
Lemma valid_parts t : validate E t = Ok tt ->
  (is_all_day t = true -> forall d, ts_begin t = Some d \/ ts_end t = Some d -> midnight d) /\ (ts_end t = None \/ ts_dur t = None).
Proof.
  unfold validate. destruct (validate_base E t) as [[]|] eqn:H; [|discriminate]. intros _. unfold validate_base in H. destruct (ts_begin t) as [b|] eqn:B.
  - destruct (validate_precision E t b) as [[]|] eqn:PB; [|discriminate]. cbn [bind] in H. destruct (ts_end t) as [e|] eqn:EE.
    + destruct (validate_precision E t e) as [[]|] eqn:PE; [|discriminate]. cbn [bind] in H. destruct (dt_gt E b e) as [[]|]; try discriminate; cbn [bind guard] in H.
      destruct (if is_day (ts_prec t) then _ else _) as [[]|]; [|discriminate]. cbn [bind] in H. destruct (ts_dur t); [discriminate|].
      split; [|now right]. intros D d [X|X]; injection X as <-; now apply (precise t).
    + split; [|now left]. intros D d [X|X]; [injection X as <-; now apply (precise t)|discriminate].
  - destruct (ts_end t) as [e|] eqn:EE.
    + destruct (validate_precision E t e) as [[]|] eqn:PE; [|discriminate]. cbn [bind] in H. destruct (ts_dur t); [discriminate|]. split; [|now right]. intros D d [X|X]; [discriminate|injection X as <-; now apply (precise t)].
    + split; [|now left]. intros D d [X|X]; discriminate.
Qed.
Lemma kind_same_refl k : kind_same k k = true. Proof. now destruct k. Qed.
Lemma prec_refl p : prec_eqb p p = true. Proof. destruct p; try reflexivity. apply N.eqb_refl. Qed.
Theorem text_equal t t' s : python_times E t -> python_times E t' -> validate E t = Ok tt -> validate E t' = Ok tt ->
  (forall d, ts_begin t = Some d \/ ts_end t = Some d \/ ts_begin t' = Some d \/ ts_end t' = Some d -> fold_matters E d = false) ->
  ts_prec t = ts_prec t' -> span_str E t = Ok s -> span_str E t' = Ok s -> span_eqb E t t' = true.
Proof.
  intros P P' V V' F HP H H'. apply (span_tells E t t' s P P' H) in H' as (HK & HA & HF & HB & HV & HR & HL). destruct (valid_parts t V) as [M X], (valid_parts t' V') as [M' X'].
  assert (BB : opt_dt_eqb E (ts_begin t) (ts_begin t') = true).
  { destruct (ts_begin t) as [b|] eqn:EB, (ts_begin t') as [b'|] eqn:EB'; try discriminate; [|reflexivity]. injection HB as HB. cbn [opt_dt_eqb]. apply (view_equal t t'); [exact HA| |apply F; auto|apply F; auto|exact HB].
    intro AD. split; [apply M; auto|apply M'; [congruence|auto]]. }
  unfold span_eqb. rewrite HK, kind_same_refl, BB, HP, prec_refl. cbn [andb]. rewrite andb_true_r. unfold end_representation in HR, HL. unfold eff_end in HV. unfold eff_duration in HL.
  destruct (ts_dur t) as [d|] eqn:ED.
  - destruct X as [X|X]; [|discriminate]. rewrite X in *. destruct (ts_dur t') as [d'|] eqn:ED'; [|destruct (ts_end t'); discriminate]. destruct X' as [X'|X']; [|discriminate]. rewrite X'. cbn [opt_dt_eqb andb opt_z_eqb].
    specialize (HL ltac:(discriminate)). injection HL as <-. apply Z.eqb_refl.
  - destruct (ts_dur t') as [d'|] eqn:ED'; [destruct (ts_end t); discriminate|]. rewrite andb_true_r. destruct (ts_end t) as [e|] eqn:EE, (ts_end t') as [e'|] eqn:EE'; try discriminate; [|reflexivity].
    injection HV as HV. cbn [opt_dt_eqb]. apply (view_equal t t'); [exact HA| |apply F; auto|apply F; auto|congruence]. intro AD. split; [apply M; auto|apply M'; [congruence|auto]].
Qed.
End Equal.

(** ** Examples *)
(* In every zone the clock shows one hour more until it is turned back. *)
Definition turned_env : env := mk_env (fun _ _ f => if f then 0 else 3600000000) (fun _ u => (u, false)) (fun _ _ => 0) (fun _ => 0) (fun _ _ => 0) (fun u => (u, false)).
Definition show_env : env := mk_env (fun n _ _ => if N.eqb n 0 then 0 else -1800000000) (fun _ u => (u, false)) (fun _ _ => 0) (fun _ => 0) (fun _ _ => 0) (fun u => (u, false)).
Definition span0 (p : prec) : timespan := mk_ts KBase None None None p.
Definition span1 (z : N) : timespan := mk_ts KEvent (Some (mk_dt 63834143400000000 false (Some (TzObj z)))) None (Some 5400000000) PSecond.
Definition day1 : timespan := mk_ts KEvent (Some (mk_dt 63844761600000000 false None)) None None PDay.
Lemma times0 E p : python_times E (span0 p). Proof. intros d [H|H]; discriminate. Qed.
Lemma times1 z : python_times show_env (span1 z).
Proof. intros d [H|H]; [|discriminate]. injection H as <-. split; [reflexivity|]. intros z' HZ w f. injection HZ as <-. cbn [tz_off env_off show_env]. destruct (N.eqb z 0); reflexivity. Qed.
Lemma times1' z : python_times turned_env (span1 z).
Proof. intros d [H|H]; [|discriminate]. injection H as <-. split; [reflexivity|]. intros z' HZ w f. injection HZ as <-. cbn [tz_off env_off turned_env]. destruct f; reflexivity. Qed.
Lemma timesd E : python_times E day1.
Proof. intros d [H|H]; [|discriminate]. injection H as <-. split; [reflexivity|]. intros z' HZ. discriminate. Qed.
Lemma text1 : span_str show_env (span1 1) = Ok (py "<EventTimespan begin: 2023-10-29 02:30:00-00:30 end: 2023-10-29 04:00:00-00:30 fixed duration: 1:30:00>").
Proof. vm_compute. reflexivity. Qed.
Lemma textd E : span_str E day1 = Ok (py "<all-day EventTimespan begin: 2024-02-29 end: 2024-03-01>").
Proof. vm_compute. reflexivity. Qed.
Lemma valid1 : validate show_env (span1 1) = Ok tt. Proof. reflexivity. Qed.
Lemma text_entry : entry_str show_env (mk_entry (span1 1) (Some (py "it's")) 0) = Ok (py "<Event 'it's' begin: 2023-10-29 02:30:00-00:30 end: 2023-10-29 04:00:00-00:30 fixed duration: 1:30:00>").
Proof. vm_compute. reflexivity. Qed.

(** The text does not show the precision of a span that is not all-day. *)
Lemma precision_refuted : ~ (forall E t t' s, python_times E t -> python_times E t' -> validate E t = Ok tt -> validate E t' = Ok tt ->
  (forall d, ts_begin t = Some d \/ ts_end t = Some d \/ ts_begin t' = Some d \/ ts_end t' = Some d -> fold_matters E d = false) ->
  span_str E t = Ok s -> span_str E t' = Ok s -> span_eqb E t t' = true).
Proof.
  intro H. specialize (H show_env (span0 PSecond) (span0 PSeconds) (py "<floating Timespan>") (times0 _ _) (times0 _ _) eq_refl eq_refl).
  discriminate H; [|reflexivity|reflexivity]. intros d [X|[X|[X|X]]]; discriminate.
Qed.
(** Nor the zone, which counts for clock readings that occur twice. *)
Lemma zone_refuted : ~ (forall E t t' s, python_times E t -> python_times E t' -> validate E t = Ok tt -> validate E t' = Ok tt ->
  ts_prec t = ts_prec t' -> span_str E t = Ok s -> span_str E t' = Ok s -> span_eqb E t t' = true).
Proof.
  intro H. specialize (H turned_env (span1 1) (span1 2) (py "<EventTimespan begin: 2023-10-29 02:30:00+01:00 end: 2023-10-29 04:00:00+01:00 fixed duration: 1:30:00>") (times1' _) (times1' _) eq_refl eq_refl eq_refl).
  discriminate H; vm_compute; reflexivity.
Qed.
