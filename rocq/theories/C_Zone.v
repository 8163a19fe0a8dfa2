(** * C29, C30: VTIMEZONE lookups *)
From Verif Require Import M_Base P_Base M_Codec M_Cal P_Span M_Zone S_Zone P_Zone.
Open Scope Z_scope.

(** ** C29. For every list of observances, every set of onsets and every wall time the
    offset, dst and name are those of the observance in force. [h] is any earlier
    history of lookups in which this wall time was not asked with the other [fold]. *)
Theorem C29_in_force : forall onset l w f q h, l <> [] -> (forall c, In c l -> rule_ok onset c) ->
  (forall c, In c l -> f = true -> wall_ok (time_for c w f) = true) ->
  (forall q' f', In (q', w, f') h -> f' = f) ->
  exists a c, snd (ask l (after l [] h) q w f) = Ok a /\ told q c a /\ in_force onset l w f c.
Proof. exact lookup_in_force. Qed.
Print Assumptions C29_in_force.
(** There is only one such observance. *)
Theorem C29_unique : forall onset l w f c c', in_force onset l w f c -> in_force onset l w f c' -> c = c'.
Proof. exact in_force_fun. Qed.
Print Assumptions C29_unique.

Definition zx_day (y m d h : Z) := mk_wall y m d h 0 0 0.
Definition zx_hour := 3600 * US_SEC.
Definition zx_sum_onset := zx_day 2020 3 29 2.
Definition zx_win_onset := zx_day 2020 10 25 3.
Definition zx_winter := mk_obs (2 * zx_hour) zx_hour false (Some (py "CET")) (fun t => if zx_win_onset <=? t then Some zx_win_onset else None).
Definition zx_summer := mk_obs zx_hour (2 * zx_hour) true (Some (py "CEST")) (fun t => if zx_sum_onset <=? t then Some zx_sum_onset else None).
Definition zx_zone := [zx_winter; zx_summer].
Definition zx_onset (c : obs) (o : Z) : Prop := if ob_dst c then o = zx_sum_onset else o = zx_win_onset.
Example C29_example : (forall c, In c zx_zone -> rule_ok zx_onset c) /\
  (forall c f, In c zx_zone -> wall_ok (time_for c (zx_day 2020 10 25 2) f) = true) /\
  snd (ask zx_zone [] QOffset (zx_day 2020 10 25 2) false) = Ok (AOffset (2 * zx_hour)) /\
  snd (ask zx_zone [] QOffset (zx_day 2020 10 25 2) true) = Ok (AOffset zx_hour) /\
  snd (ask zx_zone [] QDst (zx_day 2020 7 1 0) false) = Ok (ADst zx_hour) /\
  snd (ask zx_zone [] QName (zx_day 2019 1 1 0) false) = Ok (AName (Some (py "CET"))).
Proof.
  split; [|split].
  - intros c HI t. unfold rule_ok, latest, zx_onset.
    destruct HI as [<-|[<-|[]]]; cbn [zx_winter zx_summer ob_dst ob_before].
    + destruct (Z.leb_spec zx_win_onset t) as [H|H].
      * split; [easy|]. split; [easy|]. intros o' -> _. apply Z.le_refl.
      * intros o -> H'. now apply Z.lt_nge in H.
    + destruct (Z.leb_spec zx_sum_onset t) as [H|H].
      * split; [easy|]. split; [easy|]. intros o' -> _. apply Z.le_refl.
      * intros o -> H'. now apply Z.lt_nge in H.
  - intros c f [<-|[<-|[]]]; destruct f; vm_compute; reflexivity.
  - repeat match goal with |- _ /\ _ => split end; vm_compute; reflexivity.
Qed.
(** Findings: a zone without observances is an IndexError for every time. *)
Theorem C29_empty_refuted : forall h q w f, snd (ask [] (after [] [] h) q w f) = Err IndexError.
Proof. exact (fun _ _ _ _ => eq_refl). Qed.
Print Assumptions C29_empty_refuted.

(** ** C30. After any history of lookups (with evictions) the answer is the one a fresh
    zone gives, if both readings of the wall time have the same answer, *)
Theorem C30_history : forall l h q w f, snd (ask l [] q w true) = snd (ask l [] q w false) ->
  snd (ask l (after l [] h) q w f) = snd (ask l [] q w f).
Proof. exact ask_same. Qed.
Print Assumptions C30_history.
(** or if this wall time was not asked with the other value of fold before. *)
Theorem C30_one_fold : forall l h q w f, (forall q' f', In (q', w, f') h -> f' = f) ->
  snd (ask l (after l [] h) q w f) = snd (ask l [] q w f).
Proof. exact ask_one_fold. Qed.
Print Assumptions C30_one_fold.
(** In any case it is the answer for one of the two readings. *)
Theorem C30_either : forall l h q w f, snd (ask l (after l [] h) q w f) = snd (ask l [] q w f) \/
  snd (ask l (after l [] h) q w f) = snd (ask l [] q w (negb f)).
Proof. exact ask_either. Qed.
Print Assumptions C30_either.
(** All wall times are of the first kind but those shortly before the clock is set back. *)
Theorem C30_unrepeated : forall l q w, fold_free l w -> (forall c, In c l -> wall_ok (time_for c w true) = true) ->
  snd (ask l [] q w true) = snd (ask l [] q w false).
Proof. exact fold_free_same. Qed.
Print Assumptions C30_unrepeated.
Example C30_example : fold_free zx_zone (zx_day 2020 7 1 0) /\
  (forall c, In c zx_zone -> wall_ok (time_for c (zx_day 2020 7 1 0) true) = true).
Proof.
  split.
  - intros c [<-|[<-|[]]] HL t [H1 H2]; [|exfalso; revert HL; vm_compute; discriminate].
    assert (ob_before zx_winter (zx_day 2020 7 1 0) = None) as -> by (vm_compute; reflexivity).
    cbn [zx_winter ob_before]. destruct (Z.leb_spec zx_win_onset t) as [H|H]; [|reflexivity]. exfalso.
    apply (Z.le_trans _ _ _ H) in H2. revert H2. vm_compute. intuition discriminate.
  - intros c [<-|[<-|[]]]; vm_compute; reflexivity.
Qed.
(** Finding: a repeated wall time gets the answer of the reading that was asked first. *)
Theorem C30_fold_refuted : exists l h q w f,
  snd (ask l (after l [] h) q w f) <> snd (ask l [] q w f).
Proof.
  exists zx_zone, [(QOffset, zx_day 2020 10 25 2, false)], QOffset, (zx_day 2020 10 25 2), true. vm_compute. discriminate.
Qed.
Print Assumptions C30_fold_refuted.
(** Until ten other wall times have been looked up. *)
Definition zx_others : list (question * Z * bool) := map (fun i => (QOffset, zx_day 2020 7 1 i, false)) [1; 2; 3; 4; 5; 6; 7; 8; 9; 10].
Theorem C30_eviction_refuted : exists l h h' q w f, h' = h ++ zx_others /\
  snd (ask l (after l [] h) q w f) <> snd (ask l (after l [] h') q w f).
Proof.
  exists zx_zone, [(QOffset, zx_day 2020 10 25 2, false)], ((QOffset, zx_day 2020 10 25 2, false) :: zx_others), QOffset, (zx_day 2020 10 25 2), true.
  split; [reflexivity|]. vm_compute. discriminate.
Qed.
Print Assumptions C30_eviction_refuted.
