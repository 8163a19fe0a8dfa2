(** * Worked examples for C76 *)
From Verif Require Import M_Base M_Codec M_Cal M_Time M_Span S_Span P_Span S_SpanOps P_SpanOps P_SpanDay.
Open Scope Z_scope.

Definition sx (h : Z) (z : option tz) : datetime := mk_dt (ref + h * hour) false z.
Definition sx_last : datetime := mk_dt (mk_wall 9999 12 31 0 0 0 0) false None.
Definition sx_ev b e d p := mk_ts KEvent b e d p.
(** One event for each verdict. *)
Definition sx_good := sx_ev (Some (sx 1 (Some (TzObj 1)))) (Some (sx 5 (Some (TzObj 1)))) None PSecond.
Definition sx_dur := sx_ev (Some (sx 0 None)) None (Some 86400000000) PDay.
Definition sx_near := sx_ev (Some (sx 0 None)) None (Some 86400400000) PDay.
Definition sx_verdicts : list (timespan * res unit) :=
  [(sx_good, Ok tt); (sx_dur, Ok tt);
   (sx_ev (Some (sx 1 None)) (Some (sx 5 (Some (TzObj 1)))) None PSecond, Err TypeError);
   (sx_ev (Some sx_last) (Some sx_last) None PDay, Err OverflowError);
   (sx_ev (Some (sx 1 None)) None (Some 1) PSeconds, Err KeyError);
   (sx_ev (Some (sx 1 None)) (Some (sx 2 None)) None PSeconds, Err KeyError);
   (sx_ev None (Some (sx 2 None)) None PSecond, Err ValueError);
   (sx_ev (Some (sx 2 None)) (Some (sx 1 None)) None PSecond, Err ValueError)].
Ltac st := split; intros x [= <-]; (split; [vm_compute; reflexivity | discriminate]).
Ltac st1 := first [st | split; [intros x [= <-]; split; [vm_compute; reflexivity | discriminate] | discriminate]
  | split; [discriminate | intros x [= <-]; split; [vm_compute; reflexivity | discriminate]]].
Lemma verdict_examples : Forall (fun p => stored_span (fst p) /\ verdict env_ex (fst p) (snd p)) sx_verdicts.
Proof.
  assert (G : Forall (fun p => stored_span (fst p) /\ validate env_ex (fst p) = snd p) sx_verdicts).
  { unfold sx_verdicts. repeat (constructor; [split; [cbn [fst]; st1 | vm_compute; reflexivity]|]). constructor. }
  eapply Forall_impl; [|exact G]. intros [t r] [S H]. split; [exact S|]. now apply verdict_iff.
Qed.
Lemma accepted_examples : Forall (fun t => stored_span t /\ accepted env_ex t) [sx_good; sx_dur; sx_near].
Proof.
  assert (G : Forall (fun t => stored_span t /\ validate env_ex t = Ok tt) [sx_good; sx_dur; sx_near]).
  { repeat (constructor; [split; [st1 | vm_compute; reflexivity]|]). constructor. }
  eapply Forall_impl; [|exact G]. intros t [S H]. split; [exact S|]. now apply accepted_valid.
Qed.
Lemma convert_example :
  end_converted env_ex sx_good TDuration (Ok (sx_ev (ts_begin sx_good) None (Some (4 * hour)) PSecond)) /\
  end_converted env_ex sx_good TDue (Err ValueError) /\
  end_converted env_ex sx_near TEnd (Err ValueError).
Proof.
  pose proof accepted_examples as G. inversion G as [|? ? [S1 A1] G1]. inversion G1 as [|? ? _ G2]. inversion G2 as [|? ? [S3 A3] _].
  repeat split; (apply convert_iff; [assumption | assumption | vm_compute; reflexivity]).
Qed.
(** Midnight is later in one zone than in the other. *)
Definition sx_rev := sx_ev (Some (sx 49 (Some (TzObj 3)))) (Some (sx 24 (Some (TzObj 2)))) None PSecond.
Lemma reversed_example : stored_span sx_rev /\ accepted env_ex sx_rev /\ all_day env_ex sx_rev (Err ValueError) /\
  all_day env_ex sx_good (Ok (sx_ev (Some (sx 0 None)) (Some (sx 24 None)) None PDay)).
Proof.
  assert (S : stored_span sx_rev) by st1. assert (A : accepted env_ex sx_rev) by (apply accepted_valid; [exact S | vm_compute; reflexivity]).
  pose proof accepted_examples as G. inversion G as [|? ? [S1 A1] G1].
  split; [exact S|]. split; [exact A|]. split; (apply all_day_iff; [assumption | assumption | vm_compute; reflexivity]).
Qed.
Lemma zone_example :
  rezoned env_ex sx_good (with_zone None) (Ok (sx_ev (Some (sx 1 None)) (Some (sx 5 None)) None PSecond)) /\
  rezoned env_ex sx_good (fun d => in_zone env_ex d (Some (TzObj 0)))
    (Ok (sx_ev (Some (sx (-1) (Some (TzObj 0)))) (Some (sx 4 (Some (TzObj 0)))) None PSecond)).
Proof.
  pose proof accepted_examples as G. inversion G as [|? ? [S1 A1] G1].
  split; [apply replace_tz_iff | apply convert_tz_iff]; try discriminate; try exact S1; vm_compute; reflexivity.
Qed.
(** Finding: making an accepted span all-day may be refused. *)
Lemma all_day_refused : ~ forall E t, stored_span t -> accepted E t ->
  (exists e, eff_end E t = Ok e) -> exists t', all_day E t (Ok t') \/ all_day E t (Err OverflowError).
Proof.
  destruct reversed_example as (S & A & _ & _). intros H.
  destruct (H env_ex sx_rev S A) as (t' & [X | X]).
  - eexists. reflexivity.
  - apply all_day_iff in X; [|assumption..]. vm_compute in X. discriminate X.
  - apply all_day_iff in X; [|assumption..]. vm_compute in X. discriminate X.
Qed.
(** Finding: an accepted span may have an end that cannot be told by a duration. *)
Lemma duration_refused : ~ forall E t, stored_span t -> accepted E t -> ts_end t <> None ->
  exists t', end_converted E t TDuration (Ok t').
Proof.
  intros H. set (t := sx_ev (Some (sx 1 None)) (Some (sx 1 None)) None PSeconds).
  assert (S : stored_span t) by st1. assert (A : accepted env_ex t) by (apply accepted_valid; [exact S | vm_compute; reflexivity]).
  destruct (H env_ex t S A) as (t' & X); [discriminate|]. apply convert_iff in X; [|assumption..]. vm_compute in X. discriminate X.
Qed.
Lemma length_example : length_is env_ex sx_good (Some (4 * hour)) /\ end_is sx_dur (Ok (Some (sx 24 None))) /\
  forall b e, ts_begin sx_good = Some b -> ts_end sx_good = Some e -> ts_dur sx_good = None -> comparable b e.
Proof.
  assert (H : forall b e, ts_begin sx_good = Some b -> ts_end sx_good = Some e -> ts_dur sx_good = None -> comparable b e).
  { intros b e [= <-] [= <-] _. split; discriminate. }
  split; [apply length_iff; [exact H | vm_compute; reflexivity]|]. split; [|exact H].
  apply (end_iff env_ex). vm_compute. reflexivity.
Qed.
