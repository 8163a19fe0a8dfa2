(** * C20-C22: end representation, all-day spans, rounding *)
From Verif Require Import M_Base P_Base M_Codec M_Cal M_Time M_Span S_Span P_Span.
Open Scope Z_scope.

(** ** C20. A span given by its end is converted to one given by its duration ... *)
Theorem C20_to_duration : forall E k b e p, one_zone b e -> stored b -> stored e -> fold e = false ->
  (forall n, p <> POther n) ->
  validate E (mk_ts k (Some b) (Some e) None p) = Ok tt ->
  exists t', ts_convert_end E (mk_ts k (Some b) (Some e) None p) TDuration = Ok t' /\
    same_reading E (mk_ts k (Some b) (Some e) None p) t' /\ end_representation t' = Some RDuration.
Proof. exact (fun E k b e p H1 H2 H3 H4 H5 => convert_to_duration E k b e p H1 H2 H3 H4 (H5 0%N) H5). Qed.
Print Assumptions C20_to_duration.
(** ... and back. [wall_ok (wall b + d)]: the end can be represented at all. *)
Theorem C20_to_end : forall E k b d p tg, stored b -> target_is_end k tg = true ->
  wall_ok (wall b + d) = true -> (p = PDay -> d mod US_DAY = 0) ->
  validate E (mk_ts k (Some b) None (Some d) p) = Ok tt ->
  exists t', ts_convert_end E (mk_ts k (Some b) None (Some d) p) tg = Ok t' /\
    same_reading E (mk_ts k (Some b) None (Some d) p) t' /\ end_representation t' = Some REnd.
Proof. exact convert_to_end. Qed.
Print Assumptions C20_to_end.
Definition ex_b := mk_dt (ref + hour) false (Some (TzObj 1)).
Definition ex_e := mk_dt (ref + 5 * hour) false (Some (TzObj 1)).
Example C20_example :
  one_zone ex_b ex_e /\ stored ex_b /\ stored ex_e /\ validate env_ex (mk_ts KEvent (Some ex_b) (Some ex_e) None PSecond) = Ok tt /\
  ts_convert_end env_ex (mk_ts KEvent (Some ex_b) (Some ex_e) None PSecond) TDuration
  = Ok (mk_ts KEvent (Some ex_b) None (Some (4 * hour)) PSecond) /\
  ts_convert_end env_ex (mk_ts KEvent (Some ex_b) None (Some (4 * hour)) PSecond) TEnd
  = Ok (mk_ts KEvent (Some ex_b) (Some ex_e) None PSecond).
Proof.
  repeat match goal with |- _ /\ _ => split | |- one_zone _ _ => split | |- stored _ => split end;
  first [vm_compute; reflexivity | discriminate].
Qed.

(** Findings. [fold e = false] is needed: an end in the repeated hour moves by an hour
    when the representation is changed to the duration and back. *)
Definition ex_ef := mk_dt (ref + 2 * hour + hour / 2) true (Some (TzObj 1)).
Definition ex_ef' := mk_dt (ref + 2 * hour + hour / 2) false (Some (TzObj 1)).
Theorem C20_fold_refuted : exists E b e t1 t2 e',
  one_zone b e /\ validate E (mk_ts KEvent (Some b) (Some e) None PSecond) = Ok tt /\
  ts_convert_end E (mk_ts KEvent (Some b) (Some e) None PSecond) TDuration = Ok t1 /\
  ts_convert_end E t1 TEnd = Ok t2 /\
  ts_end t2 = Some e' /\ instant E e' = instant E e - hour.
Proof.
  exists env_ex, ex_b, ex_ef, (mk_ts KEvent (Some ex_b) None (Some (hour + hour / 2)) PSecond),
    (mk_ts KEvent (Some ex_b) (Some ex_ef') None PSecond), ex_ef'.
  split; [split; [reflexivity|discriminate]|]. split; [vm_compute; reflexivity|].
  split; [vm_compute; reflexivity|]. split; [vm_compute; reflexivity|]. split; vm_compute; reflexivity.
Qed.
Print Assumptions C20_fold_refuted.
(** Across zones too: the end moves into the zone of begin, and if that zone changes its
    offset in between, the instant differs. *)
Definition ex_ez := mk_dt (ref + 5 * hour) false (Some (TzObj 0)).
Definition ex_ez' := mk_dt (ref + 7 * hour) false (Some (TzObj 1)).
Theorem C20_zones_refuted : exists E b e t1 t2 e',
  validate E (mk_ts KEvent (Some b) (Some e) None PSecond) = Ok tt /\
  ts_convert_end E (mk_ts KEvent (Some b) (Some e) None PSecond) TDuration = Ok t1 /\
  ts_convert_end E t1 TEnd = Ok t2 /\
  ts_end t2 = Some e' /\ instant E e' = instant E e + hour.
Proof.
  exists env_ex, ex_b, ex_ez, (mk_ts KEvent (Some ex_b) None (Some (6 * hour)) PSecond),
    (mk_ts KEvent (Some ex_b) (Some ex_ez') None PSecond), ex_ez'.
  split; [vm_compute; reflexivity|].
  split; [vm_compute; reflexivity|]. split; [vm_compute; reflexivity|]. split; vm_compute; reflexivity.
Qed.
Print Assumptions C20_zones_refuted.
(** A todo with a due date but no begin silently loses the due date. *)
Theorem C20_due_refuted : forall E e, dtz e = None ->
  validate E (mk_ts KTodo None (Some e) None PSecond) = Ok tt /\
  ts_convert_end E (mk_ts KTodo None (Some e) None PSecond) TDuration = Ok (mk_ts KTodo None None None PSecond).
Proof. intros E e H. split; reflexivity. Qed.
Print Assumptions C20_due_refuted.
(** With the precision "seconds" that [unset_all_day] sets, a valid span cannot be
    converted (KeyError), nor can any duration be set. *)
Theorem C20_seconds_refuted : forall E b d p, stored b -> wall_ok (wall b + d) = true -> 0 < d ->
  ts_convert_end E (mk_ts KEvent (Some b) (Some (mk_dt (wall b + d) false (dtz b))) None (POther p)) TDuration = Err KeyError /\
  make E KEvent (Some b) (Some (mk_dt (wall b + d) false (dtz b))) None (POther p) = Err KeyError /\
  make E KEvent (Some b) None (Some d) (POther p) = Err KeyError.
Proof. exact seconds_keyerror. Qed.
Print Assumptions C20_seconds_refuted.
(** An all-day duration of a day and 0.4 s is accepted but cannot be turned into an end. *)
Theorem C20_tolerance_refuted : forall E b, stored b -> dtz b = None -> midnight b -> wall_ok (wall b + US_DAY + 400000) = true ->
  validate E (mk_ts KEvent (Some b) None (Some (US_DAY + 400000)) PDay) = Ok tt /\
  ts_convert_end E (mk_ts KEvent (Some b) None (Some (US_DAY + 400000)) PDay) TEnd = Err ValueError.
Proof. exact tolerance_valueerror. Qed.
Print Assumptions C20_tolerance_refuted.

(** ** C21. Begin and end in one zone: the new span starts at the last midnight not
    after begin and ends at the first midnight not before the end, but at least one
    day later; it is floating, and stays a duration if it was one. It fails only if
    the needed midnight is beyond the year 9999. *)
Theorem C21_one_zone : forall E t b e, validate E t = Ok tt -> ts_prec t <> PDay ->
  ts_begin t = Some b -> eff_end E t = Ok (Some e) -> stored b -> stored e -> one_zone b e ->
  match ts_make_all_day E t with
  | Ok t' => exists b' e', ts_begin t' = Some b' /\ eff_end E t' = Ok (Some e') /\ ts_prec t' = PDay /\
      ts_kind t' = ts_kind t /\ floating b' /\ floating e' /\ midnight b' /\ midnight e' /\
      (wall b' <= wall b /\ wall e <= wall e' /\ wall b' + US_DAY <= wall e') /\
      (forall m, midnight m -> wall m <= wall b -> wall m <= wall b') /\
      (forall m, midnight m -> wall e <= wall m -> wall b' + US_DAY <= wall m -> wall e' <= wall m) /\
      (ts_dur t = None -> ts_dur t' = None) /\ (ts_dur t <> None -> ts_end t' = None /\ ts_dur t' <> None)
  | Err x => x = OverflowError /\ forall m, midnight m -> wall b < wall m -> wall e <= wall m -> wall_ok (wall m) = false
  end.
Proof. exact all_day_smallest. Qed.
Print Assumptions C21_one_zone.
(** The excess is below a day at each end, except that an empty span at midnight
    becomes the following day. *)
Theorem C21_excess : forall E t b e t' b' e', validate E t = Ok tt -> ts_prec t <> PDay ->
  ts_begin t = Some b -> eff_end E t = Ok (Some e) -> stored b -> stored e -> one_zone b e ->
  ts_make_all_day E t = Ok t' -> ts_begin t' = Some b' -> eff_end E t' = Ok (Some e') ->
  wall b - wall b' < US_DAY /\
  (wall e' - wall e < US_DAY \/ (wall e = wall b /\ midnight b /\ wall e' = wall e + US_DAY)).
Proof. exact all_day_excess. Qed.
Print Assumptions C21_excess.
(** A second application changes nothing; without an end the begin alone is rounded. *)
Theorem C21_idempotent : forall E t t', ts_make_all_day E t = Ok t' -> ts_make_all_day E t' = Ok t'.
Proof. exact all_day_idem. Qed.
Print Assumptions C21_idempotent.
Theorem C21_no_end : forall E k b p, k <> KEvent -> p <> PDay ->
  ts_make_all_day E (mk_ts k (Some b) None None p) =
  Ok (mk_ts k (Some (mk_dt (wall b - wall b mod US_DAY) false None)) None None PDay).
Proof. exact all_day_no_end. Qed.
Print Assumptions C21_no_end.
Definition ex_t := mk_ts KEvent (Some ex_b) None (Some (24 * hour)) PSecond.
Example C21_example :
  validate env_ex ex_t = Ok tt /\ eff_end env_ex ex_t = Ok (Some (mk_dt (ref + 25 * hour) false (Some (TzObj 1)))) /\
  ts_make_all_day env_ex ex_t = Ok (mk_ts KEvent (Some (mk_dt ref false None)) None (Some (2 * US_DAY)) PDay).
Proof. repeat match goal with |- _ /\ _ => split end; vm_compute; reflexivity. Qed.
(** Findings. The docstring of make_all_day says that an event of two days keeps that
    length: only true if it starts at midnight. *)
Definition ex_two := mk_ts KEvent (Some (mk_dt (ref + 10 * hour) false None)) None (Some (2 * US_DAY)) PSecond.
Definition ex_three := mk_ts KEvent (Some (mk_dt ref false None)) None (Some (3 * US_DAY)) PDay.
Theorem C21_two_days_refuted : exists E t t', eff_duration E t = Ok (Some (2 * US_DAY)) /\
  ts_make_all_day E t = Ok t' /\ eff_duration E t' = Ok (Some (3 * US_DAY)).
Proof.
  exists env_ex, ex_two, ex_three. split; [vm_compute; reflexivity|]. split; vm_compute; reflexivity.
Qed.
Print Assumptions C21_two_days_refuted.
(** With begin and end in different zones a valid span may be rejected with ValueError,
    because the day of the end is earlier. *)
Definition ex_far := mk_ts KEvent (Some (mk_dt (ref + hour) false (Some (TzObj 3))))
  (Some (mk_dt (ref - 24 * hour) false (Some (TzObj 2)))) None PSecond.
Theorem C21_zones_refuted : exists E t, validate E t = Ok tt /\ ts_make_all_day E t = Err ValueError.
Proof. exists env_ex, ex_far. split; vm_compute; reflexivity. Qed.
Print Assumptions C21_zones_refuted.

(** ** C22. *)
Theorem C22_floor : forall d, let m := floor_midnight d in
  dtz m = dtz d /\ midnight m /\ wall m <= wall d /\
  (forall m', midnight m' -> wall m' <= wall d -> wall m' <= wall m).
Proof. exact floor_spec. Qed.
Print Assumptions C22_floor.
Theorem C22_ceil : forall E d, stored d ->
  match ceil_midnight E d with
  | Ok m => dtz m = dtz d /\ midnight m /\ wall d <= wall m /\ stored m /\
      (forall m', midnight m' -> wall d <= wall m' -> wall m <= wall m')
  | Err e => e = OverflowError /\ forall m', midnight m' -> wall d <= wall m' -> wall_ok (wall m') = false
  end.
Proof. exact ceil_spec. Qed.
Print Assumptions C22_ceil.
Theorem C22_floor_days : forall x r, floor_td_days x = Ok r ->
  r mod 86400000000 = 0 /\ r <= x /\ forall r', r' mod 86400000000 = 0 -> r' <= x -> r' <= r.
Proof. exact floor_td_spec. Qed.
Print Assumptions C22_floor_days.
Theorem C22_ceil_days : forall x r, ceil_td_days x = Ok r ->
  r mod 86400000000 = 0 /\ x <= r /\ forall r', r' mod 86400000000 = 0 -> x <= r' -> r <= r'.
Proof. exact ceil_td_spec. Qed.
Print Assumptions C22_ceil_days.
(** They fail only at the ends of the timedelta range. *)
Theorem C22_days_total : forall x e, TD_MIN <= x <= TD_MAX ->
  (floor_td_days x = Err e -> e = OverflowError /\ x - x mod US_DAY < TD_MIN) /\
  (ceil_td_days x = Err e -> e = OverflowError /\ x mod US_DAY <> 0 /\ TD_MAX < x + US_DAY).
Proof. exact (fun x e H => conj (floor_td_err x e H) (ceil_td_err x e H)). Qed.
Print Assumptions C22_days_total.
Example C22_example : stored (mk_dt (ref + hour) true (Some (TzObj 1))) /\
  ceil_midnight env_ex (mk_dt (ref + hour) true (Some (TzObj 1))) = Ok (mk_dt (ref + US_DAY) false (Some (TzObj 1))) /\
  floor_td_days (- 1) = Ok (- US_DAY) /\ ceil_td_days (- US_DAY - 1) = Ok (- US_DAY).
Proof.
  cbv zeta. repeat match goal with |- _ /\ _ => split | |- one_zone _ _ => split | |- stored _ => split end;
  first [vm_compute; reflexivity | discriminate].
Qed.
