(** * C68: conversions between UTC and the zone of a VTIMEZONE *)
From Verif Require Import M_Base P_Base M_Codec M_Cal P_Span M_Zone S_Zone P_Zone M_FromUtc S_FromUtc P_FromUtc P_FromUtcEx.
Open Scope Z_scope.

(** ** C68. After any history of lookups a UTC time is converted to the wall time with
    the offset in force at that instant, for every zone with one standard offset whose
    onsets are written in order, unless the clock was just set back. *)
Theorem C68_forward : forall onset l s u h, l <> [] -> (forall c, In c l -> rule_ok onset c) -> one_standard s l ->
  in_order onset l -> room u -> ~ repeats onset l u ->
  exists c, at_instant onset l u c /\ snd (zone_fromutc l (after l [] h) u) = Ok (u + ob_to c, false).
Proof. exact forward_told. Qed.
Print Assumptions C68_forward.
(** And the wall time is converted back to the same UTC time, if it was not asked about
    as a second reading before. *)
Theorem C68_back : forall onset l s u h, l <> [] -> (forall c, In c l -> rule_ok onset c) -> one_standard s l ->
  in_order onset l -> ahead onset l -> room u -> ~ repeats onset l u ->
  (forall c q f, at_instant onset l u c -> In (q, u + ob_to c, f) h -> f = false) ->
  exists c m', zone_fromutc l (after l [] h) u = (m', Ok (u + ob_to c, false)) /\ at_instant onset l u c /\
    snd (zone_to_utc l m' (u + ob_to c) false) = Ok u.
Proof. exact there_and_back_told. Qed.
Print Assumptions C68_back.
(** One observance is in force at an instant. *)
Theorem C68_unique : forall onset l u c c', in_order onset l -> at_instant onset l u c -> at_instant onset l u c' -> c = c'.
Proof. exact instant_one. Qed.
Print Assumptions C68_unique.
(** Conversions change the cache like lookups do, so the histories include them. *)
Theorem C68_history : forall l m u w f, (exists h, fst (zone_fromutc l m u) = after l m h) /\
  (exists h, fst (zone_to_utc l m w f) = after l m h).
Proof. exact (fun l m u w f => conj (asked_fromutc l m u) (asked_to_utc l m w f)). Qed.
Print Assumptions C68_history.
(** Were lookups not cached, every UTC time would be converted right and back, with
    the readings shown twice told apart by [fold]. *)
Theorem C68_uncached : forall onset l s u, l <> [] -> (forall c, In c l -> rule_ok onset c) -> one_standard s l ->
  in_order onset l -> ahead onset l -> room u ->
  exists w f c, fresh_fromutc l u = Ok (w, f) /\ at_instant onset l u c /\ w = u + ob_to c /\ fresh_to_utc l w f = Ok u.
Proof. exact fresh_told. Qed.
Print Assumptions C68_uncached.
Example C68_example : forall h, (fu_zone fu_hour) <> [] /\ (forall c, In c (fu_zone fu_hour) -> rule_ok (fu_onset fu_hour) c) /\
  one_standard fu_hour (fu_zone fu_hour) /\ in_order (fu_onset fu_hour) (fu_zone fu_hour) /\ ahead (fu_onset fu_hour) (fu_zone fu_hour) /\
  room fu_july /\ ~ repeats (fu_onset fu_hour) (fu_zone fu_hour) fu_july /\
  snd (zone_fromutc (fu_zone fu_hour) (after (fu_zone fu_hour) [] h) fu_july) = Ok (fu_time 7 1 14 0, false).
Proof. exact fu_meets. Qed.
Example C68_uncached_example :
  fresh_fromutc (fu_zone fu_hour) fu_first = Ok (fu_time 10 25 2 30, false) /\ fresh_fromutc (fu_zone fu_hour) fu_second = Ok (fu_time 10 25 2 30, true) /\
  fresh_fromutc (fu_zone 0) fu_first = Ok (fu_time 10 25 1 30, false) /\ fresh_fromutc (fu_zone 0) fu_second = Ok (fu_time 10 25 1 30, true).
Proof. repeat split; vm_compute; reflexivity. Qed.

(** Findings: the cache ignores [fold], so [fold] is never set, for any zone and history, *)
Theorem C68_fold_refuted : forall l m u w f, snd (zone_fromutc l m u) = Ok (w, f) -> f = false.
Proof. exact fold_never. Qed.
Print Assumptions C68_fold_refuted.
(** and times in the hour shown twice are changed by converting them there and, after
    some other lookups, back *)
Theorem C68_second_refuted : exists onset l s u, l <> [] /\ (forall c, In c l -> rule_ok onset c) /\ one_standard s l /\
  in_order onset l /\ ahead onset l /\ room u /\ exists w m' h, zone_fromutc l [] u = (m', Ok (w, false)) /\
  snd (zone_to_utc l (after l m' h) w false) <> Ok u.
Proof. exact fu_second_wrong. Qed.
Print Assumptions C68_second_refuted.
(** (the other way also for the first pass, if the second was converted before). *)
Theorem C68_first_refuted : exists onset l s u h, l <> [] /\ (forall c, In c l -> rule_ok onset c) /\ one_standard s l /\
  in_order onset l /\ ahead onset l /\ room u /\ ~ repeats onset l u /\
  exists w m', zone_fromutc l (after l [] h) u = (m', Ok (w, false)) /\ snd (zone_to_utc l m' w false) <> Ok u.
Proof. exact fu_first_wrong. Qed.
Print Assumptions C68_first_refuted.
(** If the standard offset is zero, even the wall time is wrong. *)
Theorem C68_wall_refuted : exists onset l u, l <> [] /\ (forall c, In c l -> rule_ok onset c) /\ one_standard 0 l /\
  in_order onset l /\ ahead onset l /\ room u /\
  forall c, at_instant onset l u c -> exists w, snd (zone_fromutc l [] u) = Ok (w, false) /\ w <> u + ob_to c.
Proof. exact fu_wall_wrong. Qed.
Print Assumptions C68_wall_refuted.
