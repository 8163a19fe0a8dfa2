(** * Property C76: which time spans are accepted, and exactly what each operation on them gives *)
From Verif Require Import M_Base M_Codec M_Cal M_Time M_Span S_Span S_SpanOps P_SpanOps P_SpanDay P_SpanOpsEx.
Open Scope Z_scope.

(** C76. A span is accepted, or refused with a definite exception; making or replacing
    one gives the span or that exception. *)
Theorem C76_validate : forall E t r, stored_span t -> (verdict E t r <-> validate E t = r).
Proof. exact verdict_iff. Qed.
Print Assumptions C76_validate.
Theorem C76_make : forall E k b e d p r, stored_span (mk_ts k b e d p) -> (checked E (mk_ts k b e d p) r <-> make E k b e d p = r).
Proof. exact make_iff. Qed.
Print Assumptions C76_make.
Example C76_validate_example : Forall (fun p => stored_span (fst p) /\ verdict env_ex (fst p) (snd p)) sx_verdicts.
Proof. exact verdict_examples. Qed.

(** C76. The length and the end that are read from a span. *)
Theorem C76_length : forall E t o,
  (forall b e, ts_begin t = Some b -> ts_end t = Some e -> ts_dur t = None -> comparable b e) ->
  (length_is E t o <-> eff_duration E t = Ok o).
Proof. exact length_iff. Qed.
Print Assumptions C76_length.
Theorem C76_end : forall E t r, end_is t r <-> eff_end E t = r.
Proof. exact end_iff. Qed.
Print Assumptions C76_end.
Example C76_length_example : length_is env_ex sx_good (Some (4 * hour)) /\ end_is sx_dur (Ok (Some (sx 24 None))) /\
  forall b e, ts_begin sx_good = Some b -> ts_end sx_good = Some e -> ts_dur sx_good = None -> comparable b e.
Proof. exact length_example. Qed.

(** C76. Changing the representation of the end. *)
Theorem C76_convert_end : forall E t tg r, stored_span t -> accepted E t -> (end_converted E t tg r <-> ts_convert_end E t tg = r).
Proof. exact convert_iff. Qed.
Print Assumptions C76_convert_end.
Example C76_accepted_example : Forall (fun t => stored_span t /\ accepted env_ex t) [sx_good; sx_dur; sx_near].
Proof. exact accepted_examples. Qed.
Example C76_convert_example :
  end_converted env_ex sx_good TDuration (Ok (sx_ev (ts_begin sx_good) None (Some (4 * hour)) PSecond)) /\
  end_converted env_ex sx_good TDue (Err ValueError) /\
  end_converted env_ex sx_near TEnd (Err ValueError).
Proof. exact convert_example. Qed.
(** Finding: an accepted span may have an end that cannot be told by a duration. *)
Theorem C76_duration_refuted : ~ forall E t, stored_span t -> accepted E t -> ts_end t <> None ->
  exists t', end_converted E t TDuration (Ok t').
Proof. exact duration_refused. Qed.
Print Assumptions C76_duration_refuted.

(** C76. Time zones: one time, and a span. *)
Theorem C76_astimezone : forall E d z r, in_zone E d z r <-> dt_astimezone E d z = r.
Proof. exact astimezone_iff. Qed.
Print Assumptions C76_astimezone.
Theorem C76_replace_timezone : forall E t z r, z <> Some TzLocal -> stored_span t ->
  (rezoned E t (with_zone z) r <-> ts_replace_timezone E t z = r).
Proof. exact replace_tz_iff. Qed.
Print Assumptions C76_replace_timezone.
Theorem C76_convert_timezone : forall E t z r, z <> Some TzLocal -> stored_span t ->
  (rezoned E t (fun d => in_zone E d z) r <-> ts_convert_timezone E t z = r).
Proof. exact convert_tz_iff. Qed.
Print Assumptions C76_convert_timezone.
Example C76_zone_example :
  rezoned env_ex sx_good (with_zone None) (Ok (sx_ev (Some (sx 1 None)) (Some (sx 5 None)) None PSecond)) /\
  rezoned env_ex sx_good (fun d => in_zone env_ex d (Some (TzObj 0)))
    (Ok (sx_ev (Some (sx (-1) (Some (TzObj 0)))) (Some (sx 4 (Some (TzObj 0)))) None PSecond)).
Proof. exact zone_example. Qed.

(** C76. Whole days. *)
Theorem C76_make_all_day : forall E t r, stored_span t -> accepted E t -> (all_day E t r <-> ts_make_all_day E t = r).
Proof. exact all_day_iff. Qed.
Print Assumptions C76_make_all_day.
Example C76_all_day_example : stored_span sx_rev /\ accepted env_ex sx_rev /\ all_day env_ex sx_rev (Err ValueError) /\
  all_day env_ex sx_good (Ok (sx_ev (Some (sx 0 None)) (Some (sx 24 None)) None PDay)).
Proof. exact reversed_example. Qed.
(** Finding: an accepted span may be refused when it is made all-day, because the clocks
    of its two zones stand in the other order. *)
Theorem C76_all_day_refuted : ~ forall E t, stored_span t -> accepted E t ->
  (exists e, eff_end E t = Ok e) -> exists t', all_day E t (Ok t') \/ all_day E t (Err OverflowError).
Proof. exact all_day_refused. Qed.
Print Assumptions C76_all_day_refuted.
