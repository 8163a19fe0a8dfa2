(** * C17-C20, C48: histories of events and todos *)
From Verif Require Import M_Base P_Base M_Codec M_Cal M_Time M_Span S_Span P_Span M_Event S_Event P_Event.
Open Scope Z_scope.

(** ** C17. After any history the time span is consistent. *)
Theorem C17_consistent : forall E utc c b e d uid ds kw ps o, Forall ordinary ps -> new E utc c b e d uid ds kw = Ok o ->
  exists t, dict_get (py "timespan") (o_attrs (run_all E utc ps o)) = Some (VSpan t) /\
    ts_kind t = span_kind c /\ consistent E t.
Proof. exact history_consistent. Qed.
Print Assumptions C17_consistent.

(** A construction and a history for the examples. *)
Definition ex_utc := TzObj 0.
Definition ex_new := new env_ex ex_utc CEvent (VDt (mk_dt (ref + hour) false (Some (TzObj 1)))) VNone VNone
  (VStr (py "u")) (VDt (mk_dt ref false (Some ex_utc))) [].
Definition ex_ops := [OSet (py "duration") (VTd (4 * hour)); OSet (py "end") (VTd 7); OConvertEnd TEnd; OMakeAllDay].
Definition span_of (o : obj) : option timespan :=
  match dict_get (py "timespan") (o_attrs o) with Some (VSpan t) => Some t | _ => None end.
Example C17_example :
  (match ex_new with Ok o => span_of (run_all env_ex ex_utc ex_ops o) | Err _ => None end)
  = Some (mk_ts KEvent (Some (mk_dt ref false None)) (Some (mk_dt (ref + US_DAY) false None)) None PDay).
Proof. vm_compute. reflexivity. Qed.

Example C17_example_ops : Forall ordinary ex_ops.
Proof. repeat (apply Forall_cons || apply Forall_nil); intros v; split; discriminate. Qed.

(** Findings. A program that clears the mark by which the library knows that an object is
    complete can store anything afterwards. *)
Theorem C17_mark_refuted : forall E utc o v, reachable E utc o ->
  dict_get (py "timespan") (o_attrs (run_all E utc [OSet (py "__post_init__") VNone; OSet (py "timespan") v] o)) = Some v.
Proof. exact unchecked_span. Qed.
Print Assumptions C17_mark_refuted.
(** Day alignment of an all-day duration holds only up to half a second
    (see [co_day_dur]): a duration of a day and 0.4 s is stored. *)
Theorem C17_aligned_refuted : exists E utc o ps t d,
  (exists c b e d uid ds kw, new E utc c b e d uid ds kw = Ok o) /\
  span_of (run_all E utc ps o) = Some t /\ ts_prec t = PDay /\ ts_dur t = Some d /\ d mod US_DAY <> 0.
Proof.
  exists env_ex, ex_utc, (match ex_new with Ok o => o | Err _ => mk_obj CEvent [] end),
    [OMakeAllDay; OSet (py "duration") (VTd (US_DAY + 400000))],
    (mk_ts KEvent (Some (mk_dt ref false None)) None (Some (US_DAY + 400000)) PDay), (US_DAY + 400000).
  split.
  - exists CEvent, (VDt (mk_dt (ref + hour) false (Some (TzObj 1)))), VNone, VNone, (VStr (py "u")),
      (VDt (mk_dt ref false (Some ex_utc))), []. vm_compute. reflexivity.
  - split; [vm_compute; reflexivity|]. split; [reflexivity|]. split; [reflexivity|]. vm_compute. discriminate.
Qed.
Print Assumptions C17_aligned_refuted.
(** Within one zone clocks are compared, so that around the end of summer time the end
    can be the earlier instant. *)
Theorem C17_instant_refuted : exists E b e,
  validate E (mk_ts KEvent (Some b) (Some e) None PSecond) = Ok tt /\ instant E e < instant E b.
Proof.
  exists env_ex, (mk_dt (ref + 2 * hour + hour / 2) true (Some (TzObj 1))),
    (mk_dt (ref + 2 * hour + hour / 2 + 60 * US_SEC) false (Some (TzObj 1))).
  split; vm_compute; reflexivity.
Qed.
Print Assumptions C17_instant_refuted.
(** A todo may have a due date without a begin. *)
Theorem C17_due_refuted : forall E e, validate E (mk_ts KTodo None (Some e) None PSecond) = Ok tt.
Proof. reflexivity. Qed.
Print Assumptions C17_due_refuted.

(** ** C18. An operation that raises leaves the object (all of it) as it was. *)
Theorem C18_atomic : forall E utc p o o' x, run E utc p o = (o', Err x) -> o' = o.
Proof. exact run_atomic. Qed.
Print Assumptions C18_atomic.
Example C18_example : match ex_new with
  | Ok o => snd (run env_ex ex_utc (OSet (py "end") (VDt (mk_dt ref false (Some (TzObj 1))))) o) = Err ValueError
  | Err _ => False end.
Proof. vm_compute. reflexivity. Qed.

(** ** C19. *)
Theorem C19_set_end : forall E utc o o' v e, reachable E utc o ->
  run E utc (OSet (py "end") v) o = (o', Ok tt) -> ensure_datetime v = Ok (Some e) ->
  reading get_begin o' = reading get_begin o /\ reading (get_end E) o' = Ok (Some e) /\ others_same o o'.
Proof. exact set_end_reads. Qed.
Print Assumptions C19_set_end.
Theorem C19_set_duration : forall E utc o o' v d, reachable E utc o ->
  run E utc (OSet (py "duration") v) o = (o', Ok tt) -> ensure_timedelta v = Ok (Some d) ->
  reading get_begin o' = reading get_begin o /\ reading (get_duration E) o' = Ok (Some d) /\ 0 <= d /\
  (exists b, reading get_begin o = Ok (Some b) /\
     reading (get_end E) o' = (if wall_ok (wall b + d) then Ok (Some (mk_dt (wall b + d) false (dtz b))) else Err OverflowError)) /\
  others_same o o'.
Proof. exact set_duration_reads. Qed.
Print Assumptions C19_set_duration.
Theorem C19_set_begin : forall E utc o o' v b t, reachable E utc o ->
  run E utc (OSet (py "begin") v) o = (o', Ok tt) -> ensure_datetime v = Ok b ->
  dict_get (py "timespan") (o_attrs o) = Some (VSpan t) ->
  reading get_begin o' = Ok b /\
  (forall e, ts_end t = Some e -> reading (get_end E) o' = Ok (Some e)) /\
  (forall d, ts_dur t = Some d -> reading (get_duration E) o' = Ok (Some d)) /\ others_same o o'.
Proof. exact set_begin_keeps. Qed.
Print Assumptions C19_set_begin.
(** End is begin plus duration: on the clock within one zone, in instants across zones. *)
Theorem C19_related : forall E utc o b e d, reachable E utc o -> reading get_begin o = Ok (Some b) ->
  reading (get_end E) o = Ok (Some e) -> reading (get_duration E) o = Ok (Some d) -> dtz b <> Some TzLocal ->
  (dtz e = dtz b -> wall e = wall b + d) /\ (dtz e <> dtz b -> instant E e = instant E b + d).
Proof. exact end_related_obj. Qed.
Print Assumptions C19_related.
Lemma ex_reachable : match ex_new with Ok o => reachable env_ex ex_utc o | Err _ => False end.
Proof.
  exists CEvent, (VDt (mk_dt (ref + hour) false (Some (TzObj 1)))), VNone, VNone, (VStr (py "u")),
    (VDt (mk_dt ref false (Some ex_utc))), [], (match ex_new with Ok o => o | Err _ => mk_obj CEvent [] end), [].
  split; [vm_compute; reflexivity|split; [constructor|reflexivity]].
Qed.
Example C19_example : match ex_new with
  | Ok o => reachable env_ex ex_utc o /\ snd (run env_ex ex_utc (OSet (py "end") (VDt (mk_dt (ref + 5 * hour) false (Some (TzObj 1))))) o) = Ok tt /\
      snd (run env_ex ex_utc (OSet (py "duration") (VTd (4 * hour))) o) = Ok tt /\
      snd (run env_ex ex_utc (OSet (py "begin") (VDt (mk_dt ref false (Some (TzObj 1))))) o) = Ok tt
  | Err _ => False end.
Proof. split; [exact ex_reachable|]. split; [vm_compute; reflexivity|]. split; vm_compute; reflexivity. Qed.
(** Finding: Python's [begin + duration == end] fails when the zones differ and the
    offset of begin's zone changes in between. *)
Theorem C19_plus_refuted : exists E b e d e',
  validate E (mk_ts KEvent (Some b) (Some e) None PSecond) = Ok tt /\
  eff_duration E (mk_ts KEvent (Some b) (Some e) None PSecond) = Ok (Some d) /\
  dt_add b d = Ok e' /\ dt_eqb E e' e = false.
Proof.
  exists env_ex, (mk_dt (ref + hour) false (Some (TzObj 1))), (mk_dt (ref + 5 * hour) false (Some (TzObj 0))),
    (6 * hour), (mk_dt (ref + 7 * hour) false (Some (TzObj 1))).
  split; [vm_compute; reflexivity|]. split; [vm_compute; reflexivity|]. split; vm_compute; reflexivity.
Qed.
Print Assumptions C19_plus_refuted.
(** Finding: the end may be impossible to read: an event at the end of the year 9999
    accepts a duration, and reading its end raises OverflowError. *)
Theorem C19_end_overflow_refuted : exists E t, validate E t = Ok tt /\ ts_begin t <> None /\ ts_dur t <> None /\
  eff_end E t = Err OverflowError.
Proof.
  exists env_ex, (mk_ts KEvent (Some (mk_dt (mk_wall 9999 12 31 12 0 0 0) false None)) None (Some US_DAY) PSecond).
  split; [vm_compute; reflexivity|]. split; [discriminate|]. split; [discriminate|]. vm_compute. reflexivity.
Qed.
Print Assumptions C19_end_overflow_refuted.

(** ** C20 on objects: when the span converts (C20_to_duration, C20_to_end), all
    readings and all other attributes of the object stay the same. *)
Theorem C20_object : forall E utc o t t' tg, reachable E utc o ->
  dict_get (py "timespan") (o_attrs o) = Some (VSpan t) ->
  tg <> TDue -> ts_convert_end E t tg = Ok t' -> same_reading E t t' ->
  exists o', run E utc (OConvertEnd tg) o = (o', Ok tt) /\
    reading get_begin o' = reading get_begin o /\ reading (get_end E) o' = reading (get_end E) o /\
    reading (get_duration E) o' = reading (get_duration E) o /\ others_same o o' /\
    exists t', dict_get (py "timespan") (o_attrs o') = Some (VSpan t') /\ ts_prec t' = ts_prec t.
Proof. exact convert_end_obj. Qed.
Print Assumptions C20_object.

(** ** C48. After any history every attribute holds a value of its kind. *)
Theorem C48_attributes : forall E utc o, zone_obj utc -> reachable E utc o -> attributes_ok utc o.
Proof. exact reachable_attributes. Qed.
Print Assumptions C48_attributes.
Example C48_example : zone_obj ex_utc /\ match ex_new with
  | Ok o => reachable env_ex ex_utc o /\ snd (run env_ex ex_utc (OSet (py "status") (VStr (py "confirmed"))) o) = Ok tt /\
      snd (run env_ex ex_utc (OSet (py "status") (VStr (py "maybe"))) o) = Err ValueError
  | Err _ => False end.
Proof. split; [exact I|]. split; [exact ex_reachable|]. split; vm_compute; reflexivity. Qed.
