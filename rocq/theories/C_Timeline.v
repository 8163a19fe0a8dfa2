(** * C26-C28: timelines *)
From Verif Require Import M_Base P_Base M_Codec M_Cal M_Time M_Span S_Span P_Span M_Event M_Cmp S_Cmp P_Cmp M_Heap P_Heap M_Timeline S_Timeline P_Timeline.
From Coq Require Import Permutation Sorted.
Open Scope Z_scope.

(** ** C26. Without normalisation: the timeline is the list of events that have a begin,
    each as often as it occurs, sorted by begin and end. Of two events that are equal
    ([==]) begin and end must be equal instants, too. *)
Theorem C26_timeline : forall E P events, good_local E -> tame E P ->
  (forall x, In x events -> event_ok E x) ->
  (forall x, In x events -> has_begin x = true -> exists k, sort_key E P (en_span x) k) ->
  (forall x y k l, In x events -> In y events -> sort_key E P (en_span x) k -> sort_key E P (en_span y) l ->
     entry_eqb E x y = true -> k = l) ->
  exists r, tl_iter E None events = (r, None) /\
    Permutation r (filter has_begin events) /\
    StronglySorted (fun x y => not_after E P (en_span x) (en_span y)) r.
Proof. exact iter_plain. Qed.
Print Assumptions C26_timeline.
(** With a normalisation that does not fail: the same, sorted by the normalised spans. *)
Theorem C26_normalized : forall E P N events spans, good_local E -> tame E P -> even E P ->
  (forall x, In x events -> event_ok E x) ->
  Forall2 (fun x s => tl_span E N (en_span x) = Ok s) events spans ->
  (forall s x, In (s, x) (combine spans events) -> has_begin x = true ->
     (exists k, sort_key E P s k) /\ (exists k, sort_key E P (en_span x) k)) ->
  exists r, tl_iterator E N events = (r, None) /\
    Permutation (map snd r) (filter has_begin events) /\
    (forall s x, In (s, x) r -> tl_span E N (en_span x) = Ok s) /\
    StronglySorted (not_after E P) (map fst r).
Proof. exact (fun E P N events spans GL HT => iterator_norm E GL P HT N events spans). Qed.
Print Assumptions C26_normalized.
(** The order is by instants: a later event never precedes one with a smaller key. *)
Theorem C26_order : forall E P s t k l, sort_key E P s k -> sort_key E P t l ->
  (not_after E P s t <-> fst k < fst l \/ fst k = fst l /\ snd k <= snd l).
Proof. exact not_after_iff. Qed.
Print Assumptions C26_order.

Definition tx_at (h : Z) (z : option tz) := mk_dt (ref + h * hour) false z.
Definition tx_ev (b : datetime) (d : Z) (n : N) := mk_entry (mk_ts KEvent (Some b) None (Some (d * hour)) PSecond) None n.
Definition tx_1 := tx_ev (tx_at 9 None) 2 1.
Definition tx_2 := tx_ev (tx_at 7 (Some (TzObj 0))) 1 2.
Definition tx_3 := tx_ev (tx_at 5 (Some (TzObj 1))) 20 3.
Definition tx_4 := mk_entry (mk_ts KEvent None None None PSecond) (Some (py "undated")) 4.
Definition tx_events := [tx_1; tx_2; tx_3; tx_4; tx_1].
Lemma tx_keys : forall x, In x tx_events -> has_begin x = true -> exists k, sort_key env_ex ex_tame (en_span x) k.
Proof.
  intros x [<-|[<-|[<-|[<-|[<-|[]]]]]] H; [| | |discriminate|].
  - exists (ref + 8 * hour, ref + 10 * hour), (Some (tx_at 11 None)).
    repeat match goal with |- _ /\ _ => split end; try (unfold ex_tame; vm_compute; intuition discriminate); vm_compute; reflexivity.
  - exists (ref + 7 * hour, ref + 8 * hour), (Some (tx_at 8 (Some (TzObj 0)))).
    repeat match goal with |- _ /\ _ => split end; try (unfold ex_tame; vm_compute; intuition discriminate); vm_compute; reflexivity.
  - exists (ref + 4 * hour, ref + 24 * hour), (Some (tx_at 25 (Some (TzObj 1)))).
    repeat match goal with |- _ /\ _ => split end; try (unfold ex_tame; vm_compute; intuition discriminate); vm_compute; reflexivity.
  - exists (ref + 8 * hour, ref + 10 * hour), (Some (tx_at 11 None)).
    repeat match goal with |- _ /\ _ => split end; try (unfold ex_tame; vm_compute; intuition discriminate); vm_compute; reflexivity.
Qed.
Example C26_example : good_local env_ex /\ tame env_ex ex_tame /\
  (forall x, In x tx_events -> event_ok env_ex x) /\
  (forall x, In x tx_events -> has_begin x = true -> exists k, sort_key env_ex ex_tame (en_span x) k) /\
  (forall x y k l, In x tx_events -> In y tx_events -> sort_key env_ex ex_tame (en_span x) k -> sort_key env_ex ex_tame (en_span y) l ->
     entry_eqb env_ex x y = true -> k = l) /\
  tl_iter env_ex None tx_events = ([tx_3; tx_2; tx_1; tx_1], None).
Proof.
  split; [exact good_local_ex|]. split; [exact tame_ex|]. split; [|split; [exact tx_keys|split]].
  - intros x [<-|[<-|[<-|[<-|[<-|[]]]]]]; split; vm_compute; reflexivity.
  - intros x y k l HX HY KX KY HE. apply entry_rest in HE. assert (x = y).
    { destruct HX as [<-|[<-|[<-|[<-|[<-|[]]]]]], HY as [<-|[<-|[<-|[<-|[<-|[]]]]]]; try discriminate; reflexivity. }
    subst y. exact (sort_key_fun _ _ _ _ _ KX KY).
  - vm_compute. reflexivity.
Qed.
Definition tx_norm := mk_norm (Some (TzObj 0)) AConvert AConvert.
Definition tx_n1 := mk_ts KEvent (Some (tx_at 8 (Some (TzObj 0)))) None (Some (2 * hour)) PSecond.
Definition tx_n3 := mk_ts KEvent (Some (tx_at 4 (Some (TzObj 0)))) None (Some (20 * hour)) PSecond.
Example C26_example_norm : tame env_ex ex_late /\ even env_ex ex_late /\
  Forall2 (fun x s => tl_span env_ex (Some tx_norm) (en_span x) = Ok s) [tx_1; tx_3] [tx_n1; tx_n3] /\
  (forall s x, In (s, x) (combine [tx_n1; tx_n3] [tx_1; tx_3]) -> has_begin x = true ->
     (exists k, sort_key env_ex ex_late s k) /\ (exists k, sort_key env_ex ex_late (en_span x) k)) /\
  tl_iterator env_ex (Some tx_norm) [tx_1; tx_3] = ([(tx_n3, tx_3); (tx_n1, tx_1)], None).
Proof.
  split; [exact late_tame|]. split; [exact late_even|]. split; [repeat constructor; vm_compute; reflexivity|]. split; [|vm_compute; reflexivity].
  intros s x [[= <- <-]|[[= <- <-]|[]]] _; split.
  - exists (ref + 8 * hour, ref + 10 * hour), (Some (tx_at 10 (Some (TzObj 0)))).
    repeat match goal with |- _ /\ _ => split end; try (unfold ex_late; vm_compute; intuition discriminate); vm_compute; reflexivity.
  - exists (ref + 8 * hour, ref + 10 * hour), (Some (tx_at 11 None)).
    repeat match goal with |- _ /\ _ => split end; try (unfold ex_late; vm_compute; intuition discriminate); vm_compute; reflexivity.
  - exists (ref + 4 * hour, ref + 24 * hour), (Some (tx_at 24 (Some (TzObj 0)))).
    repeat match goal with |- _ /\ _ => split end; try (unfold ex_late; vm_compute; intuition discriminate); vm_compute; reflexivity.
  - exists (ref + 4 * hour, ref + 24 * hour), (Some (tx_at 25 (Some (TzObj 1)))).
    repeat match goal with |- _ /\ _ => split end; try (unfold ex_late; vm_compute; intuition discriminate); vm_compute; reflexivity.
Qed.
(** Findings. With a normalisation of floating times one all-day event anywhere makes
    the whole timeline fail. *)
Theorem C26_all_day_refuted : forall E n events x, In x events -> is_all_day (en_span x) = true ->
  is_floating (en_span x) = true -> nm_floating n <> AIgnore ->
  exists e, tl_iter E (Some n) events = ([], Some e).
Proof. exact iter_all_day. Qed.
Print Assumptions C26_all_day_refuted.
(** Around a clock change the order is that of the clocks. *)
Definition tx_a := tx_ev (mk_dt (ref + 2 * hour + 45 * 60 * US_SEC) false (Some (TzObj 1))) 0 1.
Definition tx_b := tx_ev (mk_dt (ref + 2 * hour + 30 * 60 * US_SEC) true (Some (TzObj 1))) 0 2.
Theorem C26_clock_refuted : exists E x y, good_local E /\ event_ok E x /\ event_ok E y /\
  tl_iter E None [x; y] = ([y; x], None) /\
  exists b c, ts_begin (en_span x) = Some b /\ ts_begin (en_span y) = Some c /\ moment E b < moment E c.
Proof.
  exists env_ex, tx_a, tx_b. split; [exact good_local_ex|].
  split; [split; vm_compute; reflexivity|]. split; [split; vm_compute; reflexivity|]. split; [vm_compute; reflexivity|].
  eexists. eexists. split; [reflexivity|]. split; [reflexivity|]. vm_compute. reflexivity.
Qed.
Print Assumptions C26_clock_refuted.

(** ** C27. [r] is the timeline; the queries pick from it, in order. *)
Theorem C27_included : forall E P N events r start stop q B' N', good_local E -> tame E P ->
  tl_iterator E N events = (r, None) -> timed E P r ->
  tl_query E N start stop = Ok q -> interval E P q B' N' ->
  exists l, tl_included E N events start stop = (map snd l, None) /\
    picked (fun p => exists B M, interval E P (fst p) B M /\ B' <= B /\ M < N') r l.
Proof. exact (fun E P N events r start stop q B' N' GL HT HR TD => included_picked E GL P HT N events r HR TD start stop q B' N'). Qed.
Print Assumptions C27_included.
Theorem C27_overlapping : forall E P N events r start stop q B' N', good_local E -> tame E P ->
  tl_iterator E N events = (r, None) -> timed E P r ->
  tl_query E N start stop = Ok q -> interval E P q B' N' -> B' < N' ->
  exists l, tl_overlapping E N events start stop = (map snd l, None) /\
    picked (fun p => exists B M, interval E P (fst p) B M /\ (shares B M B' N' \/ touches B M B' N')) r l.
Proof. exact (fun E P N events r start stop q B' N' GL HT HR TD => overlapping_picked E GL P HT N events r HR TD start stop q B' N'). Qed.
Print Assumptions C27_overlapping.
Theorem C27_start_after : forall E P N events r v d, good_local E -> tame E P ->
  tl_iterator E N events = (r, None) -> timed E P r ->
  tl_datetime E N v = Ok (Some d) -> convertible E d -> P d ->
  (forall p b, In p r -> ts_begin (fst p) = Some b -> naive b = naive d) ->
  exists l, tl_start_after E N events v = (map snd l, None) /\
    picked (fun p => exists b, ts_begin (fst p) = Some b /\ moment E d < moment E b) r l.
Proof. exact (fun E P N events r v d _ HT HR TD => start_after_picked E P HT N events r HR TD v d). Qed.
Print Assumptions C27_start_after.
Theorem C27_at : forall E P N events r v d, good_local E -> tame E P ->
  tl_iterator E N events = (r, None) -> timed E P r ->
  tl_datetime E N v = Ok (Some d) -> convertible E d -> P d ->
  exists l, tl_at E N events v = (map snd l, None) /\
    picked (fun p => exists B M, interval E P (fst p) B M /\ inside (moment E d) B M) r l.
Proof. exact (fun E P N events r v d GL HT HR TD => at_picked E GL P HT N events r HR TD v d). Qed.
Print Assumptions C27_at.
(** A range given by two datetimes is that Timespan; a Timespan and a stop is an error. *)
Theorem C27_range : forall E N start stop b e q, ensure_datetime start = Ok b -> ensure_datetime stop = Ok e ->
  make E KBase b e None PSecond = Ok q ->
  tl_query E N start stop = tl_query E N (VSpan q) VNone /\ (stop <> VNone -> tl_query E N (VSpan q) stop = Err ValueError).
Proof. exact query_range. Qed.
Print Assumptions C27_range.
(** What is picked is determined by the property. *)
Theorem C27_picked : forall A (Q : A -> Prop) r l l', picked Q r l -> picked Q r l' -> l = l'.
Proof. exact @picked_fun. Qed.
Print Assumptions C27_picked.

Definition tx_r : list item := map (fun x => (en_span x, x)) [tx_3; tx_2; tx_1; tx_1].
Definition tx_q := mk_ts KBase (Some (tx_at 8 (Some (TzObj 0)))) (Some (tx_at 12 (Some (TzObj 0)))) None PSecond.
Lemma tx_timed : timed env_ex ex_tame tx_r.
Proof.
  intros p [<-|[<-|[<-|[<-|[]]]]]; (split; [vm_compute; reflexivity|]).
  - exists (ref + 4 * hour), (ref + 24 * hour), (tx_at 5 (Some (TzObj 1))), (tx_at 25 (Some (TzObj 1))).
    repeat match goal with |- _ /\ _ => split | |- runs _ _ _ _ => split end; try (unfold ex_tame; vm_compute; intuition discriminate); vm_compute; reflexivity.
  - exists (ref + 7 * hour), (ref + 8 * hour), (tx_at 7 (Some (TzObj 0))), (tx_at 8 (Some (TzObj 0))).
    repeat match goal with |- _ /\ _ => split | |- runs _ _ _ _ => split end; try (unfold ex_tame; vm_compute; intuition discriminate); vm_compute; reflexivity.
  - exists (ref + 8 * hour), (ref + 10 * hour), (tx_at 9 None), (tx_at 11 None).
    repeat match goal with |- _ /\ _ => split | |- runs _ _ _ _ => split end; try (unfold ex_tame; vm_compute; intuition discriminate); vm_compute; reflexivity.
  - exists (ref + 8 * hour), (ref + 10 * hour), (tx_at 9 None), (tx_at 11 None).
    repeat match goal with |- _ /\ _ => split | |- runs _ _ _ _ => split end; try (unfold ex_tame; vm_compute; intuition discriminate); vm_compute; reflexivity.
Qed.
Example C27_example : tl_iterator env_ex None tx_events = (tx_r, None) /\ timed env_ex ex_tame tx_r /\
  interval env_ex ex_tame tx_q (ref + 8 * hour) (ref + 12 * hour) /\
  tl_query env_ex None (VSpan tx_q) VNone = Ok tx_q /\
  tl_included env_ex None tx_events (VSpan tx_q) VNone = ([tx_1; tx_1], None) /\
  tl_overlapping env_ex None tx_events (VSpan tx_q) VNone = ([tx_3; tx_2; tx_1; tx_1], None) /\
  tl_at env_ex None tx_events (VDt (tx_at 7 (Some (TzObj 0)))) = ([tx_3; tx_2], None) /\
  tl_start_after env_ex None [tx_2; tx_3] (VDt (tx_at 5 (Some (TzObj 0)))) = ([tx_2], None).
Proof.
  split; [vm_compute; reflexivity|]. split; [exact tx_timed|]. split.
  - exists (tx_at 8 (Some (TzObj 0))), (tx_at 12 (Some (TzObj 0))).
    repeat match goal with |- _ /\ _ => split | |- runs _ _ _ _ => split end; try (unfold ex_tame; vm_compute; intuition discriminate); vm_compute; reflexivity.
  - repeat match goal with |- _ /\ _ => split end; vm_compute; reflexivity.
Qed.
(** Findings. [start_after] compares without normalising: it stops with a TypeError at
    the first event whose begin has a zone when the given moment has none, or vice versa. *)
Theorem C27_start_after_refuted : forall E events v d p r b,
  tl_iterator E None events = (p :: r, None) -> ensure_datetime v = Ok (Some d) ->
  ts_begin (fst p) = Some b -> naive b <> naive d ->
  tl_start_after E None events v = ([], Some TypeError).
Proof. exact start_after_mixed. Qed.
Print Assumptions C27_start_after_refuted.
(** A query without a stop raises as soon as there is an event. *)
Theorem C27_open_refuted : forall E P events v d p r, good_local E -> tame E P ->
  tl_iterator E None events = (p :: r, None) -> timed E P (p :: r) ->
  ensure_datetime v = Ok (Some d) -> convertible E d ->
  tl_included E None events v VNone = ([], Some ValueError) /\ tl_overlapping E None events v VNone = ([], Some ValueError).
Proof. exact open_query. Qed.
Print Assumptions C27_open_refuted.

(** ** C28. [on] returns the events that share an instant with the day of [d], and those
    that end where the day begins or begin where it ends. *)
Theorem C28_on : forall E P events r v d, good_local E -> tame E P ->
  tl_iterator E None events = (r, None) -> timed E P r ->
  ensure_datetime v = Ok (Some d) -> stored d ->
  convertible E (day_start d) /\ P (day_start d) -> convertible E (next_day d) /\ P (next_day d) ->
  wall d mod US_DAY <= US_DAY - US_SEC -> wall_ok (wall (next_day d)) = true ->
  exists l, tl_on E None events v false = Ok (map snd l, None) /\
    picked (fun p => exists B M, interval E P (fst p) B M /\
      (shares B M (moment E (day_start d)) (moment E (next_day d)) \/
       touches B M (moment E (day_start d)) (moment E (next_day d)))) r l.
Proof. exact (fun E P events r v d GL HT HR TD HV SD DS DE => on_overlap E GL P HT events r v d HR TD HV SD DS DE). Qed.
Print Assumptions C28_on.
(** With [strict]: the events that begin in the day and end before its end. *)
Theorem C28_strict : forall E P events r v d, good_local E -> tame E P ->
  tl_iterator E None events = (r, None) -> timed E P r ->
  ensure_datetime v = Ok (Some d) -> stored d ->
  convertible E (day_start d) /\ P (day_start d) -> convertible E (next_day d) /\ P (next_day d) ->
  wall d mod US_DAY <= US_DAY - US_SEC -> wall_ok (wall (next_day d)) = true ->
  exists l, tl_on E None events v true = Ok (map snd l, None) /\
    picked (fun p => exists B M, interval E P (fst p) B M /\
      moment E (day_start d) <= B /\ M < moment E (next_day d)) r l.
Proof. exact (fun E P events r v d GL HT HR TD HV SD DS DE => on_strict E GL P HT events r v d HR TD HV SD DS DE). Qed.
Print Assumptions C28_strict.
(** No event of the day is missed, at any moment of the day ([day_end_wall d] is the
    midnight after [d], one day later in the last second of a day). *)
Theorem C28_complete : forall E P events r v d, good_local E -> tame E P ->
  tl_iterator E None events = (r, None) -> timed E P r ->
  ensure_datetime v = Ok (Some d) -> stored d ->
  convertible E (day_start d) /\ P (day_start d) -> convertible E (next_day d) /\ P (next_day d) ->
  let after := mk_dt (day_end_wall d) false (dtz d) in
  wall_ok (day_end_wall d) = true -> convertible E after -> P after ->
  exists l, tl_on E None events v false = Ok (map snd l, None) /\
    (forall p, In p l -> In p r) /\
    forall p B M, In p r -> interval E P (fst p) B M ->
      shares B M (moment E (day_start d)) (moment E (next_day d)) -> In p l.
Proof. exact (fun E P events r v d GL HT HR TD HV SD DS DE => on_complete E GL P HT events r v d HR TD HV SD DS DE). Qed.
Print Assumptions C28_complete.
(** [today] is [on] with the date, [now] is [at]. *)
Theorem C28_today : forall E N events w strict, tl_today E N events w strict = tl_on E N events (VDt (mk_dt w false None)) strict.
Proof. exact today_on. Qed.
Print Assumptions C28_today.

Definition tx_d := tx_at 26 None.
Example C28_example : stored tx_d /\ ensure_datetime (VDt tx_d) = Ok (Some tx_d) /\
  (convertible env_ex (day_start tx_d) /\ ex_tame (day_start tx_d)) /\ (convertible env_ex (next_day tx_d) /\ ex_tame (next_day tx_d)) /\
  wall tx_d mod US_DAY <= US_DAY - US_SEC /\ wall_ok (wall (next_day tx_d)) = true /\
  tl_on env_ex None tx_events (VDt tx_d) false = Ok ([tx_3], None) /\
  tl_on env_ex None tx_events (VDt tx_d) true = Ok ([], None).
Proof. repeat match goal with |- _ /\ _ => split end; try (unfold ex_tame; vm_compute; intuition discriminate); vm_compute; reflexivity. Qed.
(** Findings. In the last second of a day the next day's events are returned, too. *)
Definition tx_late := mk_dt (ref + 24 * hour - 1) false None.
Definition tx_next := tx_ev (tx_at 30 None) 1 1.
Theorem C28_last_second_refuted : exists E P x d B M, good_local E /\ tame E P /\ event_ok E x /\ stored d /\
  interval E P (en_span x) B M /\ moment E (next_day d) < B /\ B < M /\
  tl_on E None [x] (VDt d) false = Ok ([x], None).
Proof.
  exists env_ex, ex_tame, tx_next, tx_late, (ref + 29 * hour), (ref + 30 * hour). split; [exact good_local_ex|]. split; [exact tame_ex|].
  split; [split; vm_compute; reflexivity|]. split; [split; [vm_compute; reflexivity|discriminate]|]. split.
  - exists (tx_at 30 None), (tx_at 31 None).
    repeat match goal with |- _ /\ _ => split | |- runs _ _ _ _ => split end; try (unfold ex_tame; vm_compute; intuition discriminate); vm_compute; reflexivity.
  - repeat match goal with |- _ /\ _ => split end; vm_compute; reflexivity.
Qed.
Print Assumptions C28_last_second_refuted.
(** An event that ends when the day begins is returned. *)
Definition tx_eve := tx_ev (tx_at 22 None) 2 1.
Theorem C28_touching_refuted : exists E P x d B M, good_local E /\ tame E P /\ event_ok E x /\ stored d /\
  wall d mod US_DAY <= US_DAY - US_SEC /\ interval E P (en_span x) B M /\
  ~ shares B M (moment E (day_start d)) (moment E (next_day d)) /\
  tl_on E None [x] (VDt d) false = Ok ([x], None).
Proof.
  exists env_ex, ex_tame, tx_eve, tx_d, (ref + 21 * hour), (ref + 23 * hour). split; [exact good_local_ex|]. split; [exact tame_ex|].
  split; [split; vm_compute; reflexivity|]. split; [split; [vm_compute; reflexivity|discriminate]|]. split; [vm_compute; intuition discriminate|]. split; [|split].
  - exists (tx_at 22 None), (tx_at 24 None).
    repeat match goal with |- _ /\ _ => split | |- runs _ _ _ _ => split end; try (unfold ex_tame; vm_compute; intuition discriminate); vm_compute; reflexivity.
  - intros [(x & [H1 H2] & [H3 H4])|[H1 _]]; [|discriminate H1].
    apply (Z.lt_irrefl x). apply (Z.lt_le_trans _ _ _ H2). exact H3.
  - vm_compute; reflexivity.
Qed.
Print Assumptions C28_touching_refuted.
(** On the last day of the calendar [on] raises. *)
Theorem C28_last_day_refuted : forall E N events v d strict, ensure_datetime v = Ok (Some d) -> stored d ->
  wall_ok (wall (next_day d)) = false -> tl_on E N events v strict = Err OverflowError.
Proof. exact on_last_day. Qed.
Print Assumptions C28_last_day_refuted.
Example C28_example_last : wall_ok (wall (next_day (mk_dt (mk_wall 9999 12 31 8 0 0 0) false None))) = false /\
  stored (mk_dt (mk_wall 9999 12 31 8 0 0 0) false None).
Proof. split; [vm_compute; reflexivity|]. split; [vm_compute; reflexivity|discriminate]. Qed.
(** [now] reads the UTC time as local time: an event that is on right now is not found. *)
Definition tx_now := tx_ev (tx_at 10 (Some (TzObj 0))) 1 1.
Theorem C28_now_refuted : exists E P x B M now, good_local E /\ tame E P /\ event_ok E x /\
  interval E P (en_span x) B M /\ inside now B M /\ tl_now E None [x] now = ([], None).
Proof.
  exists env_ex, ex_tame, tx_now, (ref + 10 * hour), (ref + 11 * hour), (ref + 10 * hour). split; [exact good_local_ex|]. split; [exact tame_ex|].
  split; [split; vm_compute; reflexivity|]. split.
  - exists (tx_at 10 (Some (TzObj 0))), (tx_at 11 (Some (TzObj 0))).
    repeat match goal with |- _ /\ _ => split | |- runs _ _ _ _ => split end; try (unfold ex_tame; vm_compute; intuition discriminate); vm_compute; reflexivity.
  - split; [split; vm_compute; [discriminate|reflexivity]|]. vm_compute; reflexivity.
Qed.
Print Assumptions C28_now_refuted.
