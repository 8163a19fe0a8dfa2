(** * Timeline (src/ics/timeline.py)

    The calendar is given by its list of events at the time iteration starts. *)
From Verif Require Import M_Base M_Codec M_Cal M_Time M_Span M_Event M_Cmp M_Heap.
Open Scope Z_scope.

(** [if p(x): yield x] over a generator. *)
Fixpoint gfilter_list {A} (p : A -> res bool) (l : list A) (stop : option exn) : gen A :=
  match l with
  | [] => ([], stop)
  | a :: l' =>
      match p a with
      | Ok true => gcons a (gfilter_list p l' stop)
      | Ok false => gfilter_list p l' stop
      | Err e => gfail e
      end
  end.
Definition gfilter {A} (p : A -> res bool) (g : gen A) : gen A := gfilter_list p (fst g) (snd g).
Definition gmap {A B} (f : A -> B) (g : gen A) : gen B := (map f (fst g), snd g).
(** A generator whose first statement may raise. *)
Definition gstart {A B} (r : res A) (k : A -> gen B) : gen B :=
  match r with Ok a => k a | Err e => gfail e end.

(** [Timespan.__bool__] (timespan.py:344-345). *)
Definition ts_truthy (t : timespan) : bool := negb (is_none (ts_begin t)) || negb (is_none (ts_end t)).

Section Timeline.
Variable E : env.
Variable norm : option normalization.
Variable events : list entry.

(** The heap's items and their order: tuples of a span and an event. *)
Definition item := (timespan * entry)%type.
Definition item_lt (p q : item) : res bool :=
  if negb (span_eqb E (fst p) (fst q)) then span_op E CLt (fst p) (fst q)
  else if negb (entry_eqb E (snd p) (snd q)) then entry_op E CLt (snd p) (snd q)
  else Ok false.

(** [__normalize_datetime] (timeline.py:30-37); [normalize(None)] is None
    (timespan.py:84-85). *)
Definition tl_datetime (v : val) : res (option datetime) :=
  do o <- ensure_datetime v;
  match norm, o with
  | Some n, Some d => rmap Some (normalize_dt E n d)
  | Some n, None => Ok None
  | None, _ => Ok o
  end.
Definition tl_span (t : timespan) : res timespan :=
  match norm with Some n => normalize_span E n t | None => Ok t end.
(** [__normalize_timespan] (timeline.py:39-55). *)
Definition tl_query (start stop : val) : res timespan :=
  do t <- match start with
    | VSpan t => match stop with VNone => Ok t | _ => Err ValueError end
    | _ => do b <- ensure_datetime start; do e <- ensure_datetime stop; make E KBase b e None PSecond
    end;
  tl_span t.

(** [iterator] (timeline.py:57-76). *)
Fixpoint tl_items (l : list entry) : res (list item) :=
  match l with
  | [] => Ok []
  | x :: l' =>
      do s <- tl_span (en_span x); do r <- tl_items l';
      Ok (if ts_truthy s then (s, x) :: r else r)
  end.
Definition tl_iterator : gen item := gstart (tl_items events) (heap_iter item_lt).
(** [__iter__] (timeline.py:78-87). *)
Definition tl_iter : gen entry := gmap snd tl_iterator.

(** [included], [overlapping], [start_after], [at] (timeline.py:89-134). *)
Definition tl_included (start stop : val) : gen entry :=
  gstart (tl_query start stop) (fun q => gmap snd (gfilter (fun p => is_included_in E (fst p) q) tl_iterator)).
Definition tl_overlapping (start stop : val) : gen entry :=
  gstart (tl_query start stop) (fun q => gmap snd (gfilter (fun p => intersects E (fst p) q) tl_iterator)).
Definition tl_start_after (instant : val) : gen entry :=
  gstart (tl_datetime instant) (fun d => gmap snd (gfilter (fun p =>
    match ts_begin (fst p), d with
    | Some b, Some d => dt_gt E b d
    | Some _, None => Err TypeError
    | None, _ => Ok false
    end) tl_iterator)).
(** [includes(None)] takes None for a Timespan: AttributeError. *)
Definition tl_at (instant : val) : gen entry :=
  gstart (tl_datetime instant) (fun d => gmap snd (gfilter (fun p =>
    match d with
    | Some d => includes_dt E (fst p) d
    | None => do _ <- span_tuple E None (fst p); Err AttributeError
    end) tl_iterator)).

(** [on] (timeline.py:136-148): not a generator, so that the day is computed by the call. *)
Definition tl_day (v : val) : res timespan :=
  do o <- ensure_datetime v;
  match o with
  | None => Err TypeError
  | Some d =>
      let b := floor_midnight d in
      do d1 <- dt_add d US_SEC;
      do e <- ceil_midnight E d1;
      tl_query (VDt b) (VDt e)
  end.
Definition tl_on (v : val) (strict : bool) : res (gen entry) :=
  do q <- tl_day v;
  Ok (if strict then tl_included (VSpan q) VNone else tl_overlapping (VSpan q) VNone).
(** [today], [now] (timeline.py:150-161), given today's date and the UTC time. *)
Definition tl_today (today : Z) (strict : bool) : res (gen entry) := tl_on (VDate today) strict.
Definition tl_now (utcnow : Z) : gen entry := tl_at (VDt (mk_dt utcnow false None)).
End Timeline.
