(** * Timespan, EventTimespan, TodoTimespan (src/ics/timespan.py) *)
From Verif Require Import M_Base M_Codec M_Cal M_Time.
Open Scope Z_scope.

(** Values of [precision] that matter; [POther] is any other value, e.g. "seconds" or
    None (told apart by a number). *)
Inductive prec := PDay | PSecond | POther (n : N).
Definition PSeconds := POther 1.   (* "seconds", set by [unset_all_day] *)
Definition PNone := POther 0.      (* None *)
Definition prec_eqb (a b : prec) : bool :=
  match a, b with
  | PDay, PDay | PSecond, PSecond => true
  | POther n, POther m => N.eqb n m
  | _, _ => false
  end.
Definition is_day (p : prec) : bool := match p with PDay => true | _ => false end.

(** The three classes. *)
Inductive kind := KBase | KEvent | KTodo.

Record timespan := mk_ts {
  ts_kind : kind;
  ts_begin : option datetime;
  ts_end : option datetime;
  ts_dur : option Z;
  ts_prec : prec
}.

Section Span.
Variable E : env.

Definition is_none {A} (o : option A) : bool := match o with None => true | Some _ => false end.
(** [if c: raise e] *)
Definition guard (c : bool) (e : exn) : res unit := if c then Err e else Ok tt.

(** [TIMEDELTA_CACHE[precision]] (utils.py:13); other keys: KeyError. *)
Definition td_cache (p : prec) : res Z :=
  match p with PDay => Ok US_DAY | PSecond => Ok US_SEC | POther _ => Err KeyError end.

(** [get_effective_duration] (timespan.py:402-408, EventTimespan 590-598). *)
Definition eff_duration (t : timespan) : res (option Z) :=
  match ts_dur t with
  | Some d => Ok (Some d)
  | None =>
      match ts_end t, ts_begin t with
      | Some e, Some b => rmap Some (dt_sub E e b)
      | _, _ =>
          match ts_kind t with
          | KEvent => Ok (Some (if is_day (ts_prec t) then US_DAY else 0))
          | _ => Ok None
          end
      end
  end.
(** [get_effective_end] (timespan.py:392-400). *)
Definition eff_end (t : timespan) : res (option datetime) :=
  match ts_end t with
  | Some e => Ok (Some e)
  | None =>
      match ts_begin t with
      | Some b =>
          do d <- eff_duration t;
          match d with Some d => rmap Some (dt_add b d) | None => Ok None end
      | None => Ok None
      end
  end.

(** [is_all_day], [is_floating], [get_end_representation] (timespan.py:413-431). *)
Definition is_all_day (t : timespan) : bool := is_day (ts_prec t).
Definition is_floating (t : timespan) : bool :=
  match ts_begin t with
  | Some b => naive b
  | None => match ts_end t with Some e => naive e | None => true end
  end.
Inductive end_repr := RDuration | REnd.
Definition end_representation (t : timespan) : option end_repr :=
  match ts_dur t with
  | Some _ => Some RDuration
  | None => match ts_end t with Some _ => Some REnd | None => None end
  end.

(** [validate_timeprecision] (timespan.py:228-240). *)
Definition validate_precision (t : timespan) (d : datetime) : res unit :=
  if is_day (ts_prec t) then
    do _ <- guard (negb (dt_eqb E (floor_midnight d) d)) ValueError;
    guard (negb (naive d)) ValueError
  else Ok tt.

(** [Timespan.validate] (timespan.py:227-300), [EventTimespan.validate] (585-588). *)
Definition validate_base (t : timespan) : res unit :=
  match ts_begin t with
  | Some b =>
      do _ <- validate_precision t b;
      do _ <- match ts_end t with
        | None => Ok tt
        | Some e =>
            do _ <- validate_precision t e;
            do gt <- dt_gt E b e;
            do _ <- guard gt ValueError;
            do _ <- (if is_day (ts_prec t) then
                       do b1 <- dt_add b US_DAY;
                       do lt <- dt_lt E e b1; guard lt ValueError
                     else Ok tt);
            do _ <- guard (negb (is_none (ts_dur t))) ValueError;
            do _ <- guard (naive b && negb (naive e)) ValueError;
            do _ <- guard (negb (naive b) && naive e) ValueError;
            do d <- eff_duration t;
            match d with
            | None => Ok tt
            | Some d =>
                if d =? 0 then Ok tt
                else do c <- td_cache (ts_prec t); guard (negb (td_nearly_zero (d mod c))) ValueError
            end
        end;
      match ts_dur t with
      | None => Ok tt
      | Some d =>
          do _ <- guard (d <? 0) ValueError;
          do _ <- guard (is_day (ts_prec t) && (d <? US_DAY)) ValueError;
          do c <- td_cache (ts_prec t);
          guard (negb (td_nearly_zero (d mod c))) ValueError
      end
  | None =>
      do _ <- match ts_end t with Some e => validate_precision t e | None => Ok tt end;
      guard (negb (is_none (ts_dur t))) ValueError
  end.
Definition validate (t : timespan) : res unit :=
  do _ <- validate_base t;
  match ts_kind t with
  | KEvent => guard (is_none (ts_begin t) && negb (is_none (ts_end t))) ValueError
  | _ => Ok tt
  end.

(** Construction: [__attrs_post_init__] validates (timespan.py:171-172). *)
Definition make (k : kind) (b e : option datetime) (d : option Z) (p : prec) : res timespan :=
  let t := mk_ts k b e d p in do _ <- validate t; Ok t.

(** [replace] (timespan.py:174-194): [None] here is the default [False] (keep). *)
Definition pick {A} (new : option A) (old : A) : A := match new with Some x => x | None => old end.
Definition ts_replace (t : timespan) (b e : option (option datetime)) (d : option (option Z))
  (p : option prec) : res timespan :=
  make (ts_kind t) (pick b (ts_begin t)) (pick e (ts_end t)) (pick d (ts_dur t)) (pick p (ts_prec t)).

(** [replace_timezone], [convert_timezone] (timespan.py:196-225); the warning of the
    latter is not modelled. *)
Definition opt_res {A B} (f : A -> res B) (o : option A) : res (option B) :=
  match o with None => Ok None | Some a => rmap Some (f a) end.
Definition ts_replace_timezone (t : timespan) (z : option tz) : res timespan :=
  do _ <- guard (is_all_day t) ValueError;
  let b := option_map (fun d => dt_replace_tz d z) (ts_begin t) in
  match ts_end t with
  | Some e => ts_replace t (Some b) (Some (Some (dt_replace_tz e z))) None None
  | None => ts_replace t (Some b) None None None
  end.
Definition ts_convert_timezone (t : timespan) (z : option tz) : res timespan :=
  do _ <- guard (is_all_day t) ValueError;
  do b <- opt_res (fun d => dt_astimezone E d z) (ts_begin t);
  match ts_end t with
  | Some e => do e' <- dt_astimezone E e z; ts_replace t (Some b) (Some (Some e')) None None
  | None => ts_replace t (Some b) None None None
  end.

(** [make_all_day] (timespan.py:349-370). *)
Definition opt_dt_eqb (a b : option datetime) : bool :=
  match a, b with
  | Some x, Some y => dt_eqb E x y
  | None, None => true
  | _, _ => false
  end.
Definition ts_make_all_day (t : timespan) : res timespan :=
  if is_all_day t then Ok t
  else
    let b := option_map (fun d => dt_replace_tz (floor_midnight d) None) (ts_begin t) in
    do e0 <- eff_end t;
    do e <- match e0 with
      | None => Ok None
      | Some e0 =>
          do c <- ceil_midnight E e0;
          let c := dt_replace_tz c None in
          if opt_dt_eqb (Some c) b then rmap Some (dt_add c US_DAY) else Ok (Some c)
      end;
    match end_representation t with
    | Some RDuration =>
        match e, b with
        | Some e, Some b =>
            do d <- dt_sub E e b;
            ts_replace t (Some (Some b)) (Some None) (Some (Some d)) (Some PDay)
        | _, _ => Err AssertionError
        end
    | _ => ts_replace t (Some b) (Some e) (Some None) (Some PDay)
    end.

(** [convert_end] (timespan.py:372-385). Targets: "duration", "end" (also the class'
    own name of the end, "due" for todos), None, anything else. *)
Inductive target := TDuration | TEnd | TDue | TNone | TOther.
Definition target_is_end (k : kind) (tg : target) : bool :=
  match tg with TEnd => true | TDue => match k with KTodo => true | _ => false end | _ => false end.
Definition ts_convert_end (t : timespan) (tg : target) : res timespan :=
  match end_representation t, tg with
  | Some RDuration, TDuration | None, TNone => Ok t
  | cur, _ =>
      let cur_end := match cur with Some REnd => true | _ => false end in
      let tgt_end := target_is_end (ts_kind t) tg in
      if cur_end && tgt_end then Ok t
      else if cur_end && match tg with TDuration => true | _ => false end then
        do d <- eff_duration t; ts_replace t None (Some None) (Some d) None
      else if match cur with Some RDuration => tgt_end | _ => false end then
        do e <- eff_end t; ts_replace t None (Some e) (Some None) None
      else match tg with
           | TNone => ts_replace t None (Some None) (Some None) None
           | _ => Err ValueError
           end
  end.

End Span.
