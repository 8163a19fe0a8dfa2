(** * Specification: which time spans are accepted, and what their operations give *)
From Verif Require Import M_Base M_Codec M_Cal M_Time M_Span S_Span.
Open Scope Z_scope.

Definition DAY : Z := 86400000000.
(** Lengths are told in days or seconds; half a second more is tolerated. *)
Definition unit_of (p : prec) : option Z :=
  match p with PDay => Some DAY | PSecond => Some 1000000 | POther _ => None end.
Definition in_units (p : prec) (d : Z) : Prop := exists u, unit_of p = Some u /\ d mod u <= 500000.
(** Days begin at floating midnights. *)
Definition fits (p : prec) (d : datetime) : Prop := p = PDay -> floating d /\ midnight d.
Definition comparable (b e : datetime) : Prop := floating b <-> floating e.
Definition one_clock (b e : datetime) : Prop :=
  floating b /\ floating e \/ exists n, dtz b = Some (TzObj n) /\ dtz e = Some (TzObj n).
Inductive apart (E : env) (b e : datetime) : Z -> Prop :=
  | AP_clock : one_clock b e -> apart E b e (wall e - wall b)
  | AP_zones : ~ one_clock b e -> ~ floating b -> ~ floating e -> apart E b e (instant E e - instant E b).

Inductive accepted (E : env) : timespan -> Prop :=
  | AC_nothing k p : accepted E (mk_ts k None None None p)
  | AC_due k e p : k <> KEvent -> fits p e -> accepted E (mk_ts k None (Some e) None p)
  | AC_begin k b p : fits p b -> accepted E (mk_ts k (Some b) None None p)
  | AC_duration k b d p : fits p b -> 0 <= d -> (p = PDay -> DAY <= d) -> in_units p d ->
      accepted E (mk_ts k (Some b) None (Some d) p)
  | AC_end k b e p n : fits p b -> fits p e -> apart E b e n -> 0 <= n -> (p = PDay -> DAY <= n) ->
      n = 0 \/ in_units p n -> accepted E (mk_ts k (Some b) (Some e) None p).

(** The exceptions other than ValueError. *)
Definition mixed (t : timespan) : Prop :=
  exists b e, ts_begin t = Some b /\ ts_end t = Some e /\ ts_prec t <> PDay /\ ~ comparable b e.
Definition last_day (t : timespan) : Prop :=
  exists b e, ts_begin t = Some b /\ ts_end t = Some e /\ ts_prec t = PDay /\ fits PDay b /\ fits PDay e /\
    wall b = wall e /\ wall b = mk_wall 9999 12 31 0 0 0 0.
Definition no_unit (E : env) (t : timespan) : Prop :=
  unit_of (ts_prec t) = None /\ exists b, ts_begin t = Some b /\
    ((exists e n, ts_end t = Some e /\ ts_dur t = None /\ apart E b e n /\ 0 < n) \/
     (exists d, ts_end t = None /\ ts_dur t = Some d /\ 0 <= d)).
Inductive verdict (E : env) (t : timespan) : res unit -> Prop :=
  | VD_ok : accepted E t -> verdict E t (Ok tt)
  | VD_mixed : mixed t -> verdict E t (Err TypeError)
  | VD_last_day : last_day t -> verdict E t (Err OverflowError)
  | VD_no_unit : no_unit E t -> verdict E t (Err KeyError)
  | VD_value : ~ accepted E t -> ~ mixed t -> ~ last_day t -> ~ no_unit E t -> verdict E t (Err ValueError).
(** The span, if it is accepted. *)
Definition checked (E : env) (t : timespan) (r : res timespan) : Prop :=
  exists v, verdict E t v /\ r = match v with Ok _ => Ok t | Err e => Err e end.

(** ** The end and the length of a span *)
Definition in_range (w : Z) : Prop := 0 <= w <= mk_wall 9999 12 31 23 59 59 999999.
Definition moved (b : datetime) (d : Z) : datetime := mk_dt (wall b + d) false (dtz b).
Inductive added (b : datetime) (d : Z) : res datetime -> Prop :=
  | AD_ok : in_range (wall b + d) -> added b d (Ok (moved b d))
  | AD_out : ~ in_range (wall b + d) -> added b d (Err OverflowError).
Definition empty_length (t : timespan) : Z := match ts_prec t with PDay => DAY | _ => 0 end.
Inductive length_is (E : env) (t : timespan) : option Z -> Prop :=
  | LE_given d : ts_dur t = Some d -> length_is E t (Some d)
  | LE_between b e n : ts_dur t = None -> ts_begin t = Some b -> ts_end t = Some e -> apart E b e n -> length_is E t (Some n)
  | LE_event : ts_dur t = None -> (ts_begin t = None \/ ts_end t = None) -> ts_kind t = KEvent -> length_is E t (Some (empty_length t))
  | LE_none : ts_dur t = None -> (ts_begin t = None \/ ts_end t = None) -> ts_kind t <> KEvent -> length_is E t None.
Inductive end_is (t : timespan) : res (option datetime) -> Prop :=
  | EI_given e : ts_end t = Some e -> end_is t (Ok (Some e))
  | EI_duration b d r : ts_end t = None -> ts_begin t = Some b -> ts_dur t = Some d -> added b d r -> end_is t (rmap Some r)
  | EI_event b r : ts_end t = None -> ts_begin t = Some b -> ts_dur t = None -> ts_kind t = KEvent ->
      added b (empty_length t) r -> end_is t (rmap Some r)
  | EI_open b : ts_end t = None -> ts_begin t = Some b -> ts_dur t = None -> ts_kind t <> KEvent -> end_is t (Ok None)
  | EI_nothing : ts_end t = None -> ts_begin t = None -> end_is t (Ok None).

(** ** Changing the representation of the end *)
Definition names_end (k : kind) (tg : target) : Prop := tg = TEnd \/ tg = TDue /\ k = KTodo.
Inductive end_converted (E : env) (t : timespan) (tg : target) : res timespan -> Prop :=
  | EC_same_duration : ts_dur t <> None -> tg = TDuration -> end_converted E t tg (Ok t)
  | EC_same_end : ts_end t <> None -> names_end (ts_kind t) tg -> end_converted E t tg (Ok t)
  | EC_none : tg = TNone -> end_converted E t tg (Ok (mk_ts (ts_kind t) (ts_begin t) None None (ts_prec t)))
  | EC_to_duration b e n : tg = TDuration -> ts_begin t = Some b -> ts_end t = Some e -> apart E b e n ->
      unit_of (ts_prec t) <> None -> end_converted E t tg (Ok (mk_ts (ts_kind t) (Some b) None (Some n) (ts_prec t)))
  | EC_no_unit b e : tg = TDuration -> ts_begin t = Some b -> ts_end t = Some e -> unit_of (ts_prec t) = None ->
      end_converted E t tg (Err KeyError)
  | EC_due e : tg = TDuration -> ts_begin t = None -> ts_end t = Some e ->
      end_converted E t tg (Ok (mk_ts (ts_kind t) None None None (ts_prec t)))
  | EC_to_end b d e : names_end (ts_kind t) tg -> ts_begin t = Some b -> ts_dur t = Some d -> added b d (Ok e) -> fits (ts_prec t) e ->
      end_converted E t tg (Ok (mk_ts (ts_kind t) (Some b) (Some e) None (ts_prec t)))
  | EC_beyond b d e : names_end (ts_kind t) tg -> ts_begin t = Some b -> ts_dur t = Some d -> added b d (Err e) ->
      end_converted E t tg (Err e)
  | EC_no_midnight b d e : names_end (ts_kind t) tg -> ts_begin t = Some b -> ts_dur t = Some d -> added b d (Ok e) -> ~ fits (ts_prec t) e ->
      end_converted E t tg (Err ValueError)
  | EC_unknown : tg <> TNone -> tg <> TDuration -> ~ names_end (ts_kind t) tg -> end_converted E t tg (Err ValueError)
  | EC_nothing : tg <> TNone -> ts_end t = None -> ts_dur t = None -> end_converted E t tg (Err ValueError).

(** ** Time zones *)
Inductive in_zone (E : env) (d : datetime) (z : option tz) : res datetime -> Prop :=
  | IZ_same n : z = Some (TzObj n) -> dtz d = Some (TzObj n) -> in_zone E d z (Ok d)
  | IZ_moved u z' w f : (forall n, ~ (z = Some (TzObj n) /\ dtz d = Some (TzObj n))) ->
      u = (if dtz d then instant E d else wall d - env_local_off E (wall d) (fold d)) -> in_range u ->
      z' = match z with Some z => z | None => TzFixed (env_local_utc E u) end ->
      (w, f) = match z' with TzObj n => env_fromutc E n u | TzFixed o => (u + o, false) | TzLocal => env_tzl_fromutc E u end ->
      in_range w -> in_zone E d z (Ok (mk_dt w f (Some z')))
  | IZ_early u : (forall n, ~ (z = Some (TzObj n) /\ dtz d = Some (TzObj n))) ->
      u = (if dtz d then instant E d else wall d - env_local_off E (wall d) (fold d)) -> ~ in_range u -> in_zone E d z (Err OverflowError)
  | IZ_out u z' w f : (forall n, ~ (z = Some (TzObj n) /\ dtz d = Some (TzObj n))) ->
      u = (if dtz d then instant E d else wall d - env_local_off E (wall d) (fold d)) -> in_range u ->
      z' = match z with Some z => z | None => TzFixed (env_local_utc E u) end ->
      (w, f) = match z' with TzObj n => env_fromutc E n u | TzFixed o => (u + o, false) | TzLocal => env_tzl_fromutc E u end ->
      ~ in_range w -> in_zone E d z (Err OverflowError).
Inductive each_time (f : datetime -> res datetime -> Prop) : option datetime -> res (option datetime) -> Prop :=
  | ET_none : each_time f None (Ok None)
  | ET_some d r : f d r -> each_time f (Some d) (rmap Some r).
Inductive rezoned (E : env) (t : timespan) (f : datetime -> res datetime -> Prop) : res timespan -> Prop :=
  | RZ_day : ts_prec t = PDay -> rezoned E t f (Err ValueError)
  | RZ_begin e : ts_prec t <> PDay -> each_time f (ts_begin t) (Err e) -> rezoned E t f (Err e)
  | RZ_end b e : ts_prec t <> PDay -> each_time f (ts_begin t) (Ok b) -> each_time f (ts_end t) (Err e) -> rezoned E t f (Err e)
  | RZ_span b e r : ts_prec t <> PDay -> each_time f (ts_begin t) (Ok b) -> each_time f (ts_end t) (Ok e) ->
      checked E (mk_ts (ts_kind t) b e (ts_dur t) (ts_prec t)) r -> rezoned E t f r.
Definition with_zone (z : option tz) (d : datetime) (r : res datetime) : Prop := r = Ok (mk_dt (wall d) (fold d) z).

(** ** Whole days *)
Definition floor_of (w f : Z) : Prop := f mod DAY = 0 /\ f <= w < f + DAY.
Definition ceil_of (w c : Z) : Prop := c mod DAY = 0 /\ c - DAY < w <= c.
Definition day_at (w : Z) : datetime := mk_dt w false None.
(** The last midnight, one day later if the span would be empty. *)
Inductive last_midnight (fb : option Z) (w : Z) : Z -> Prop :=
  | LD_ceil c : ceil_of w c -> fb <> Some c -> last_midnight fb w c
  | LD_next c : ceil_of w c -> fb = Some c -> last_midnight fb w (c + DAY).
Inductive all_day (E : env) (t : timespan) : res timespan -> Prop :=
  | DY_already : ts_prec t = PDay -> all_day E t (Ok t)
  | DY_end_fails e : ts_prec t <> PDay -> end_is t (Err e) -> all_day E t (Err e)
  | DY_open : ts_prec t <> PDay -> end_is t (Ok None) -> ts_begin t = None -> all_day E t (Ok (mk_ts (ts_kind t) None None None PDay))
  | DY_begin b f : ts_prec t <> PDay -> end_is t (Ok None) -> ts_begin t = Some b -> floor_of (wall b) f ->
      all_day E t (Ok (mk_ts (ts_kind t) (Some (day_at f)) None None PDay))
  | DY_due e c : ts_prec t <> PDay -> end_is t (Ok (Some e)) -> ts_begin t = None -> last_midnight None (wall e) c -> in_range c ->
      all_day E t (Ok (mk_ts (ts_kind t) None (Some (day_at c)) None PDay))
  | DY_due_out e c : ts_prec t <> PDay -> end_is t (Ok (Some e)) -> ts_begin t = None -> last_midnight None (wall e) c -> ~ in_range c ->
      all_day E t (Err OverflowError)
  | DY_out b e f c : ts_prec t <> PDay -> end_is t (Ok (Some e)) -> ts_begin t = Some b -> floor_of (wall b) f ->
      last_midnight (Some f) (wall e) c -> ~ in_range c -> all_day E t (Err OverflowError)
  (* the clocks of different zones may turn the order round *)
  | DY_reversed b e f c : ts_prec t <> PDay -> end_is t (Ok (Some e)) -> ts_begin t = Some b -> floor_of (wall b) f ->
      last_midnight (Some f) (wall e) c -> in_range c -> c < f -> all_day E t (Err ValueError)
  | DY_end b e f c : ts_prec t <> PDay -> end_is t (Ok (Some e)) -> ts_begin t = Some b -> floor_of (wall b) f ->
      last_midnight (Some f) (wall e) c -> in_range c -> f < c -> ts_dur t = None ->
      all_day E t (Ok (mk_ts (ts_kind t) (Some (day_at f)) (Some (day_at c)) None PDay))
  | DY_duration b e f c : ts_prec t <> PDay -> end_is t (Ok (Some e)) -> ts_begin t = Some b -> floor_of (wall b) f ->
      last_midnight (Some f) (wall e) c -> in_range c -> f < c -> ts_dur t <> None ->
      all_day E t (Ok (mk_ts (ts_kind t) (Some (day_at f)) None (Some (c - f)) PDay)).
