(** * datetime values, time zones and the operations of CPython's datetime on them

    A [datetime] is a wall clock reading (M_Cal), its [fold] and its [tzinfo]. Zones
    are arbitrary: an environment [env] says what each zone object answers. It stands
    for dateutil, zoneinfo, pytz, the operating system and the Timezone instances.
    Simplifications: [utcoffset] never raises or answers None, and offsets need not
    be below 24 hours (CPython insists on it). *)
From Verif Require Import M_Base M_Codec M_Cal.
Open Scope Z_scope.

(** Zone objects. [TzObj n] is the object with identity [n]; [TzFixed off] is a
    [datetime.timezone] made by [astimezone(None)]; [TzLocal] is the result of a call
    [dateutil.tz.tzlocal()], a fresh object at every call, which only occurs in values
    that are normalised for comparison. *)
Inductive tz := TzObj (n : N) | TzFixed (off : Z) | TzLocal.

Record datetime := mk_dt { wall : Z; fold : bool; dtz : option tz }.

Record env := mk_env {
  env_off : N -> Z -> bool -> Z;         (* tzinfo.utcoffset, by wall clock and fold *)
  env_fromutc : N -> Z -> Z * bool;      (* tzinfo.fromutc *)
  env_local_off : Z -> bool -> Z;        (* system zone: offset of a naive wall clock *)
  env_local_utc : Z -> Z;                (* system zone: offset at a UTC time *)
  env_tzl_off : Z -> bool -> Z;          (* tzlocal().utcoffset *)
  env_tzl_fromutc : Z -> Z * bool        (* tzlocal().fromutc *)
}.

Section Time.
Variable E : env.

Definition tz_off (z : tz) (w : Z) (f : bool) : Z :=
  match z with
  | TzObj n => env_off E n w f
  | TzFixed o => o
  | TzLocal => env_tzl_off E w f
  end.
Definition tz_fromutc (z : tz) (u : Z) : Z * bool :=
  match z with
  | TzObj n => env_fromutc E n u
  | TzFixed o => (u + o, false)
  | TzLocal => env_tzl_fromutc E u
  end.

(** [a is b] for tzinfo attributes. Two [TzFixed] are never the same object (and it
    makes no difference, their offset is constant). *)
Definition same_tz (a b : option tz) : bool :=
  match a, b with
  | None, None => true
  | Some (TzObj n), Some (TzObj m) => N.eqb n m
  | _, _ => false
  end.

Definition utcoffset (d : datetime) : option Z :=
  match dtz d with None => None | Some z => Some (tz_off z (wall d) (fold d)) end.
Definition naive (d : datetime) : bool := match dtz d with None => true | Some _ => false end.

(** Instant of an aware datetime (microseconds, UTC). *)
Definition instant (d : datetime) : Z :=
  match utcoffset d with None => wall d | Some o => wall d - o end.

(** [a < b] etc. (CPython datetime_richcompare): wall clocks for the same tzinfo
    object, instants otherwise, TypeError for naive against aware. *)
Definition dt_cmp (a b : datetime) : res comparison :=
  if same_tz (dtz a) (dtz b) then Ok (wall a ?= wall b)
  else if naive a || naive b then Err TypeError
  else Ok (instant a ?= instant b).
Definition dt_lt (a b : datetime) : res bool :=
  rmap (fun c => match c with Lt => true | _ => false end) (dt_cmp a b).
Definition dt_le (a b : datetime) : res bool :=
  rmap (fun c => match c with Gt => false | _ => true end) (dt_cmp a b).
Definition dt_gt (a b : datetime) : res bool := dt_lt b a.

(** pep495_eq_exception: the offset depends on fold. *)
Definition fold_matters (d : datetime) : bool :=
  match dtz d with
  | None => false
  | Some z => negb (tz_off z (wall d) (fold d) =? tz_off z (wall d) (negb (fold d)))
  end.
(** [a == b] *)
Definition dt_eqb (a b : datetime) : bool :=
  if same_tz (dtz a) (dtz b) then wall a =? wall b
  else if naive a || naive b then false
  else (instant a =? instant b) && negb (fold_matters a) && negb (fold_matters b).

(** [a - b] *)
Definition dt_sub (a b : datetime) : res Z :=
  if same_tz (dtz a) (dtz b) then Ok (wall a - wall b)
  else if naive a || naive b then Err TypeError
  else Ok (instant a - instant b).
(** [a + td]: wall clock arithmetic, fold is reset. *)
Definition dt_add (a : datetime) (td : Z) : res datetime :=
  if wall_ok (wall a + td) then Ok (mk_dt (wall a + td) false (dtz a)) else Err OverflowError.
(** [d.replace(tzinfo=z)] *)
Definition dt_replace_tz (d : datetime) (z : option tz) : datetime := mk_dt (wall d) (fold d) z.

(** [d.astimezone(z)] (CPython datetime_astimezone). *)
Definition dt_astimezone (d : datetime) (z : option tz) : res datetime :=
  if match z with Some _ => negb (naive d) && same_tz (dtz d) z | None => false end then Ok d
  else
    let off := match utcoffset d with Some o => o | None => env_local_off E (wall d) (fold d) end in
    let u := wall d - off in
    if wall_ok u then
      let z' := match z with Some z => z | None => TzFixed (env_local_utc E u) end in
      let '(w, f) := tz_fromutc z' u in
      if wall_ok w then Ok (mk_dt w f (Some z')) else Err OverflowError
    else Err OverflowError.

(** [floor_datetime_to_midnight], [ceil_datetime_to_midnight] (utils.py:88-122), for
    datetimes (a [date] is returned unchanged). *)
Definition floor_midnight (d : datetime) : datetime :=
  mk_dt (wall d - wall d mod US_DAY) false (dtz d).
Definition ceil_midnight (d : datetime) : res datetime :=
  let floored := floor_midnight d in
  if dt_eqb floored d then Ok floored else dt_add floored US_DAY.

End Time.

(** [floor_timedelta_to_days], [ceil_timedelta_to_days] (utils.py:125-134);
    [timedelta_nearly_zero] (utils.py:69-70). Results outside the timedelta range are
    an OverflowError. *)
Definition floor_td_days (td : Z) : res Z := timedelta (td - td mod US_DAY).
Definition ceil_td_days (td : Z) : res Z :=
  let m := td mod US_DAY in
  if m =? 0 then Ok td else do x <- timedelta (td + US_DAY); timedelta (x - m).
Definition td_nearly_zero (td : Z) : bool := (- 500000 <=? td) && (td <=? 500000).
