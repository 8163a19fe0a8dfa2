(** * Conversions between UTC and a VTIMEZONE zone (src/ics/timezone/__init__.py:127-230)

    [Timezone] inherits [fromutc] from dateutil's [_tzinfo] (timezone/__init__.py:128; python-dateutil
    2.8, dateutil/tz/_common.py: [enfold], [is_ambiguous], [_fold_status], [_fromutc],
    [fromutc]). [datetime.astimezone(zone)] calls it with the UTC wall time with
    [fold=0]; [astimezone(UTC)] of a wall time subtracts its [utcoffset]. These are
    modelled over the lookup of the observance, [look], with its state. *)
From Verif Require Import M_Base M_Codec M_Cal M_Zone.
Open Scope Z_scope.

Section FromUtc.
Variable st : Type.
Variable look : st -> Z -> bool -> st * res obs.

Definition sbind {A B} (p : st * res A) (k : A -> st -> st * res B) : st * res B :=
  match p with (m, Ok a) => k a m | (m, Err e) => (m, Err e) end.
(** [utcoffset] and [dst] (216-227). *)
Definition offset_at (m : st) (w : Z) (f : bool) : st * res Z := sbind (look m w f) (fun c m => (m, Ok (ob_to c))).
Definition dst_at (m : st) (w : Z) (f : bool) : st * res Z :=
  sbind (look m w f) (fun c m => (m, Ok (if ob_dst c then ob_diff c else 0))).
(** The result of datetime arithmetic. *)
Definition shifted (m : st) (w : Z) : st * res Z := (m, if wall_ok w then Ok w else Err OverflowError).

(** [_tzinfo._fromutc]. *)
Definition fromutc_wall (m : st) (u : Z) : st * res Z :=
  sbind (offset_at m u false) (fun o m =>
  sbind (dst_at m u false) (fun d m =>
  sbind (shifted m (u + (o - d))) (fun w m =>
  sbind (dst_at m w true) (fun d' m => shifted m (w + d'))))).
(** [_tzinfo.is_ambiguous]. *)
Definition is_ambiguous (m : st) (w : Z) : st * res bool :=
  sbind (offset_at m w false) (fun a m =>
  sbind (offset_at m w true) (fun b m => (m, Ok (negb (a =? b))))).
(** [_tzinfo._fold_status]. *)
Definition fold_status (m : st) (u w : Z) : st * res bool :=
  sbind (is_ambiguous m w) (fun a m =>
  if a then
    sbind (offset_at m u false) (fun o m =>
    sbind (dst_at m u false) (fun d m => (m, Ok (w - u =? o - d))))
  else (m, Ok false)).
(** [_tzinfo.fromutc]: the wall time and its [fold]. *)
Definition fromutc (m : st) (u : Z) : st * res (Z * bool) :=
  sbind (fromutc_wall m u) (fun w m => sbind (fold_status m u w) (fun f m => (m, Ok (w, f)))).
(** [datetime.astimezone(UTC)]. *)
Definition to_utc (m : st) (w : Z) (f : bool) : st * res Z :=
  sbind (offset_at m w f) (fun o m => shifted m (w - o)).
End FromUtc.

(** The zone with its cache. *)
Definition zone_fromutc (l : list obs) : cache -> Z -> cache * res (Z * bool) := fromutc cache (find_observance l).
Definition zone_to_utc (l : list obs) : cache -> Z -> bool -> cache * res Z := to_utc cache (find_observance l).
(** The same zone, were its lookups not cached. *)
Definition look_fresh (l : list obs) (m : unit) (w : Z) (f : bool) : unit * res obs := (m, snd (find_observance l [] w f)).
Definition fresh_fromutc (l : list obs) (u : Z) : res (Z * bool) := snd (fromutc unit (look_fresh l) tt u).
Definition fresh_to_utc (l : list obs) (w : Z) (f : bool) : res Z := snd (to_utc unit (look_fresh l) tt w f).
