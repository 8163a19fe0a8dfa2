(** * Specification of normalisation *)
From Verif Require Import M_Base M_Codec M_Cal M_Time M_Span S_Span M_Cmp M_Event S_Event M_Norm.
Open Scope Z_scope.

(** Is a value with / without zone selected by the setting, and for what? *)
Definition selected (N : normalization) (floating : bool) : action :=
  if floating then nm_floating N else nm_tz N.
(** The zone object is a correct zone. *)
Definition good_zone (E : env) (n : N) : Prop :=
  forall u, let '(w, f) := env_fromutc E n u in w - env_off E n w f = u.

(** What is done to a datetime. *)
Definition kept_wall (z : option tz) (d d' : datetime) : Prop :=
  wall d' = wall d /\ fold d' = fold d /\ dtz d' = z.
(** floating times are read in the system's zone *)
Definition utc_clock (E : env) (d : datetime) : Z :=
  match dtz d with None => wall d - env_local_off E (wall d) (fold d) | Some _ => instant E d end.
Definition kept_instant (E : env) (z : option tz) (d d' : datetime) : Prop :=
  instant E d' = utc_clock E d /\ match z with Some z => dtz d' = Some z | None => dtz d' <> None end.

Definition both (R : datetime -> datetime -> Prop) (o o' : option datetime) : Prop :=
  match o, o' with Some d, Some d' => R d d' | None, None => True | _, _ => False end.
(** ... and to a span, where duration, precision and class stay. *)
Definition span_rel (R : datetime -> datetime -> Prop) (t t' : timespan) : Prop :=
  ts_kind t' = ts_kind t /\ ts_dur t' = ts_dur t /\ ts_prec t' = ts_prec t /\
  both R (ts_begin t) (ts_begin t') /\ both R (ts_end t) (ts_end t').

(** What normalising does to a span: nothing, or to its begin and end what was asked. *)
Definition normalized (E : env) (N : normalization) (t t' : timespan) : Prop :=
  match selected N (is_floating t) with
  | AIgnore => t' = t
  | AReplace => span_rel (kept_wall (nm_repl N)) t t'
  | AConvert => span_rel (kept_instant E (nm_repl N)) t t'
  end.
(** ... and to an entry: all-day entries are left alone, of the others only the span
    changes. *)
Definition entry_normalized (E : env) (N : normalization) (o o' : obj) : Prop :=
  exists t t', dict_get (py "timespan") (o_attrs o) = Some (VSpan t) /\
    dict_get (py "timespan") (o_attrs o') = Some (VSpan t') /\ others_same o o' /\
    (is_all_day t = true -> o' = o) /\ (is_all_day t = false -> normalized E N t t').
(** The replacement is no zone, or a correct zone object. *)
Definition repl_ok (E : env) (N : normalization) : Prop :=
  match nm_repl N with None => True | Some (TzObj n) => good_zone E n | _ => False end.
(** The one setting that is not idempotent. *)
Definition mixed_none (N : normalization) : Prop :=
  nm_repl N = None /\ nm_floating N = AConvert /\ nm_tz N = AReplace.
