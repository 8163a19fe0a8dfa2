(** * Specification of interval predicates and ordering *)
From Verif Require Import M_Base M_Codec M_Cal M_Time M_Span S_Span M_Cmp.
Open Scope Z_scope.

(** The instant a datetime stands for: floating times are read in the local zone. *)
Definition moment (E : env) (d : datetime) : Z :=
  match dtz d with
  | None => wall d - env_local_off E (wall d) (fold d)
  | Some _ => instant E d
  end.

(** The local zone object is a correct zone: converting from UTC and back is exact. *)
Definition good_local (E : env) : Prop :=
  forall u, let '(w, f) := env_tzl_fromutc E u in w - env_tzl_off E w f = u.
(** All zones have a constant offset. *)
Record steady (E : env) : Prop := {
  st_zone : forall n w f, env_off E n w f = env_off E n 0 false;
  st_local : forall w f, env_local_off E w f = env_local_off E 0 false;
  st_tzl : forall w f, env_tzl_off E w f = env_tzl_off E 0 false
}.
(** The second reading of the same clock time would have the same offset. *)
Definition unambiguous (E : env) (d : datetime) : Prop :=
  match dtz d with
  | Some z => tz_off E z (wall d) (fold d) = tz_off E z (wall d) (negb (fold d))
  | None => let '(w, f) := env_tzl_fromutc E (moment E d) in env_tzl_off E w f = env_tzl_off E w (negb f)
  end.
(** A set of datetimes on which clocks are well behaved: on datetimes of one zone the
    clock time is ordered like the instant, and no clock time is ambiguous. Where all
    offsets are constant this holds of all datetimes ([steady_tame]); otherwise of those
    outside the hours in which a clock is changed. *)
Record tame (E : env) (P : datetime -> Prop) : Prop := {
  ta_order : forall a b, P a -> P b -> dtz a = dtz b -> dtz a <> Some TzLocal ->
    (wall a ?= wall b) = (moment E a ?= moment E b);
  ta_fold : forall a, P a -> unambiguous E a
}.

(** A datetime that can be converted to the local zone (only floating ones are): this
    excludes hours at the very ends of the calendar. *)
Definition convertible (E : env) (d : datetime) : Prop :=
  dtz d <> Some TzLocal /\
  (dtz d = None -> wall_ok (moment E d) = true /\ wall_ok (fst (env_tzl_fromutc E (moment E d))) = true).

(** A span that is not a todo's, with begin and (effective) end [b] and [e]. *)
Definition runs (E : env) (t : timespan) (b e : datetime) : Prop :=
  ts_kind t <> KTodo /\ ts_begin t = Some b /\ eff_end E t = Ok (Some e) /\ convertible E b /\ convertible E e.
(** The same, with what there is of begin and end. *)
Definition ends (E : env) (t : timespan) (b e : option datetime) : Prop :=
  ts_kind t <> KTodo /\ ts_begin t = b /\ eff_end E t = Ok e /\
  (forall d, b = Some d -> convertible E d) /\ (forall d, e = Some d -> convertible E d).
(** It occupies the instants from [B] up to but excluding [N]. *)
Definition interval (E : env) (P : datetime -> Prop) (t : timespan) (B N : Z) : Prop :=
  exists b e, runs E t b e /\ P b /\ P e /\ B = moment E b /\ N = moment E e.
Definition inside (x B N : Z) : Prop := B <= x < N.

(** Sort key: begin and end, for todos end and begin; absent values count as
    1900-01-01 00:00 local time. *)
Definition or1900 (o : option datetime) : datetime := match o with Some d => d | None => mk_dt (mk_wall 1900 1 1 0 0 0 0) false None end.
Definition sort_key (E : env) (P : datetime -> Prop) (t : timespan) (k : Z * Z) : Prop :=
  exists e, eff_end E t = Ok e /\ P (or1900 (ts_begin t)) /\ P (or1900 e) /\ convertible E (or1900 (ts_begin t)) /\ convertible E (or1900 e) /\
    k = match ts_kind t with
        | KTodo => (moment E (or1900 e), moment E (or1900 (ts_begin t)))
        | _ => (moment E (or1900 (ts_begin t)), moment E (or1900 e))
        end.
Definition key_lt (a b : Z * Z) : Prop := fst a < fst b \/ fst a = fst b /\ snd a < snd b.

(** Equality. Two datetimes are equal if they read the same clock of the same zone (or
    of none), or lie in different zones and are the same instant, neither of them in an
    hour whose offset depends on the fold. Fold and zone are not compared otherwise. *)
Definition same_zone (a b : datetime) : Prop :=
  dtz a = None /\ dtz b = None \/ exists n, dtz a = Some (TzObj n) /\ dtz b = Some (TzObj n).
Definition same_time (E : env) (a b : datetime) : Prop :=
  same_zone a b /\ wall a = wall b \/
  ~ same_zone a b /\ dtz a <> None /\ dtz b <> None /\ moment E a = moment E b /\ unambiguous E a /\ unambiguous E b.
Inductive same_opt {A} (R : A -> A -> Prop) : option A -> option A -> Prop :=
  | so_none : same_opt R None None
  | so_some a b : R a b -> same_opt R (Some a) (Some b).
Record same_span (E : env) (s t : timespan) : Prop := {
  ss_kind : ts_kind s = ts_kind t;
  ss_begin : same_opt (same_time E) (ts_begin s) (ts_begin t);
  ss_end : same_opt (same_time E) (ts_end s) (ts_end t);
  ss_dur : ts_dur s = ts_dur t;
  ss_prec : ts_prec s = ts_prec t
}.

(** A comparison that does not fail on [D] and orders it strictly and weakly: irreflexive,
    transitive, and "neither is smaller" is transitive, too. *)
Record weak_order {A} (D : A -> Prop) (lt : A -> A -> res bool) : Prop := {
  wo_total : forall x y, D x -> D y -> exists b, lt x y = Ok b;
  wo_irrefl : forall x, D x -> lt x x = Ok false;
  wo_trans : forall x y z, D x -> D y -> D z -> lt x y = Ok true -> lt y z = Ok true -> lt x z = Ok true;
  wo_incomp : forall x y z, D x -> D y -> D z ->
    lt x y = Ok false -> lt y x = Ok false -> lt y z = Ok false -> lt z y = Ok false ->
    lt x z = Ok false /\ lt z x = Ok false
}.
(** The four operators are one comparison. *)
Record consistent_ops {A} (D : A -> Prop) (op : cmpop -> A -> A -> res bool) : Prop := {
  cp_gt : forall x y, D x -> D y -> op CGt x y = op CLt y x;
  cp_ge : forall x y, D x -> D y -> op CGe x y = op CLe y x;
  cp_le : forall x y, D x -> D y -> op CLe x y = rmap negb (op CLt y x)
}.
(** Comparison of strings: the first difference decides, a proper prefix is smaller. *)
Inductive str_lt : str -> str -> Prop :=
| sl_prefix x b : str_lt [] (x :: b)
| sl_head x y a b : (x < y)%N -> str_lt (x :: a) (y :: b)
| sl_tail x a b : str_lt a b -> str_lt (x :: a) (x :: b).

(** For examples: outside the repeated hour of [env_ex]. *)
Definition ex_tame (d : datetime) : Prop :=
  dtz d <> Some TzLocal /\ (wall d < ref + 2 * hour \/ ref + 3 * hour <= wall d).
