(** * Specification: where the zones of a calendar come from, and zone objects that stand
    for definitions (C63)

    Nothing here refers to the reading or writing functions of components. *)
From Verif Require Import M_Base M_Line M_Codec M_Cal M_Time M_Span M_Dt M_Tree M_Comp M_Rrule M_Vtz.
From Verif Require Import S_Fold S_Tree S_Comp S_Store S_Wire S_Vtz S_Again S_ZoneAgain.
Open Scope N_scope.

(** The dates in a component: those of its values, and those of its members. *)
Definition has_date {M} (DM : M -> datetime -> Prop) (x : comp M) (d : datetime) : Prop :=
  (exists k a, dict_get k (c_attrs x) = Some a /\ In d (attr_dts a)) \/
  (exists k l m, dict_get k (c_mem x) = Some l /\ In m l /\ DM m d).
Definition alarm_date (m : alarm) : datetime -> Prop := has_date (fun _ _ => False) m.
Definition entry_date (x : entry) : datetime -> Prop := has_date alarm_date x.
Definition calendar_date (c : calendar) : datetime -> Prop := has_date entry_date c.

(** Some line of the items, at any depth, has [id] for TZID. *)
Inductive mentions (id : list N) : list item -> Prop :=
  | ME_line its l p : In (ILine l) its -> dict_get (py "TZID") (cl_params l) = Some [p] -> pval_str p = id -> mentions id its
  | ME_sub its n sub : In (ICont n sub) its -> mentions id sub -> mentions id its.

Section Origin.
Variable X : ext.
(** The first time zone definition with an identifier; there is none. *)
Definition defines (its : list item) (id : list N) (z : tz) : Prop :=
  exists l1 sub l2, its = l1 ++ ICont (py "VTIMEZONE") sub :: l2 /\ x_tz_load X sub = Ok (id, z) /\
    forall sub' z', In (ICont (py "VTIMEZONE") sub') l1 -> x_tz_load X sub' <> Ok (id, z').
Definition undefined (its : list item) (id : list N) : Prop :=
  forall sub z, In (ICont (py "VTIMEZONE") sub) its -> x_tz_load X sub <> Ok (id, z).
(** A zone the library knows by its identifier. *)
Definition known (id : list N) (z : tz) : Prop :=
  z_from_tzid (x_zdb X) id = Ok z \/ z_from_tzid (x_zdb X) id = Err ValueError /\ z_gettz (x_zdb X) id = Some z.

(** UTC (also of the current time, which a missing DTSTAMP is set to), or the zone of an
    identifier that is mentioned: one defined in the calendar, or else a known one. *)
Inductive origin (its : list item) : tz -> Prop :=
  | OR_mark : origin its (z_utc (x_zdb X))
  | OR_utc : origin its (x_utc X)
  | OR_now z : dtz (x_now X) = Some z -> origin its z
  | OR_defined id z : mentions id its -> id <> [] -> defines its id z -> origin its z
  | OR_known id z : mentions id its -> id <> [] -> undefined its id -> known id z -> origin its z.

(** Zone objects of definitions: the object of a definition has it, is written as it is
    and under its TZID, and is the object of every equal definition. *)
Variable rule_parse : option Z -> list N -> res rule.
Variable date_parse : list N -> res Z.
Variable zone_of : tz -> timezone.
Variable tz_of : timezone -> tz.
Record object (t : timezone) : Prop := mk_object {
  ob_of : zone_of (tz_of t) = t;
  ob_self : z_from_tzinfo (x_zdb X) (tz_of t) = Ok (Some (t_id t, tz_of t));
  ob_same : forall t', zone_kept t t' -> tz_of t' = tz_of t
}.
(** Definitions that are kept: they were read from lines that can be written, their rules
    have a DTSTART, and offsets, dates and addresses have a written form. *)
Definition kept_def (sub : list item) (t : timezone) : Prop :=
  load_zone X rule_parse date_parse (py "VTIMEZONE") sub = Ok t /\ started sub /\ keepable_zone X t /\ object t.
(** The definitions of a calendar are kept. *)
Definition kept_defs (its : list item) : Prop :=
  forall sub t, In (ICont (py "VTIMEZONE") sub) its -> load_zone X rule_parse date_parse (py "VTIMEZONE") sub = Ok t ->
    started sub /\ keepable_zone X t /\ object t.
(** Every TZID is that of a definition. *)
Definition closed (its : list item) : Prop :=
  forall id, mentions id its -> id <> [] -> exists sub t,
    In (ICont (py "VTIMEZONE") sub) its /\ load_zone X rule_parse date_parse (py "VTIMEZONE") sub = Ok t /\ t_id t = id.
(** The others are UTC or have definitions in the database that are kept, with
    identifiers that can be parameter values. *)
Definition kept_known (its : list item) : Prop :=
  forall id z, mentions id its -> id <> [] -> undefined its id -> known id z ->
    z_is_utc (x_zdb X) z = true \/
    exists sub t, wf_item ok_line (ICont (py "VTIMEZONE") sub) /\ kept_def sub t /\ z = tz_of t /\ ~ In 13 (t_id t).
End Origin.
