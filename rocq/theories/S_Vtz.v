(** * Specification: recurrence sets and time zone definitions that survive writing and reading *)
From Verif Require Import M_Base M_Line M_Codec M_Cal M_Time M_Span M_Dt M_Tree M_Comp M_Rrule M_Vtz.
From Verif Require Import S_Dt S_Fold S_Tree S_Store S_Wire.
From Coq Require Import Sorting.Sorted.
Open Scope Z_scope.

(** ** Recurrence sets *)
Section Rules.
(** dateutil's reader of rules and of dates. *)
Variable rule_parse : option Z -> list N -> res rule.
Variable date_parse : list N -> res Z.

(** Dates with a written form: whole seconds, years of four digits. *)
Definition whole_date (d : Z) : Prop := wall_ok d = true /\ d mod US_SEC = 0 /\ 1000 <= f_y (fields_of d).
Definition stamp (d : Z) : list N :=
  let f := fields_of d in
  d4 (f_y f) ++ d2 (f_m f) ++ d2 (f_d f) ++ py "T" ++ d2 (f_H f) ++ d2 (f_M f) ++ d2 (f_S f).
Definition reads_dates : Prop := forall d, whole_date d -> date_parse (stamp d) = Ok d.

(** The times at which rules of the set say they start. *)
Definition starts (rs : ruleset) (d : Z) : Prop :=
  exists r, In r (rs_rules rs ++ rs_exrules rs) /\ r_start r = Some d.
(** Not empty, all rules have the same start (or none has one), dateutil reads them back. *)
Record storable_rules (rs : ruleset) : Prop := mk_storable_rules {
  sr_rules : exists s, (forall d, s = Some d -> whole_date d) /\
    forall r, In r (rs_rules rs ++ rs_exrules rs) -> r_start r = s /\ rule_parse s (r_text r) = Ok r;
  sr_dates : Forall whole_date (rs_dates rs);
  sr_exdates : Forall whole_date (rs_exdates rs);
  sr_some : rs <> mk_set [] [] [] []
}.
(** What is read: the same rules; the same dates, and the start as a further one, each
    once and in order. *)
Record rules_back (rs rs' : ruleset) : Prop := mk_rules_back {
  rb_rules : rs_rules rs' = rs_rules rs;
  rb_exrules : rs_exrules rs' = rs_exrules rs;
  rb_dates : forall t, In t (rs_dates rs') <-> In t (rs_dates rs) \/ starts rs t;
  rb_exdates : forall t, In t (rs_exdates rs') <-> In t (rs_exdates rs);
  rb_sorted : StronglySorted Z.lt (rs_dates rs');
  rb_exsorted : StronglySorted Z.lt (rs_exdates rs')
}.
End Rules.

(** The times of a set, when [occurs] are those of a rule. *)
Section Onsets.
Variable occurs : rule -> Z -> Prop.
Definition excluded (rs : ruleset) (t : Z) : Prop :=
  In t (rs_exdates rs) \/ exists r, In r (rs_exrules rs) /\ occurs r t.
Definition onset_of (rs : ruleset) (t : Z) : Prop :=
  (In t (rs_dates rs) \/ exists r, In r (rs_rules rs) /\ occurs r t) /\ ~ excluded rs t.
(** [before] finds the latest of them not after a time. *)
Definition before_right (before : ruleset -> Z -> option Z) : Prop := forall rs t,
  match before rs t with
  | Some o => onset_of rs o /\ o <= t /\ forall o', onset_of rs o' -> o' <= t -> o' <= o
  | None => forall o, onset_of rs o -> ~ o <= t
  end.
(** The start of every rule is one of the times of the set, or excluded from it. *)
Definition starts_count (rs : ruleset) : Prop := forall t, starts rs t -> onset_of rs t \/ excluded rs t.
End Onsets.

(** ** Time zone definitions *)
Definition OBS_NAMES : list (list N) :=
  [py "TZOFFSETFROM"; py "TZOFFSETTO"; py "DTSTART"; py "RRULE"; py "EXRULE"; py "RDATE"; py "EXDATE"; py "TZNAME"; py "COMMENT"].
Definition ZONE_NAMES : list (list N) :=
  [py "TZID"; py "STANDARD"; py "DAYLIGHT"; py "TZURL"; py "LAST-MODIFIED"].

Section Zones.
Variable X : ext.
Variable rule_parse : option Z -> list N -> res rule.

(** Parameters only for attributes that have a value; with each key, names that cannot
    be among the parameters. *)
Definition par_ok (pars : dict xp) (allowed : list (list N * list (list N))) : Prop :=
  forall k p, dict_get k pars = Some p -> p <> [] /\
    exists absent, In (k, absent) allowed /\ forall n, In n (py "VALUE" :: absent) -> ~ In n (keys p).
Definition if_set {A} (o : option A) (e : list N * list (list N)) : list (list N * list (list N)) :=
  match o with Some _ => [e] | None => [] end.
Definition storable_offset (x : Z) : Prop := Z.abs x < 360000 * US_SEC /\ x mod US_SEC = 0.

Record storable_obs (o : observance) : Prop := mk_storable_obs {
  so_from : storable_offset (o_from o);
  so_to : storable_offset (o_to o);
  so_rules : storable_rules rule_parse (o_rules o);
  so_params : par_ok (o_params o) ([(py "TZOFFSETFROM", []); (py "TZOFFSETTO", [])] ++
    if_set (o_name o) (py "TZNAME", []) ++ if_set (o_comment o) (py "COMMENT", []));
  so_extra : Forall (fun it => ~ In (item_name it) OBS_NAMES) (o_extra o)
}.
Record storable_zone (z : timezone) : Prop := mk_storable_zone {
  sz_obs : Forall storable_obs (t_obs z);
  sz_url : forall u, t_url z = Some u -> storable_url X u;
  sz_modified : forall d, t_modified z = Some d -> storable_dt X d /\ utc_ok X (VDt d);
  sz_params : par_ok (t_params z) ([(py "TZID", [])] ++ if_set (t_url z) (py "TZURL", []) ++
    if_set (t_modified z) (py "LAST_MODIFIED", [py "TZID"]));
  sz_extra : Forall (fun it => ~ In (item_name it) ZONE_NAMES) (t_extra z)
}.

Definition params_back (p q : dict xp) : Prop :=
  forall k, eq_opt (fun a b => bare a = bare b) (dict_get k p) (dict_get k q).
Record obs_back (o o' : observance) : Prop := mk_obs_back {
  bo_dst : o_dst o' = o_dst o;
  bo_from : o_from o' = o_from o;
  bo_to : o_to o' = o_to o;
  bo_name : o_name o' = o_name o;
  bo_comment : o_comment o' = o_comment o;
  bo_rules : rules_back (o_rules o) (o_rules o');
  bo_extra : Forall2 item_eq (o_extra o) (o_extra o');
  bo_params : params_back (o_params o) (o_params o')
}.
Record zone_back (z z' : timezone) : Prop := mk_zone_back {
  bz_id : t_id z' = t_id z;
  bz_obs : Forall2 obs_back (t_obs z) (t_obs z');
  bz_url : t_url z' = t_url z;
  bz_modified : t_modified z' = t_modified z;
  bz_extra : Forall2 item_eq (t_extra z) (t_extra z');
  bz_params : params_back (t_params z) (t_params z')
}.

(** Zones whose written form has no line break inside a line. *)
Record wire_obs (o : observance) : Prop := mk_wire_obs {
  wo_rules : forall r, In r (rs_rules (o_rules o) ++ rs_exrules (o_rules o)) -> no_break (r_text r);
  wo_params : forall k p, dict_get k (o_params o) = Some p -> wire_par p;
  wo_extra : Forall (wf_item ok_line) (o_extra o)
}.
Record wire_zone (z : timezone) : Prop := mk_wire_zone {
  wz_obs : Forall wire_obs (t_obs z);
  wz_url : forall u, t_url z = Some u -> no_break (x_geturl X u);
  wz_params : forall k p, dict_get k (t_params z) = Some p -> wire_par p;
  wz_extra : Forall (wf_item ok_line) (t_extra z)
}.
End Zones.

(** Zone objects ([tz]) that stand for definitions: how calendars write and read them. *)
Definition defined_by (X : ext) (rule_parse : option Z -> list N -> res rule) (date_parse : list N -> res Z)
  (zone_of : tz -> timezone) (tz_of : timezone -> tz) : Prop :=
  (forall z, x_tz_dump X z = dump_zone X (zone_of z)) /\
  (forall its, x_tz_load X its = rmap (fun t => (t_id t, tz_of t)) (load_zone X rule_parse date_parse (py "VTIMEZONE") its)).

(** ** What a written observance says about its start *)
Definition start_lines (its : list item) : list (list N) :=
  flat_map (fun it => match it with
                      | ILine l => if str_eqb (cl_name l) (py "DTSTART") then [cl_value l] else []
                      | ICont _ _ => []
                      end) its.
