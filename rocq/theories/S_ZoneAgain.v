(** * Specification: what must hold of a time zone definition that was read for it to be
    kept when it is written again (C62)

    Nothing here refers to the reading or writing functions. *)
From Verif Require Import M_Base M_Line M_Codec M_Cal M_Time M_Span M_Dt M_Tree M_Comp M_Rrule M_Vtz.
From Verif Require Import S_Dt S_Fold S_Tree S_Store S_Wire S_Vtz S_Again.
Open Scope Z_scope.

(** dateutil's reader of rules: a rule starts where it is told to; read from its own text
    it is the same; its text has no line break unless the text it was read from has one. *)
Record rules_env (rule_parse : option Z -> list N -> res rule) : Prop := mk_rules_env {
  re_start : forall d t r, rule_parse (Some d) t = Ok r -> r_start r = Some d;
  re_again : forall s t r, rule_parse s t = Ok r -> rule_parse (r_start r) (r_text r) = Ok r;
  re_text : forall s t r, rule_parse s t = Ok r -> no_break t -> no_break (r_text r)
}.

(** Offsets below 100 hours; dates in whole seconds and years of four digits; rules with
    one start, which they have if there is a DTSTART line ([C62_start]). *)
Definition all_rules (o : observance) : list rule := rs_rules (o_rules o) ++ rs_exrules (o_rules o).
Record keepable_obs (o : observance) : Prop := mk_keepable_obs {
  ko_from : Z.abs (o_from o) < 360000 * US_SEC;
  ko_to : Z.abs (o_to o) < 360000 * US_SEC;
  ko_dates : Forall whole_date (rs_dates (o_rules o));
  ko_exdates : Forall whole_date (rs_exdates (o_rules o));
  ko_one : forall r r', In r (all_rules o) -> In r' (all_rules o) -> r_start r = r_start r';
  ko_starts : forall r d, In r (all_rules o) -> r_start r = Some d -> whole_date d
}.
Record keepable_zone (X : ext) (z : timezone) : Prop := mk_keepable_zone {
  kz_obs : Forall keepable_obs (t_obs z);
  kz_url : forall u, t_url z = Some u -> storable_url X u;
  kz_modified : forall d, t_modified z = Some d -> keepable_dt X d
}.

(** What is read again: the same, but for the order and spelling of parameters; the
    recurrence sets are equal. *)
Record obs_kept (o o' : observance) : Prop := mk_obs_kept {
  ok_back : obs_back o o';
  ok_rules : o_rules o' = o_rules o
}.
Record zone_kept (z z' : timezone) : Prop := mk_zone_kept {
  zk_back : zone_back z z';
  zk_obs : Forall2 obs_kept (t_obs z) (t_obs z')
}.
(** Every observance with a rule has a DTSTART line. *)
Definition started (its : list item) : Prop := forall n sub l, In (ICont n sub) its -> In n [py "STANDARD"; py "DAYLIGHT"] ->
  In (ILine l) sub -> In (cl_name l) [py "RRULE"; py "EXRULE"] -> exists l', In (ILine l') sub /\ cl_name l' = py "DTSTART".
