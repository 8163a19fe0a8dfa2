(** * Specification: equality and text of recurrence rules and sets *)
From Verif Require Import M_Base M_Codec M_Dt M_Rrule M_RuleEq.
Open Scope Z_scope.

Section RuleEq.
Variable V : Type.
Variable veq : V -> V -> bool.
(** The parameters of a rule by their names; those it was made with come first. *)
Definition parameter (r : rrule V) (k : list N) : option V :=
  match dict_get k (rr_original V r) with
  | Some v => Some v
  | None =>
      dict_get k [(py "freq", rr_freq V r); (py "dtstart", rr_dtstart V r); (py "interval", rr_interval V r);
                  (py "wkst", rr_wkst V r); (py "count", rr_count V r); (py "until", rr_until V r)]
  end.
Definition same_value (a b : option V) : Prop :=
  match a, b with Some v, Some w => veq v w = true | None, None => True | _, _ => False end.
(** The rules have the same parameters. *)
Definition same_rule (a b : rrule V) : Prop := forall k, same_value (parameter a k) (parameter b k).
Definition same_set (a b : rruleset V) : Prop :=
  Forall2 same_rule (rrs_rrule V a) (rrs_rrule V b) /\ Forall2 (fun v w => veq v w = true) (rrs_rdate V a) (rrs_rdate V b) /\
  Forall2 same_rule (rrs_exrule V a) (rrs_exrule V b) /\ Forall2 (fun v w => veq v w = true) (rrs_exdate V a) (rrs_exdate V b).
Definition equivalence {A} (eq : A -> A -> bool) : Prop :=
  (forall x, eq x x = true) /\ (forall x y, eq x y = true -> eq y x = true) /\
  (forall x y z, eq x y = true -> eq y z = true -> eq x z = true).
(** A dict has every key once; a rule is made with a dict. *)
Definition proper (r : rrule V) : Prop := NoDup (map fst (rr_original V r)).
Definition proper_set (s : rruleset V) : Prop := Forall proper (rrs_rrule V s) /\ Forall proper (rrs_exrule V s).
(** The parameters were given in the same order. *)
Definition same_order (a b : rrule V) : Prop := map fst (rr_original V a) = map fst (rr_original V b).
Definition same_orders (a b : rruleset V) : Prop :=
  Forall2 same_order (rrs_rrule V a) (rrs_rrule V b) /\ Forall2 same_order (rrs_exrule V a) (rrs_exrule V b).
End RuleEq.

(** ** Texts *)
(** The text consists of the lines, each ended by a newline. *)
Definition text_of (ls : list (list N)) : list N := flat_map (fun l => l ++ [10%N]) ls.
Definition property (name value : list N) : list N := name ++ py ":" ++ value.
Definition rule_lines (name : list N) (r : rule) : list (list N) :=
  match r_start r with Some d => [property (py "DTSTART") (fmt_datetime d)] | None => [] end ++ [property name (r_text r)].
(** A line has one of the names a recurrence set has. *)
Definition recurrence_line (l : list N) : Prop :=
  exists name value, In name [py "DTSTART"; py "RRULE"; py "EXRULE"; py "RDATE"; py "EXDATE"] /\ l = property name value.
(** No dates, and exclusion rules without a start. *)
Definition rules_only (s : ruleset) : Prop := rs_dates s = [] /\ rs_exdates s = [] /\ Forall (fun r => r_start r = None) (rs_exrules s).
