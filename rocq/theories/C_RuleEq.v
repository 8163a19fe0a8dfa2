(** * C65: equality, hash and text of recurrence rules and sets *)
From Verif Require Import M_Base M_Codec M_Cal M_Dt M_Rrule M_RuleEq.
From Verif Require Import S_Show S_RuleEq P_RuleEq P_RuleEqEx.
Open Scope Z_scope.

(** Two rules are equal exactly if they have the same parameters with equal values,
    whatever order they were given in. *)
Theorem C65_rule_eq : forall V veq a b, proper V a -> proper V b -> rrule_eq V veq a b = true <-> same_rule V veq a b.
Proof. exact rule_eq_iff. Qed.
Print Assumptions C65_rule_eq.
Example C65_rule_eq_example : proper Z ruleA /\ proper Z ruleB /\ proper Z ruleC /\ rrule_eq Z Z.eqb ruleA ruleB = true /\ rrule_eq Z Z.eqb ruleA ruleC = false.
Proof. exact ex_rule_eq. Qed.
(** Two sets are equal exactly if they have the same rules, dates and exclusions in order. *)
Theorem C65_set_eq : forall V veq a b, proper_set V a -> proper_set V b -> rruleset_eq V veq a b = true <-> same_set V veq a b.
Proof. exact set_eq_iff. Qed.
Print Assumptions C65_set_eq.
Example C65_set_eq_example : proper_set Z setA /\ proper_set Z setB /\ equivalence Z.eqb /\ rruleset_eq Z Z.eqb setA setA = true.
Proof. exact ex_sets. Qed.
(** Equality of rules is an equivalence if equality of values is. *)
Theorem C65_rule_equivalence : forall V veq, equivalence veq ->
  (forall a, proper V a -> rrule_eq V veq a a = true) /\
  (forall a b, proper V a -> proper V b -> rrule_eq V veq a b = true -> rrule_eq V veq b a = true) /\
  (forall a b c, proper V a -> proper V b -> proper V c -> rrule_eq V veq a b = true -> rrule_eq V veq b c = true -> rrule_eq V veq a c = true).
Proof. exact rule_equivalence. Qed.
Print Assumptions C65_rule_equivalence.
(** So is that of sets. *)
Theorem C65_set_equivalence : forall V veq, equivalence veq ->
  (forall a, proper_set V a -> rruleset_eq V veq a a = true) /\
  (forall a b, proper_set V a -> proper_set V b -> rruleset_eq V veq a b = true -> rruleset_eq V veq b a = true) /\
  (forall a b c, proper_set V a -> proper_set V b -> proper_set V c -> rruleset_eq V veq a b = true -> rruleset_eq V veq b c = true -> rruleset_eq V veq a c = true).
Proof. exact set_equivalence. Qed.
Print Assumptions C65_set_equivalence.
Example C65_equivalence_example : equivalence Z.eqb.
Proof. exact z_equivalence. Qed.
(** Equal rules made with their parameters in the same order have the same hash. *)
Theorem C65_rule_hash : forall V veq vhash shash thash a b, (forall v w, veq v w = true -> vhash v = vhash w) -> proper V a -> proper V b -> same_order V a b ->
  rrule_eq V veq a b = true -> rrule_hash V vhash shash thash a = rrule_hash V vhash shash thash b.
Proof. exact rule_hash. Qed.
Print Assumptions C65_rule_hash.
(** So have equal sets. *)
Theorem C65_set_hash : forall V veq vhash shash thash a b, (forall v w, veq v w = true -> vhash v = vhash w) -> proper_set V a -> proper_set V b -> same_orders V a b ->
  rruleset_eq V veq a b = true -> rruleset_hash V vhash shash thash a = rruleset_hash V vhash shash thash b.
Proof. exact set_hash. Qed.
Print Assumptions C65_set_hash.
Example C65_hash_example : (forall v w, Z.eqb v w = true -> (fun x => x) v = w) /\ same_order Z ruleA ruleC /\ same_orders Z setA setA.
Proof. exact ex_hash. Qed.
(** The order matters: equal rules can have different hashes. *)
Theorem C65_hash_refuted : exists a b, proper Z a /\ proper Z b /\ rrule_eq Z Z.eqb a b = true /\ rrule_hash Z (fun x => x) sh th a <> rrule_hash Z (fun x => x) sh th b.
Proof. exact hash_refuted. Qed.
Print Assumptions C65_hash_refuted.
(** Sets of the same rules and dates can be unequal. *)
Theorem C65_order_refuted : exists a b, proper_set Z a /\ proper_set Z b /\
  (forall r, In r (rrs_rrule Z a) <-> In r (rrs_rrule Z b)) /\ rrs_rdate Z a = rrs_rdate Z b /\ rrs_exrule Z a = rrs_exrule Z b /\ rrs_exdate Z a = rrs_exdate Z b /\
  rruleset_eq Z Z.eqb a b = false.
Proof. exact order_refuted. Qed.
Print Assumptions C65_order_refuted.
(** The text of a set without dates is that of its rules and exclusion rules, line by line,
    if no exclusion rule has a start. *)
Theorem C65_text : forall s, rules_only s ->
  rruleset_str s = text_of (flat_map (rule_lines (py "RRULE")) (rs_rules s) ++ flat_map (rule_lines (py "EXRULE")) (rs_exrules s)).
Proof. exact set_text. Qed.
Print Assumptions C65_text.
Example C65_text_example : rules_only textset /\
  rruleset_str textset = text_of [py "RRULE:FREQ=DAILY;COUNT=3"; py "DTSTART:20250101T210000"; py "RRULE:FREQ=WEEKLY;BYDAY=MO"; py "EXRULE:FREQ=DAILY;COUNT=3"].
Proof. exact ex_text. Qed.
(** With dates, these follow one to a line, first the ones added, then the ones excluded,
    each as day and time. *)
Theorem C65_text_dates : forall s, Forall (fun r => r_start r = None) (rs_exrules s) -> Forall (fun w => wall_ok w = true) (rs_dates s ++ rs_exdates s) ->
  exists ds xs, Forall2 (fun w t => moment_shown t w None) (rs_dates s) ds /\ Forall2 (fun w t => moment_shown t w None) (rs_exdates s) xs /\
    rruleset_str s = text_of (flat_map (rule_lines (py "RRULE")) (rs_rules s) ++ flat_map (rule_lines (py "EXRULE")) (rs_exrules s) ++ ds ++ xs).
Proof. exact set_text_dates. Qed.
Print Assumptions C65_text_dates.
Example C65_text_dates_example : Forall (fun w => wall_ok w = true) (rs_dates fullset ++ rs_exdates fullset) /\ rruleset_str fullset = text_of [py "RRULE:FREQ=DAILY;COUNT=3"; py "2025-01-01 21:00:00"; py "2025-01-01 21:00:01.500000"].
Proof. exact ex_text_dates. Qed.
(** Otherwise there are lines that are none of a recurrence set: the start of an exclusion
    rule gets the name EXTSTART, dates get no name. *)
Theorem C65_text_refuted :
  (exists s, rs_rules s = [] /\ rs_dates s = [] /\ rs_exdates s = [] /\ ~ (exists ls, rruleset_str s = text_of ls /\ Forall recurrence_line ls)) /\
  (exists s, rs_rules s = [] /\ rs_exrules s = [] /\ rs_exdates s = [] /\ ~ (exists ls, rruleset_str s = text_of ls /\ Forall recurrence_line ls)).
Proof. exact text_refuted. Qed.
Print Assumptions C65_text_refuted.
