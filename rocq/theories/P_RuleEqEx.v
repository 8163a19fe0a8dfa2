(** * Examples: equality, hash and text of recurrence rules and sets (C65) *)
From Verif Require Import M_Base M_Line M_Codec M_Cal M_Time M_Span M_Dt M_Rrule M_Show M_RuleEq.
From Verif Require Import S_RuleEq.
From Verif Require Import P_Base P_RuleEq.
From Coq Require Import Lia ZifyBool ZifyNat ZifyN.
Open Scope Z_scope.

(** Values are numbers; the hash of a tuple is a polynomial. *)
Definition th (l : list Z) : Z := fold_left (fun a x => a * 31 + x) l 7.
Definition sh (s : list N) : Z := th (map Z.of_N s).
Definition ruleA : rrule Z := mk_rr Z 1 0 100 2 0 0 [(py "bymonth", 3); (py "byhour", 9)].
Definition ruleB : rrule Z := mk_rr Z 1 0 100 2 0 0 [(py "byhour", 9); (py "bymonth", 3)].
Definition ruleC : rrule Z := mk_rr Z 2 0 100 2 0 0 [(py "bymonth", 3); (py "byhour", 9)].
Definition setA : rruleset Z := mk_rrs Z [ruleA; ruleC] [5; 6] [ruleC] [7].
Definition setB : rruleset Z := mk_rrs Z [ruleC; ruleA] [5; 6] [ruleC] [7].
Lemma nodup2 (a b : list N) : a <> b -> NoDup [a; b].
Proof. intro H. constructor; [intros [E|[]]; now apply H|]. constructor; [intros []|constructor]. Qed.
Lemma propers : proper Z ruleA /\ proper Z ruleB /\ proper Z ruleC.
Proof. split; [|split]; apply nodup2; intro H; discriminate H. Qed.
Lemma z_equivalence : equivalence Z.eqb.
Proof. split; [apply Z.eqb_refl|split]; [intros x y H|intros x y z H H']; lia. Qed.
Lemma sets : proper_set Z setA /\ proper_set Z setB.
Proof. destruct propers as (A & B & C). split; split; repeat (constructor; [assumption|]); constructor. Qed.
Lemma ex_rule_eq : proper Z ruleA /\ proper Z ruleB /\ proper Z ruleC /\ rrule_eq Z Z.eqb ruleA ruleB = true /\ rrule_eq Z Z.eqb ruleA ruleC = false.
Proof. destruct propers as (A & B & C). split; [exact A|split; [exact B|split; [exact C|split; vm_compute; reflexivity]]]. Qed.
Lemma ex_sets : proper_set Z setA /\ proper_set Z setB /\ equivalence Z.eqb /\ rruleset_eq Z Z.eqb setA setA = true.
Proof. destruct sets as [A B]. split; [exact A|split; [exact B|split; [exact z_equivalence|vm_compute; reflexivity]]]. Qed.
Lemma ex_hash : (forall v w, Z.eqb v w = true -> (fun x => x) v = w) /\ same_order Z ruleA ruleC /\ same_orders Z setA setA.
Proof. split; [intros; lia|split; [reflexivity|split; repeat (constructor; [reflexivity|]); constructor]]. Qed.
Theorem hash_refuted : exists a b, proper Z a /\ proper Z b /\ rrule_eq Z Z.eqb a b = true /\ rrule_hash Z (fun x => x) sh th a <> rrule_hash Z (fun x => x) sh th b.
Proof.
  exists ruleA, ruleB. destruct propers as (A & B & C). split; [exact A|split; [exact B|split; [vm_compute; reflexivity|]]]. intro H. vm_compute in H. discriminate H.
Qed.
Theorem order_refuted : exists a b, proper_set Z a /\ proper_set Z b /\
  (forall r, In r (rrs_rrule Z a) <-> In r (rrs_rrule Z b)) /\ rrs_rdate Z a = rrs_rdate Z b /\ rrs_exrule Z a = rrs_exrule Z b /\ rrs_exdate Z a = rrs_exdate Z b /\
  rruleset_eq Z Z.eqb a b = false.
Proof.
  exists setA, setB. destruct sets as [A B]. split; [exact A|split; [exact B|split; [|split; [reflexivity|split; [reflexivity|split; [reflexivity|vm_compute; reflexivity]]]]]].
  intro r. cbn. tauto.
Qed.
Definition daily : rule := mk_rule None (py "FREQ=DAILY;COUNT=3").
Definition weekly : rule := mk_rule (Some 63871362000000000) (py "FREQ=WEEKLY;BYDAY=MO").
Definition textset : ruleset := mk_set [daily; weekly] [daily] [] [].
Lemma ex_text : rules_only textset /\ rruleset_str textset = text_of [py "RRULE:FREQ=DAILY;COUNT=3"; py "DTSTART:20250101T210000"; py "RRULE:FREQ=WEEKLY;BYDAY=MO"; py "EXRULE:FREQ=DAILY;COUNT=3"].
Proof. split; [split; [reflexivity|split; [reflexivity|exact (Forall_cons daily eq_refl (Forall_nil _))]]|vm_compute; reflexivity]. Qed.
Definition exset : ruleset := mk_set [] [weekly] [] [].
Definition dateset : ruleset := mk_set [] [] [63871362000000000] [].
Lemma other_line ls s : rruleset_str s = text_of ls -> Forall recurrence_line ls ->
  match rruleset_str s with 69%N :: 88%N :: 84%N :: _ => False | 50%N :: _ => False | _ => True end.
Proof.
  intros H F. destruct F as [|l ls (name & value & I & E) F]; [rewrite H; exact Logic.I|]. rewrite H, E. unfold property. cbn [text_of flat_map].
  repeat (destruct I as [<-|I]; [exact Logic.I|]). destruct I.
Qed.
Theorem text_refuted :
  (exists s, rs_rules s = [] /\ rs_dates s = [] /\ rs_exdates s = [] /\ ~ (exists ls, rruleset_str s = text_of ls /\ Forall recurrence_line ls)) /\
  (exists s, rs_rules s = [] /\ rs_exrules s = [] /\ rs_exdates s = [] /\ ~ (exists ls, rruleset_str s = text_of ls /\ Forall recurrence_line ls)).
Proof.
  split.
  - exists exset. do 3 (split; [reflexivity|]). intros (ls & H & F). exact (other_line ls exset H F).
  - exists dateset. do 3 (split; [reflexivity|]). intros (ls & H & F). exact (other_line ls dateset H F).
Qed.
Definition fullset : ruleset := mk_set [daily] [] [63871362000000000] [63871362001500000].
Lemma ex_text_dates : Forall (fun w => M_Cal.wall_ok w = true) (rs_dates fullset ++ rs_exdates fullset) /\
  rruleset_str fullset = text_of [py "RRULE:FREQ=DAILY;COUNT=3"; py "2025-01-01 21:00:00"; py "2025-01-01 21:00:01.500000"].
Proof. split; [repeat constructor|vm_compute; reflexivity]. Qed.
