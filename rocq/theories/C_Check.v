(** * C66: the declared grammar of content lines and the check of parsed lines *)
From Verif Require Import M_Base M_Line M_Check.
From Verif Require Import S_Line S_Check P_Line P_Check P_CheckEx.
Open Scope N_scope.

(** Every line of the declared grammar is read as what it says, unless a parameter ends
    with an empty value; the check does not reject it. *)
Theorem C66_declared : forall line name ps value, declared line name ps value -> ends_filled ps ->
  parse_line line = Ok (mk_line (upper name) (assign_all ps) value) /\
  parse_checked true line = Ok (mk_line (upper name) (assign_all ps) value).
Proof. exact (fun line name ps value D L => conj (declared_parsed line name ps value D L) (declared_checked line name ps value D L)). Qed.
Print Assumptions C66_declared.
Example C66_declared_example : declared (py "ATTENDEE;CN=" ++ [34] ++ py "a:b" ++ [34] ++ py ";X-P=," ++ [34; 34] ++ py ",^^^'^n:mailto:x;y=z") (py "ATTENDEE") ex_params (py "mailto:x;y=z") /\ ends_filled ex_params.
Proof. exact ex_declared. Qed.
(** Lines with identifiers as names and without controls are written in the grammar. *)
Theorem C66_written : forall cl, clean_line cl ->
  exists ps, declared (serialize_unwrapped cl false) (cl_name cl) ps (cl_value cl) /\
    map (fun kv => (fst kv, map pval_str (snd kv))) ps = map (fun kv => (fst kv, map pval_str (snd kv))) (cl_params cl).
Proof. exact written_in_grammar. Qed.
Print Assumptions C66_written.
Example C66_written_example : clean_line ex_line.
Proof. exact ex_clean. Qed.
(** With the check, exactly the lines are read whose names begin with a letter, digit or
    hyphen; without it, all that can be parsed. *)
Theorem C66_checked : forall line cl, parse_checked true line = Ok cl <->
  parse_line line = Ok cl /\ starts_with_name_char (cl_name cl) /\ forall k vs, In (k, vs) (cl_params cl) -> starts_with_name_char k.
Proof. exact checked. Qed.
Print Assumptions C66_checked.
Example C66_checked_example : parse_checked true (py "A;B=c:d") = Ok (mk_line (py "A") [(py "B", [PRaw (py "c")])] (py "d")) /\
  parse_checked true (py "A; B=c:d") = Err AssertionError /\ parse_checked false (py "A; B=c:d") = Ok (mk_line (py "A") [(py " B", [PRaw (py "c")])] (py "d")).
Proof. repeat split. Qed.
Theorem C66_unchecked : forall line, parse_checked false line = parse_line line.
Proof. exact unchecked. Qed.
Print Assumptions C66_unchecked.
(** A line that cannot be parsed is a ParseError, one that fails the check an AssertionError. *)
Theorem C66_error : forall line e, parse_checked true line = Err e ->
  parse_line line = Err ParseError /\ e = ParseError \/ (exists cl, parse_line line = Ok cl) /\ e = AssertionError.
Proof. exact checked_error. Qed.
Print Assumptions C66_error.
(** Finding: lines with controls or with other characters in names pass the check. *)
Theorem C66_check_refuted :
  (exists line cl, parse_checked true line = Ok cl /\ ~ clean (cl_value cl) /\ forall name ps value, ~ declared line name ps value) /\
  (exists line cl, parse_checked true line = Ok cl /\ ~ identifier (cl_name cl) /\ forall name ps value, ~ declared line name ps value).
Proof. exact check_refuted. Qed.
Print Assumptions C66_check_refuted.
(** [maybe_unquote] takes off a pair of quotes and leaves other texts as they are. *)
Theorem C66_unquote : forall txt v, maybe_unquote txt = Ok v <->
  (exists s, txt = 34 :: s ++ [34] /\ v = PQuoted s) \/ not_quoted txt /\ v = PRaw txt.
Proof. exact unquote_exact. Qed.
Print Assumptions C66_unquote.
Theorem C66_unquote_error : forall txt e, maybe_unquote txt = Err e -> e = AssertionError.
Proof. exact unquote_error. Qed.
Print Assumptions C66_unquote_error.
Example C66_unquote_example : maybe_unquote (34 :: py "a" ++ [34]) = Ok (PQuoted (py "a")) /\ maybe_unquote [34] = Err AssertionError /\
  maybe_unquote (34 :: py "a") = Err AssertionError /\ maybe_unquote [] = Ok (PRaw []).
Proof. repeat split. Qed.
(** The characters of quoted values, other parameter values, values and names are exactly
    the declared ones. *)
Theorem C66_classes : forall c,
  (QSAFE c = true <-> ~ control c /\ c <> 34) /\ (SAFE c = true <-> ~ control c /\ c <> 34 /\ c <> 44 /\ c <> 58 /\ c <> 59) /\
  (VALUE c = true <-> ~ control c) /\ (IDENT c = true <-> name_char c).
Proof. exact classes. Qed.
Print Assumptions C66_classes.
Example C66_classes_example : QSAFE 44 = true /\ SAFE 44 = false /\ VALUE 9 = true /\ IDENT 95 = false.
Proof. now vm_compute. Qed.
