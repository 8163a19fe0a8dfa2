(** * Property C42, continued: what is stored and what is refused *)
From Verif Require Import M_Base M_Line M_Tree M_Comp M_Person S_Codec S_Person S_Toy S_PersonSet P_PersonEx P_PersonSet.

(** Assigning stores the texts that [put_into] says, under the name of the parameter and
    nowhere else, or raises what it says. *)
Theorem C42_set : forall X a v p r, modelled a v -> put_into X a v r ->
  pset X a v p = match r with
                 | Ok l => Ok (mk_person (p_role p) (p_email p) (dict_set (pp_name a) (map PRaw l) (p_extra p)))
                 | Err e => Err e
                 end.
Proof. exact set_exact. Qed.
Print Assumptions C42_set.
Theorem C42_set_total : forall X a v, modelled a v -> exists r, put_into X a v r.
Proof. exact put_total. Qed.
Print Assumptions C42_set_total.
Theorem C42_set_one : forall X a v r r', put_into X a v r -> put_into X a v r' -> r = r'.
Proof. exact put_one. Qed.
Print Assumptions C42_set_one.

(** Reading fails exactly for values that cannot be read, and for several values of an
    attribute that has one. *)
Theorem C42_get_fails : forall X a p e, pget X a p = Err e <->
  exists vs, dict_get (pp_name a) (p_extra p) = Some vs /\ get_fails X a vs e.
Proof. exact get_err_exact. Qed.
Print Assumptions C42_get_fails.

Example C42_example_set :
  modelled ex_dir PyNone /\ put_into toy ex_dir PyNone (Err AttributeError) /\
  modelled (prop_of (py "member")) (PyStr (py "ab")) /\
  pset toy (prop_of (py "member")) (PyStr (py "ab")) (mk_person RAttendee (EStr (py "mailto:jo")) []) =
    Ok (mk_person RAttendee (EStr (py "mailto:jo")) [(py "MEMBER", [PRaw (py "a"); PRaw (py "b")])]) /\
  pset toy (prop_of (py "rsvp")) (PyStr (py "maybe")) (mk_person RAttendee (EStr (py "mailto:jo")) []) = Err ValueError /\
  pget toy (prop_of (py "rsvp")) (mk_person RAttendee (EStr (py "mailto:jo")) [(py "RSVP", [PRaw (py "1"); PRaw (py "2")])]) = Err ValueError.
Proof.
  split; [exact I|]. split; [apply PI_refused; [reflexivity|]; apply KA_no_url; now left|]. split; [exact I|].
  repeat split; reflexivity.
Qed.
