(** * Specification: the parameters of persons (RFC 5545, 3.2) *)
From Verif Require Import M_Base M_Codec M_Line M_Tree M_Comp M_Person.
(** Name, whether the values are addresses (URIs), whether there may be several, and the default. *)
Inductive people_param := Words | Address | Addresses | Flag.
Definition known_params (attendee : bool) : list (list N * people_param * option (list N)) :=
  [(py "SENT-BY", Address, None); (py "CN", Words, None); (py "DIR", Address, None)] ++
  if attendee then
    [(py "CUTYPE", Words, Some (py "INDIVIDUAL")); (py "MEMBER", Addresses, None); (py "ROLE", Words, Some (py "REQ-PARTICIPANT"));
     (py "PARTSTAT", Words, Some (py "NEEDS-ACTION")); (py "RSVP", Flag, Some (py "FALSE"));
     (py "DELEGATED-TO", Addresses, None); (py "DELEGATED-FROM", Addresses, None)]
  else [].
(** An attribute for such a parameter. *)
Definition kind_of (k : people_param) : pconv * bool :=
  match k with Words => (PText, false) | Address => (PUri, false) | Addresses => (PUri, true) | Flag => (PBool, false) end.
Definition default_of (k : people_param) (d : option (list N)) : pyv :=
  match k, d with Flag, Some t => PyBool (str_eqb t (py "TRUE")) | _, Some t => PyStr t | _, None => PyNone end.
Definition is_param (a : pprop) (q : list N * people_param * option (list N)) : Prop :=
  let '(n, k, d) := q in pp_name a = n /\ (pp_conv a, pp_multi a) = kind_of k /\ pp_default a = default_of k d.
