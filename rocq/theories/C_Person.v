(** * Attributes of organizers and attendees (C42) *)
From Verif Require Import M_Base M_Line M_Tree M_Comp M_Person S_Line S_Person S_Toy.
From Verif Require Import P_Person P_PersonEx.

(** After any history of assignments of values of the right type, deletions and changes of
    the address: every attribute reads as what was last put into it (its default after a
    deletion, what it was before if it was not touched), the address is the last one, and
    parameters that belong to no attribute are unchanged. *)
Theorem C42_history : forall X h p, NoDup (keys (p_extra p)) -> Forall (right_op X (p_role p)) h ->
  NoDup (keys (p_extra (prun X h p))) /\ p_role (prun X h p) = p_role p /\ p_email (prun X h p) = email_after (p_email p) h /\
  (forall a, In a (props (p_role p)) -> pget X a (prun X h p) = field_after (pp_attr a) (pget X a p) h) /\
  (forall k, ~ In k (map pp_name (props (p_role p))) -> dict_get k (p_extra (prun X h p)) = dict_get k (p_extra p)).
Proof. exact history. Qed.
Print Assumptions C42_history.
Example C42_example_history : Forall (right_op toy RAttendee) ex_history /\
  field_after (py "common_name") (Ok PyNone) ex_history = Ok (PyStr (py "Doe; Jo")) /\
  field_after (py "rsvp") (Ok PyNone) ex_history = Ok (PyBool true) /\
  field_after (py "role") (Ok PyNone) ex_history = Ok (PyStr (py "REQ-PARTICIPANT")).
Proof. exact ex_history_right. Qed.

(** Reading an attribute: its default if the parameter is missing (or empty, for one
    value), else what the parameter values stand for; an error if one value is expected
    and there are several, or if a value stands for nothing. *)
Theorem C42_get : forall X a p x, pget X a p = Ok x <-> field_is X a (dict_get (pp_name a) (p_extra p)) x.
Proof. exact get_iff. Qed.
Print Assumptions C42_get.
Theorem C42_several : forall X a p v w vs, pp_multi a = false -> dict_get (pp_name a) (p_extra p) = Some (v :: w :: vs) ->
  pget X a p = Err ValueError.
Proof. exact several. Qed.
Print Assumptions C42_several.
Example C42_example_get : pget toy (mk_pprop (py "rsvp") (py "RSVP") PBool false (PyBool false))
    (mk_person RAttendee (EStr []) [(py "RSVP", [PRaw (py "yes")])]) = Ok (PyBool true) /\
  pget toy (mk_pprop (py "rsvp") (py "RSVP") PBool false (PyBool false)) (mk_person RAttendee (EStr []) [(py "RSVP", [PRaw []; PRaw []])]) = Err ValueError.
Proof. vm_compute. auto. Qed.

(** A new person has the address, the parameters and the attributes given. *)
Theorem C42_new : forall X r e extra kw, NoDup (keys extra) ->
  Forall (fun o => In (fst o) (props r) /\ right_value X (fst o) (snd o)) kw ->
  exists p, new_person X r e extra kw = Ok p /\ p_role p = r /\ p_email p = e /\
    (forall a, In a (props r) -> pget X a p = field_after (pp_attr a) (pget X a (mk_person r e extra)) (map (fun o => OSet (fst o) (snd o)) kw)) /\
    (forall k, ~ In k (map pp_name (props r)) -> dict_get k (p_extra p) = dict_get k extra).
Proof. exact new_spec. Qed.
Print Assumptions C42_new.
Example C42_example_new : NoDup (keys [(py "X-A", [PRaw (py "1")])]) /\
  Forall (fun o => In (fst o) (props RAttendee) /\ right_value toy (fst o) (snd o))
    [(mk_pprop (py "rsvp") (py "RSVP") PBool false (PyBool false), PyBool true)].
Proof. split; [repeat constructor; intros []|]. constructor; [|constructor]. cbn. tauto. Qed.

(** Writing the line of a person and reading it back gives the address and, for every
    attribute that is not a URI or needs no quotes, the same value. *)
Theorem C42_line : forall X p u, writable_extra (p_extra p) -> x_urlparse X (email_str X (p_email p)) = Ok u ->
  exists t q, person_text X p = Ok t /\ read_person X (p_role p) t = Ok q /\
    p_role q = p_role p /\ p_email q = EUrl u /\ strs (p_extra q) = strs (p_extra p) /\
    forall a, In a (props (p_role p)) ->
      pp_conv a <> PUri \/ (forall vs, dict_get (pp_name a) (p_extra p) = Some vs -> Forall unquoted vs) ->
      pget X a q = pget X a p.
Proof. exact line_spec. Qed.
Print Assumptions C42_line.

(** Both together: what was last put into a text or boolean attribute is what is read
    after writing and reading the line. *)
Theorem C42_survive : forall X p h u, writable_extra (p_extra p) -> Forall (right_op X (p_role p)) h ->
  Forall (writable_op X) h -> x_urlparse X (email_str X (email_after (p_email p) h)) = Ok u ->
  exists t q, person_text X (prun X h p) = Ok t /\ read_person X (p_role p) t = Ok q /\
    p_role q = p_role p /\ p_email q = EUrl u /\
    (forall a, In a (props (p_role p)) -> pp_conv a <> PUri -> pget X a q = field_after (pp_attr a) (pget X a p) h) /\
    (forall k, ~ In k (map pp_name (props (p_role p))) ->
       option_map (map pval_str) (dict_get k (p_extra q)) = option_map (map pval_str) (dict_get k (p_extra p))).
Proof. exact survive. Qed.
Print Assumptions C42_survive.
Example C42_example_survive : Forall (writable_op toy) ex_history /\ writable_extra [] /\
  x_urlparse toy (email_str toy (email_after (EStr []) ex_history)) = Ok [py "mailto:jo@example.org"].
Proof. exact ex_history_writable. Qed.

(** A URI with a colon, that is every absolute one, does not survive: it is read as a
    quoted parameter value, and reading the attribute then fails. *)
Theorem C42_uri_refuted : forall X a v p q s, In a (props (p_role p)) -> pp_conv a = PUri -> pp_multi a = false ->
  right_value X a v -> pserialize X PUri v = Ok s -> In 58%N s ->
  writable_extra (p_extra q) -> pset X a v p = Ok q -> forall t q', person_text X q = Ok t -> read_person X (p_role p) t = Ok q' ->
  pget X a q' = Err AttributeError.
Proof. exact uri_lost. Qed.
Print Assumptions C42_uri_refuted.
Example C42_example_uri : exists q t q',
  pset toy ex_dir (PyUrl [py "ldap://x"]) (mk_person ROrganizer (EStr (py "mailto:jo")) []) = Ok q /\
  writable_extra (p_extra q) /\ person_text toy q = Ok t /\ read_person toy ROrganizer t = Ok q' /\
  In ex_dir (props ROrganizer) /\ pget toy ex_dir q' = Err AttributeError.
Proof. exact ex_uri_lost. Qed.

(** A string assigned to a URI attribute is read as a parsed address. *)
Theorem C42_str_refuted : forall X a s p q u, pp_conv a = PUri -> pp_multi a = false -> x_urlparse X s = Ok u ->
  pset X a (PyStr s) p = Ok q -> pget X a q = Ok (PyUrl u).
Proof. exact str_uri. Qed.
Print Assumptions C42_str_refuted.

(** An attendee whose address has a comma is read as two attendees, of which the second
    has a parameter that nobody wrote. *)
Theorem C42_comma_refuted : exists x its y zs,
  get_attr (py "attendees") x = AMany [VPerson RAttendee (EUrl [py "mailto:a,b@x"]) []] /\
  to_container toy x = Ok (ICont (py "VEVENT") its) /\
  load_entry toy CEvent (py "VEVENT") its [] = Ok (y, zs) /\
  get_attr (py "attendees") y = AMany [VPerson RAttendee (EUrl [py "mailto:a"]) [];
    VPerson RAttendee (EUrl [py "b@x"]) [(py "__merge_next", [PRaw (py "TRUE")])]].
Proof. exact comma_refuted. Qed.
Print Assumptions C42_comma_refuted.
