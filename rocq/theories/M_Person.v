(** * Model of organizers and attendees

    src/ics/attendee.py:13-120; converters src/ics/valuetype/generic.py:48-95, 155-187 and
    src/ics/valuetype/text.py:12-35; reading and writing of the person line is
    [vparse]/[vserialize] of [M_Comp] (special.py:45-97). *)
From Verif Require Import M_Base M_Text M_Line M_Codec M_Cal M_Time M_Span M_Dt M_Tree M_Comp.

Section Person.
Variable X : ext.

(** What can be read from or assigned to an attribute. [PyBytesUrl] is the
    ParseResultBytes that [urlparse] gives for an empty QuotedParamValue. *)
Inductive pyv := PyNone | PyStr (s : str) | PyUrl (u : url) | PyBytesUrl | PyBool (b : bool) | PyList (l : list pyv).

Inductive pconv := PText | PUri | PBool.
(** PersonProperty and PersonMultiProperty (attendee.py:13-51). *)
Record pprop := mk_pprop { pp_attr : str; pp_name : str; pp_conv : pconv; pp_multi : bool; pp_default : pyv }.

(** attendee.py:78-80, 111-117 *)
Definition person_props : list pprop := [
  mk_pprop (py "sent_by") (py "SENT-BY") PUri false PyNone;
  mk_pprop (py "common_name") (py "CN") PText false PyNone;
  mk_pprop (py "directory") (py "DIR") PUri false PyNone ].
Definition attendee_props : list pprop := person_props ++ [
  mk_pprop (py "user_type") (py "CUTYPE") PText false (PyStr (py "INDIVIDUAL"));
  mk_pprop (py "member") (py "MEMBER") PUri true PyNone;
  mk_pprop (py "role") (py "ROLE") PText false (PyStr (py "REQ-PARTICIPANT"));
  mk_pprop (py "status") (py "PARTSTAT") PText false (PyStr (py "NEEDS-ACTION"));
  mk_pprop (py "rsvp") (py "RSVP") PBool false (PyBool false);
  mk_pprop (py "delegated_to") (py "DELEGATED-TO") PUri true PyNone;
  mk_pprop (py "delegated_from") (py "DELEGATED-FROM") PUri true PyNone ].
Definition props (r : role) : list pprop :=
  match r with ROrganizer => person_props | RAttendee => attendee_props end.

Record person := mk_person { p_role : role; p_email : email; p_extra : xp }.

(** [converter.parse(v)]. The boolean converter also works on QuotedParamValue (a
    UserString); [urlparse] calls its missing [decode] unless it is empty. *)
Definition pparse (c : pconv) (v : pval) : res pyv :=
  match c with
  | PText => Ok (PyStr (pval_str v))
  | PBool => rmap PyBool (bool_parse (pval_str v))
  | PUri =>
      match v with
      | PRaw s => rmap PyUrl (x_urlparse X s)
      | PQuoted [] => Ok PyBytesUrl
      | PQuoted _ => Err AttributeError
      end
  end.
(** [bool(v)]; a ParseResult is a non-empty tuple. *)
Definition truthy (v : pyv) : bool :=
  match v with
  | PyNone => false | PyStr s => negb (str_eqb s []) | PyUrl _ | PyBytesUrl => true
  | PyBool b => b | PyList l => match l with [] => false | _ => true end
  end.
(** [converter.serialize(v)]. The text converter stores whatever it is given; only
    strings are modelled. *)
Definition pserialize (c : pconv) (v : pyv) : res str :=
  match c, v with
  | PText, PyStr s => Ok s
  | PText, _ => Err TypeError                        (* not modelled *)
  | PUri, PyStr s => Ok s
  | PUri, PyUrl u => Ok (x_geturl X u)
  | PUri, PyBytesUrl => Err TypeError                (* not modelled: gives bytes *)
  | PUri, _ => Err AttributeError
  | PBool, PyStr s => bool_serialize_str s
  | PBool, _ => Ok (bool_serialize (truthy v))
  end.
Fixpoint pparse_all (c : pconv) (l : list pval) : res (list pyv) :=
  match l with [] => Ok [] | v :: l' => do x <- pparse c v; do r <- pparse_all c l'; Ok (x :: r) end.
Fixpoint pserialize_all (c : pconv) (l : list pyv) : res (list str) :=
  match l with [] => Ok [] | v :: l' => do x <- pserialize c v; do r <- pserialize_all c l'; Ok (x :: r) end.
(** [for v in value]; a ParseResult and bytes are iterated too, not modelled. *)
Definition iterate (v : pyv) : res (list pyv) :=
  match v with PyList l => Ok l | PyStr s => Ok (map (fun c => PyStr [c]) s) | _ => Err TypeError end.

(** [__get__] (attendee.py:19-31, 45-48) *)
Definition pget (a : pprop) (p : person) : res pyv :=
  match dict_get (pp_name a) (p_extra p) with
  | None => Ok (pp_default a)
  | Some vs =>
      if pp_multi a then rmap PyList (pparse_all (pp_conv a) vs)
      else match vs with
           | [] => Ok (pp_default a)
           | [v] => pparse (pp_conv a) v
           | _ => Err ValueError
           end
  end.
(** [__set__] (attendee.py:33-34, 50-51): nothing is stored if the value is rejected. *)
Definition pset (a : pprop) (v : pyv) (p : person) : res person :=
  do l <- (if pp_multi a then do vs <- iterate v; pserialize_all (pp_conv a) vs
           else rmap (fun s => [s]) (pserialize (pp_conv a) v));
  Ok (mk_person (p_role p) (p_email p) (dict_set (pp_name a) (raw l) (p_extra p))).
(** [__delete__] (attendee.py:36-37, 53-54) *)
Definition pdel (a : pprop) (p : person) : person :=
  mk_person (p_role p) (p_email p) (dict_del (pp_name a) (p_extra p)).

(** [Person.__init__] (attendee.py:68-76): keyword arguments are assigned in order. *)
Fixpoint set_all (kw : list (pprop * pyv)) (p : person) : res person :=
  match kw with [] => Ok p | (a, v) :: kw' => do p' <- pset a v p; set_all kw' p' end.
Definition new_person (r : role) (e : email) (extra : xp) (kw : list (pprop * pyv)) : res person :=
  set_all kw (mk_person r e extra).

(** What a program does to a person; a rejected assignment changes nothing. *)
Inductive pop := OSet (a : pprop) (v : pyv) | ODel (a : pprop) | OEmail (e : email).
Definition pstep (o : pop) (p : person) : person :=
  match o with
  | OSet a v => match pset a v p with Ok p' => p' | Err _ => p end
  | ODel a => pdel a p
  | OEmail e => mk_person (p_role p) e (p_extra p)
  end.
Definition prun (h : list pop) (p : person) : person := fold_left (fun p o => pstep o p) h p.

(** The line of a person (value.py:140-160) and its text; reading it back. *)
Definition conv_of (r : role) : vconv := match r with ROrganizer => Organizer | RAttendee => Attendee end.
Definition person_line (p : person) : res content_line :=
  do (s, ps, _) <- vserialize X (conv_of (p_role p)) (VPerson (p_role p) (p_email p) (p_extra p)) [] [];
  Ok (ContentLine (ics_type (conv_of (p_role p))) ps s).
Definition person_text (p : person) : res str := rmap (fun l => serialize_unwrapped l false) (person_line p).
Definition read_person (r : role) (t : str) : res person :=
  do l <- parse_line t;
  do (v, _, _) <- vparse X (conv_of r) (cl_value l) (cl_params l) [];
  match v with VPerson r' e x => Ok (mk_person r' e x) | _ => Err TypeError end.
End Person.
