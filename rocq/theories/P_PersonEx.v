(** * Examples about organizers and attendees *)
From Verif Require Import M_Base M_Text M_Line M_Codec M_Cal M_Time M_Span M_Dt M_Tree M_Comp M_Person S_Line S_Person S_Toy.
From Coq Require Import Lia.
Open Scope N_scope.

Definition prop_of (a : list N) : pprop :=
  match find (fun b => str_eqb a (pp_attr b)) attendee_props with
  | Some b => b | None => mk_pprop [] [] PText false PyNone
  end.
Definition ex_dir : pprop := prop_of (py "directory").
Definition ex_history : list pop := [
  OSet (prop_of (py "common_name")) (PyStr (py "Doe"));
  OSet (prop_of (py "role")) (PyStr (py "CHAIR"));
  OSet (prop_of (py "rsvp")) (PyBool true);
  OEmail (EUrl [py "mailto:jo@example.org"]);
  OSet (prop_of (py "member")) (PyList [PyUrl [py "mailto:a"]; PyUrl [py "mailto:b"]]);
  OSet (prop_of (py "common_name")) (PyStr (py "Doe; Jo"));
  ODel (prop_of (py "role"))].

Ltac find_in := vm_compute; repeat (try (left; reflexivity); right).
Lemma ex_history_right : Forall (right_op toy RAttendee) ex_history /\
  field_after (py "common_name") (Ok PyNone) ex_history = Ok (PyStr (py "Doe; Jo")) /\
  field_after (py "rsvp") (Ok PyNone) ex_history = Ok (PyBool true) /\
  field_after (py "role") (Ok PyNone) ex_history = Ok (PyStr (py "REQ-PARTICIPANT")).
Proof.
  split; [|split; [|split]; vm_compute; reflexivity].
  unfold ex_history. repeat apply Forall_cons; [..|apply Forall_nil].
  - split; [find_in|vm_compute; exact I].
  - split; [find_in|vm_compute; exact I].
  - split; [find_in|vm_compute; exact I].
  - exact I.
  - split; [find_in|]. exists [PyUrl [py "mailto:a"]; PyUrl [py "mailto:b"]]. split; [reflexivity|].
    repeat apply Forall_cons; [..|apply Forall_nil]; vm_compute; reflexivity.
  - split; [find_in|vm_compute; exact I].
  - cbn [right_op]. find_in.
Qed.
Lemma plain_check s : s <> [] -> forallb (fun c => negb (N.eqb c 13)) s = true -> plain s.
Proof. intros Hs H. split; [easy|]. intro Hin. rewrite forallb_forall in H. specialize (H _ Hin). discriminate. Qed.
Lemma ex_history_writable : Forall (writable_op toy) ex_history /\ writable_extra [] /\
  x_urlparse toy (email_str toy (email_after (EStr []) ex_history)) = Ok [py "mailto:jo@example.org"].
Proof.
  split; [|split; [split; [constructor|easy]|reflexivity]].
  unfold ex_history. repeat apply Forall_cons; [..|apply Forall_nil]; try exact I; try (apply plain_check; [discriminate|vm_compute; reflexivity]).
  split; [discriminate|]. repeat apply Forall_cons; [..|apply Forall_nil]; (apply plain_check; [discriminate|vm_compute; reflexivity]).
Qed.
Lemma ex_uri_lost : exists q t q',
  pset toy ex_dir (PyUrl [py "ldap://x"]) (mk_person ROrganizer (EStr (py "mailto:jo")) []) = Ok q /\
  writable_extra (p_extra q) /\ person_text toy q = Ok t /\ read_person toy ROrganizer t = Ok q' /\
  In ex_dir (props ROrganizer) /\ pget toy ex_dir q' = Err AttributeError.
Proof.
  exists (mk_person ROrganizer (EStr (py "mailto:jo")) [(py "DIR", [PRaw (py "ldap://x")])]).
  exists (py "ORGANIZER;DIR=" ++ [34] ++ py "ldap://x" ++ [34] ++ py ":mailto:jo").
  exists (mk_person ROrganizer (EUrl [py "mailto:jo"]) [(py "DIR", [PQuoted (py "ldap://x")])]).
  split; [vm_compute; reflexivity|]. split.
  - split; [constructor; [easy|constructor]|]. intros k vs [H|[]]. injection H as <- <-. split.
    + intros c Hc Hin. vm_compute in Hin. cbn in Hc. intuition (subst; discriminate).
    + split; [discriminate|]. split; [|discriminate]. intros v [<-|[]] Hin. vm_compute in Hin. intuition discriminate.
  - split; [vm_compute; reflexivity|]. split; [vm_compute; reflexivity|]. split; [find_in|vm_compute; reflexivity].
Qed.

Definition ex_comma : entry :=
  let c := new_comp toy alarm CEvent in
  set_attrs (dict_set (py "attendees") (AMany [VPerson RAttendee (EUrl [py "mailto:a,b@x"]) []]) (c_attrs c)) c.
Definition ex_comma_items : list item :=
  match to_container toy ex_comma with Ok (ICont _ its) => its | _ => [] end.
Definition ex_comma_back : entry :=
  match load_entry toy CEvent (py "VEVENT") ex_comma_items [] with Ok (y, _) => y | _ => ex_comma end.
Lemma comma_refuted : exists x its y zs,
  get_attr (py "attendees") x = AMany [VPerson RAttendee (EUrl [py "mailto:a,b@x"]) []] /\
  to_container toy x = Ok (ICont (py "VEVENT") its) /\
  load_entry toy CEvent (py "VEVENT") its [] = Ok (y, zs) /\
  get_attr (py "attendees") y = AMany [VPerson RAttendee (EUrl [py "mailto:a"]) [];
    VPerson RAttendee (EUrl [py "b@x"]) [(py "__merge_next", [PRaw (py "TRUE")])]].
Proof.
  exists ex_comma, ex_comma_items, ex_comma_back, [].
  split; [vm_compute; reflexivity|]. split; [vm_compute; reflexivity|]. split; vm_compute; reflexivity.
Qed.
