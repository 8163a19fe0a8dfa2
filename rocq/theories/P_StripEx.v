(** * Examples for removing extra content *)
From Verif Require Import M_Base M_Line M_Tree M_Comp M_Strip S_Strip S_Toy.

Definition ex_strip_in : list item := [line (py "UID") (py "u"); line (py "DTSTAMP") (py "20200101T000000Z"); line (py "CREATED") (py "20200101T000000Z");
  ILine (mk_line (py "CATEGORIES") [(py "LANGUAGE", [PRaw (py "de")])] (py "a,b")); line (py "X-A") (py "1")].
Definition ex_strip : entry := match event_from_container toy (py "VEVENT") ex_strip_in with Ok x => x | Err _ => new_comp toy alarm CEvent end.
Definition ex_written (r : res entry) : list item :=
  match r with Ok y => match dump_entry toy y [] with Ok (ICont _ its, _) => its | _ => [] end | Err _ => [] end.
Lemma ex_strip_dicts : dicts ex_strip.
Proof. unfold dicts. vm_compute. repeat constructor; cbn; intuition discriminate. Qed.
Lemma ex_strip_lines :
  map (fun it => match it with ILine l => (cl_name l, cl_value l) | _ => ([], []) end) (ex_written (Ok ex_strip)) =
    [(py "UID", py "u"); (py "CREATED", py "20200101T000000Z"); (py "DTSTAMP", py "20200101T000000Z"); (py "CATEGORIES", py "a,b"); (py "X-A", py "1")] /\
  map (fun it => match it with ILine l => (cl_name l, cl_value l) | _ => ([], []) end) (ex_written (strip_call false None None (Some true) ex_strip)) =
    [(py "UID", py "u"); (py "CREATED", py "20200101T000000Z"); (py "DTSTAMP", py "20200101T000000Z"); (py "CATEGORIES", py "a"); (py "CATEGORIES", py "b"); (py "X-A", py "1")] /\
  ex_written (strip_call true None None None ex_strip) =
    [line (py "UID") (py "u"); line (py "CREATED") (py "20200101T000000Z"); line (py "DTSTAMP") (py "20200101T000000Z"); line (py "CATEGORIES") (py "a"); line (py "CATEGORIES") (py "b")].
Proof. vm_compute. auto. Qed.
