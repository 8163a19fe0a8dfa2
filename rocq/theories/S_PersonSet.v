(** * Specification: what assigning and reading an attribute of a person does *)
From Verif Require Import S_Codec M_Base M_Line M_Tree M_Comp M_Person S_Person.

(** The text in which a value is kept, or the exception it is refused with. *)
Inductive kept_as (X : ext) : pconv -> pyv -> res (list N) -> Prop :=
  | KA_text s : kept_as X PText (PyStr s) (Ok s)
  | KA_uri s : kept_as X PUri (PyStr s) (Ok s)
  | KA_url u : kept_as X PUri (PyUrl u) (Ok (x_geturl X u))
  | KA_no_url v : v = PyNone \/ (exists b, v = PyBool b) \/ (exists l, v = PyList l) -> kept_as X PUri v (Err AttributeError)
  | KA_true s w : In w true_words -> same_letters s w -> kept_as X PBool (PyStr s) (Ok (py "TRUE"))
  | KA_false s w : In w false_words -> same_letters s w -> kept_as X PBool (PyStr s) (Ok (py "FALSE"))
  | KA_no_word s : (forall w, In w (true_words ++ false_words) -> ~ same_letters s w) -> kept_as X PBool (PyStr s) (Err ValueError)
  | KA_empty v : v = PyNone \/ v = PyBool false \/ v = PyList [] -> kept_as X PBool v (Ok (py "FALSE"))
  | KA_full v : v = PyBool true \/ (exists u, v = PyUrl u) \/ v = PyBytesUrl \/ (exists x l, v = PyList (x :: l)) -> kept_as X PBool v (Ok (py "TRUE")).
(** Several values: the first that is refused decides. *)
Inductive all_kept (X : ext) (c : pconv) : list pyv -> res (list (list N)) -> Prop :=
  | AK_nil : all_kept X c [] (Ok [])
  | AK_refused v vs e : kept_as X c v (Err e) -> all_kept X c (v :: vs) (Err e)
  | AK_later v s vs e : kept_as X c v (Ok s) -> all_kept X c vs (Err e) -> all_kept X c (v :: vs) (Err e)
  | AK_ok v s vs ss : kept_as X c v (Ok s) -> all_kept X c vs (Ok ss) -> all_kept X c (v :: vs) (Ok (s :: ss)).
(** A text given for several values counts as its characters. *)
Inductive put_into (X : ext) (a : pprop) : pyv -> res (list (list N)) -> Prop :=
  | PI_one v s : pp_multi a = false -> kept_as X (pp_conv a) v (Ok s) -> put_into X a v (Ok [s])
  | PI_refused v e : pp_multi a = false -> kept_as X (pp_conv a) v (Err e) -> put_into X a v (Err e)
  | PI_list l r : pp_multi a = true -> all_kept X (pp_conv a) l r -> put_into X a (PyList l) r
  | PI_chars s r : pp_multi a = true -> all_kept X (pp_conv a) (map (fun c => PyStr [c]) s) r -> put_into X a (PyStr s) r
  | PI_single v : pp_multi a = true -> v = PyNone \/ (exists b, v = PyBool b) -> put_into X a v (Err TypeError).

(** Assignments outside the model: other than texts to a text attribute, and addresses or
    bytes where they would be written as bytes or iterated over. *)
Definition modelled_one (c : pconv) (v : pyv) : Prop :=
  match c, v with PText, PyStr _ => True | PText, _ => False | PUri, PyBytesUrl => False | _, _ => True end.
Definition modelled (a : pprop) (v : pyv) : Prop :=
  if pp_multi a then match v with PyList l => Forall (modelled_one (pp_conv a)) l | PyUrl _ | PyBytesUrl => False | _ => True end
  else modelled_one (pp_conv a) v.

(** What a parameter value is refused with in reading. *)
Inductive unreadable (X : ext) : pconv -> pval -> exn -> Prop :=
  | UR_word v : (forall w, In w (true_words ++ false_words) -> ~ same_letters (pval_str v) w) -> unreadable X PBool v ValueError
  | UR_quoted s : s <> [] -> unreadable X PUri (PQuoted s) AttributeError
  | UR_url s e : x_urlparse X s = Err e -> unreadable X PUri (PRaw s) e.
Inductive get_fails (X : ext) (a : pprop) : list pval -> exn -> Prop :=
  | GF_several v w vs : pp_multi a = false -> get_fails X a (v :: w :: vs) ValueError
  | GF_one v e : pp_multi a = false -> unreadable X (pp_conv a) v e -> get_fails X a [v] e
  | GF_first pre v vs e xs : pp_multi a = true -> Forall2 (stands X (pp_conv a)) pre xs -> unreadable X (pp_conv a) v e ->
      get_fails X a (pre ++ v :: vs) e.
