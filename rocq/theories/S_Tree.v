(** * Specification of nesting *)
From Verif Require Import M_Base M_Line S_Line S_Fold M_Tree.

Definition is_begin (l : content_line) : Prop := cl_name l = py "BEGIN".
Definition is_end (l : content_line) : Prop := cl_name l = py "END".
Definition ci_eq (a b : str) : Prop := upper a = upper b.

(** [Nested ls its]: the lines [ls] are a properly nested sequence with contents [its]. *)
Inductive Nested : list content_line -> list item -> Prop :=
  | N_nil : Nested [] []
  | N_line l ls its :
      ~ is_begin l -> ~ is_end l -> Nested ls its -> Nested (l :: ls) (ILine l :: its)
  | N_cont b e inner its' ls its :
      is_begin b -> is_end e -> ci_eq (cl_value b) (cl_value e) -> cl_value b <> [] ->
      Nested inner its' -> Nested ls its ->
      Nested (b :: inner ++ e :: ls) (ICont (upper (cl_value b)) its' :: its).

(** [Forest ls its]: the same, with END lines allowed between the top-level items;
    these are kept as plain lines. *)
Inductive Forest : list content_line -> list item -> Prop :=
  | F_nil : Forest [] []
  | F_line l ls its : ~ is_begin l -> Forest ls its -> Forest (l :: ls) (ILine l :: its)
  | F_cont b e inner its' ls its :
      is_begin b -> is_end e -> ci_eq (cl_value b) (cl_value e) -> cl_value b <> [] ->
      Nested inner its' -> Forest ls its ->
      Forest (b :: inner ++ e :: ls) (ICont (upper (cl_value b)) its' :: its).

(** The flat line sequence of a tree. *)
Fixpoint flatten (it : item) : list content_line :=
  match it with
  | ILine l => [l]
  | ICont n its =>
      mk_line (py "BEGIN") [] n :: flat_map flatten its ++ [mk_line (py "END") [] n]
  end.

(** Equal up to what the tree does not record: letter case of container names and
    parameters of BEGIN/END lines. *)
Inductive same_line : content_line -> content_line -> Prop :=
  | same_refl l : same_line l l
  | same_delim a b : cl_name a = cl_name b -> is_begin a \/ is_end a ->
      ci_eq (cl_value a) (cl_value b) -> same_line a b.

(** The three nesting errors, each with the exception raised: inside some BEGIN
    whose contents so far are properly nested, the lines end ([eof] is the exception
    raised for that), or the next line is an END with another name, or is the
    matching END of an unnamed BEGIN. *)
Inductive Bad_inside (eof : exn) : str -> list content_line -> exn -> Prop :=
  | Bad_missing name inner its : Nested inner its -> Bad_inside eof name inner eof
  | Bad_mismatch name inner its e rest :
      Nested inner its -> is_end e -> ~ ci_eq (cl_value e) name ->
      Bad_inside eof name (inner ++ e :: rest) ParseError
  | Bad_empty inner its e rest :
      Nested inner its -> is_end e -> cl_value e = [] ->
      Bad_inside eof [] (inner ++ e :: rest) ValueError
  | Bad_deeper name inner its b rest x :
      Nested inner its -> is_begin b -> Bad_inside eof (cl_value b) rest x ->
      Bad_inside eof name (inner ++ b :: rest) x.

(** ** Trees that can be written faithfully *)
Section Wf.
  Variable ok_line : content_line -> Prop.
  Fixpoint wf_item (it : item) : Prop :=
    match it with
    | ILine l => ok_line l
    | ICont n its =>
        n <> [] /\ upper n = n /\ no_break n /\
        (fix all l := match l with [] => True | i :: l' => wf_item i /\ all l' end) its
    end.
End Wf.

(** Structural equality of trees with lines compared by [line_eq]. *)
Inductive item_eq : item -> item -> Prop :=
  | ieq_line a b : line_eq a b -> item_eq (ILine a) (ILine b)
  | ieq_cont n xs ys : Forall2 item_eq xs ys -> item_eq (ICont n xs) (ICont n ys).

(** Lines that can stand inside a container: they round-trip (C05), fold safely
    (C07) and are not structural. *)
Definition ok_line (cl : content_line) : Prop :=
  wf_line cl /\ foldable cl /\ ~ is_begin cl /\ ~ is_end cl.

(** [wrap=None], or a positive width. *)
Definition width_ok (W : option nat) := match W with Some W => (1 <= W)%nat | None => True end.
