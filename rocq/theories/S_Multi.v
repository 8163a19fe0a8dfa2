(** * Specification of lines with several TEXT values *)
From Verif Require Import M_Base M_Line M_Tree M_Comp S_Text.

(** [ValueList w vs]: the raw text [w] denotes the values [vs], separated by commas. *)
Inductive ValueList : list N -> list (list N) -> Prop :=
  | VL_one w v : TextEsc w v -> ValueList w [v]
  | VL_more w v t vs : TextEsc w v -> ValueList t vs -> ValueList (w ++ 44 :: t) (v :: vs).

(** The lines of a name, in order. *)
Definition lines (n : list N) (its : list item) : list content_line :=
  flat_map (fun it => match it with ILine l => if str_eqb (cl_name l) n then [l] else [] | ICont _ _ => [] end) its.

(** Parameters form a dict, without VALUE and without the library's own marker. *)
Definition plain_params (l : content_line) : Prop :=
  NoDup (keys (cl_params l)) /\ ~ In (py "VALUE") (keys (cl_params l)) /\ ~ In (py "__merge_next") (keys (cl_params l)).

(** [l'] carries the parameters of [l] and the values [vs]. *)
Definition carries (l : content_line) (vs : list (list N)) (l' : content_line) : Prop :=
  cl_name l' = cl_name l /\ cl_params l' = cl_params l /\ ValueList (cl_value l') vs.
Fixpoint carry (ls : list content_line) (vss : list (list (list N))) (ls' : list content_line) : Prop :=
  match ls, vss, ls' with
  | [], [], [] => True
  | l :: ls, vs :: vss, l' :: ls' => carries l vs l' /\ carry ls vss ls'
  | _, _, _ => False
  end.

(** The event with another list of categories. *)
Definition set_cats (vs : list (list N)) (x : entry) : entry :=
  set_attrs (dict_set (py "categories") (AMany (map VStr vs)) (c_attrs x)) x.
