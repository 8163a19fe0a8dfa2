(** * Specification for list operations and clones of containers *)
From Verif Require Import M_Base M_Line M_Tree M_Cont.
Open Scope Z_scope.

(** A list that only holds content lines and containers. *)
Definition only_items (l : list obj) : Prop := forall o, In o l -> exists it, o = OItem it.

(** The objects an iterable yields are items, and it ends without an exception. *)
Definition clean_arg (v : iter_arg) : Prop :=
  match v with ItBad => True | ItGen (xs, e) => only_items xs end.
Definition ends (v : iter_arg) : Prop :=
  match v with ItGen (_, Some _) => False | _ => True end.

(** The operations that change the list before checking it are given items only. *)
Definition clean_op (o : op) : Prop :=
  match o with
  | OpExtend v | OpSetSlice _ _ _ v => clean_arg v
  | OpSetItem _ x => exists it, x = OItem it
  | _ => True
  end.
Definition ends_op (o : op) : Prop := match o with OpExtend v => ends v | _ => True end.

(** The operations that look before they leap. *)
Definition checks_first (o : op) : Prop :=
  match o with OpExtend _ | OpSetItem _ _ | OpSetSlice _ _ _ _ => False | _ => True end.

(** ** Identities of all mutable parts of a tree. *)
Fixpoint parts (it : litem) : list N :=
  match it with
  | LLine id did _ ps _ => id :: did :: map (fun kv => fst (snd kv)) ps
  | LCont id did _ items => id :: did :: flat_map parts items
  end.
(** The tree without identities. *)
Fixpoint content (it : litem) : item :=
  match it with
  | LLine _ _ name ps value => ILine (mk_line name (map (fun kv => (fst kv, snd (snd kv))) ps) value)
  | LCont _ _ name items => ICont name (map content items)
  end.
Definition disjoint (a b : litem) : Prop := forall p, In p (parts a) -> ~ In p (parts b).
(** Names are upper case, as the constructors make them. *)
Definition lname (it : litem) : str := match it with LLine _ _ n _ _ | LCont _ _ n _ => n end.
(** A sub-container with nothing in it, or a line. *)
Definition flat (it : litem) : Prop :=
  match it with LLine _ _ _ _ _ => True | LCont _ _ _ items => items = [] end.
