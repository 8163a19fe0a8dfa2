(** * Specification of cloning components *)
From Verif Require Import M_Base M_Line M_Tree M_Time M_Dt M_Span M_Comp M_Clone S_Line S_Tree.

(** [==] of two components of the library: the same class and equal attributes, among
    them [extra] and [extra_params] (component.py:13-30). *)
Definition comp_eq {M} (x y : comp M) : Prop :=
  c_cls x = c_cls y /\ c_attrs x = c_attrs y /\ c_mem x = c_mem y /\
  item_eq (ICont (c_name x) (c_extra x)) (ICont (c_name y) (c_extra y)) /\ c_params x = c_params y.

(** Components a program can have in hand: constructed with any arguments, then any
    history of assignments, changes to its lists, to its members, to its extra items
    and parameters, and of reading containers into it. *)
Inductive made {M} (X : ext) (load_m : mkind -> list N -> list item -> zones -> res (M * zones)) : comp M -> Prop :=
  | M_new c args mems x : construct X c args mems = Ok x -> made X load_m x
  | M_load_new c name its zs x zs' : load_comp X M load_m c name its zs = Ok (x, zs') -> made X load_m x
  | M_assign x a v y : made X load_m x -> In a (class_fields (c_cls x)) -> has_attr a = true ->
      assign X a v x = Ok y -> made X load_m y
  | M_list x a l l' : made X load_m x -> get_attr a x = AMany l ->
      made X load_m (set_attrs (dict_set a (AMany l') (c_attrs x)) x)
  | M_member x a l : made X load_m x -> In a (keys (c_mem x)) ->
      made X load_m (set_mem (dict_set a l (c_mem x)) x)
  | M_extra x n its : made X load_m x ->
      made X load_m (mk_comp (c_cls x) (c_attrs x) (c_mem x) n its (c_params x))
  | M_params x p : made X load_m x -> made X load_m (set_params p x)
  | M_populate x name its zs y zs' : made X load_m x ->
      populate_instance X M load_m x name its zs = Ok (y, zs') -> made X load_m y.
