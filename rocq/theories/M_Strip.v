(** * Removing what the library kept but does not understand (component.py:70-94) *)
From Verif Require Import M_Base M_Line M_Tree M_Comp.

(** [strip_extras(all_extras, extra_properties, extra_params, property_merging)]
    (component.py:70-94): options that are not given ([None]) are as [all_extras]; the
    rest is [M_Comp.strip_extras]. The options are booleans or [None]; the code also takes
    other values and tests whether they are truthy. *)
Definition or_all (all : bool) (o : option bool) : bool := match o with Some b => b | None => all end.
Definition strip_call {M} (all : bool) (properties params merging : option bool) (c : comp M) : res (comp M) :=
  strip_extras (or_all all properties) (or_all all params) (or_all all merging) c.
