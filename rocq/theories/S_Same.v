(** * Specification: equal components are written alike (C67) *)
From Verif Require Import M_Base M_Line M_Tree S_Line S_Tree.
Open Scope N_scope.

(** Both succeed with related results, or both fail in the same way. *)
Definition alike {A B} (R : A -> B -> Prop) (a : res A) (b : res B) : Prop :=
  match a, b with Ok x, Ok y => R x y | Err e, Err f => e = f | _, _ => False end.
(** Parameter values are quoted only if they have to be. *)
Definition line_tight (cl : content_line) : Prop :=
  forall k vs s, In (k, vs) (cl_params cl) -> In (PQuoted s) vs -> exists c, In c s /\ In c [58; 59; 44].
Fixpoint tight (it : item) : Prop :=
  match it with
  | ILine l => line_tight l
  | ICont _ its => (fix all l := match l with [] => True | i :: l' => tight i /\ all l' end) its
  end.
