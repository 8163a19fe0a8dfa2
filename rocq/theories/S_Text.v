(** * Specification of escaped TEXT (RFC 5545 section 3.3.11, as ics-py reads it)

    Independent of the functions of the model. *)
From Verif Require Import M_Base.

(** [TextEsc w v]: the raw text [w] denotes the string [v]. *)
Inductive TextEsc : str -> str -> Prop :=
  | TE_nil : TextEsc [] []
  | TE_plain c w v :
      ~ In c [92; 59; 44; 10; 13] ->               (* not \ ; , LF CR *)
      TextEsc w v -> TextEsc (c :: w) (c :: v)
  | TE_bslash w v : TextEsc w v -> TextEsc (92 :: 92 :: w) (92 :: v)
  | TE_semi w v : TextEsc w v -> TextEsc (92 :: 59 :: w) (59 :: v)
  | TE_comma w v : TextEsc w v -> TextEsc (92 :: 44 :: w) (44 :: v)
  | TE_lf c w v : c = 110 \/ c = 78 -> TextEsc w v -> TextEsc (92 :: c :: w) (10 :: v)
  | TE_cr c w v : c = 114 \/ c = 82 -> TextEsc w v -> TextEsc (92 :: c :: w) (13 :: v).

(** [a] ends in an escape: an odd number of backslashes at its end. *)
Definition ends_in_escape (a : str) : Prop :=
  exists p k, a = p ++ repeat 92 (2 * k + 1) /\ (forall q, p <> q ++ [92]).

(** Every occurrence of [c] in [w] is escaped. *)
Definition all_escaped (c : char) (w : str) : Prop :=
  forall a b, w = a ++ c :: b -> ends_in_escape a.
