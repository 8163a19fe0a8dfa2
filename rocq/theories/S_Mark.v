(** * Specification: the values that count as false *)
From Verif Require Import M_Base M_Codec M_Cal M_Time M_Span M_Event.
Open Scope Z_scope.
(** None, zero, and what is empty (the class 3 is that of a Container without items). *)
Inductive falsy : val -> Prop :=
| F_none : falsy VNone | F_zero : falsy (VInt 0) | F_no_time : falsy (VTd 0) | F_no_text : falsy (VStr [])
| F_no_list : falsy (VList []) | F_no_tuple : falsy (VTuple []) | F_no_dict : falsy (VDict [])
| F_no_items n : falsy (VObj 3 n).
