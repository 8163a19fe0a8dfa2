(** * Properties C27, C28: a timeline asked for no instant *)
From Verif Require Import M_Base M_Codec M_Cal M_Time M_Span S_Span M_Event M_Cmp S_Cmp M_Heap M_Timeline S_Timeline P_TlNone.
Open Scope Z_scope.

(** C27. [at(None)] fails at the first event, if there is one, *)
Theorem C27_at_none : forall E P N events r v, good_local E -> tl_iterator E N events = (r, None) -> timed E P r ->
  ensure_datetime v = Ok None ->
  tl_at E N events v = match r with [] => ([], None) | _ => ([], Some AttributeError) end.
Proof. exact at_none. Qed.
Print Assumptions C27_at_none.
(** and [start_after(None)] too, with another error. *)
Theorem C27_start_after_none : forall E P N events r v, tl_iterator E N events = (r, None) -> timed E P r ->
  ensure_datetime v = Ok None ->
  tl_start_after E N events v = match r with [] => ([], None) | _ => ([], Some TypeError) end.
Proof. exact start_after_none. Qed.
Print Assumptions C27_start_after_none.
(** C28. [on(None)] fails at once. *)
Theorem C28_on_none : forall E N events v strict, ensure_datetime v = Ok None -> tl_on E N events v strict = Err TypeError.
Proof. exact on_none. Qed.
Print Assumptions C28_on_none.
Example C27_none_example : ensure_datetime VNone = Ok None.
Proof. reflexivity. Qed.
