(** * Specification of predicates between entries, spans and instants *)
From Verif Require Import M_Base M_Codec M_Cal M_Time M_Span S_Span M_Cmp S_Cmp M_CmpObj.
Open Scope Z_scope.

(** The object occupies the instants from [B] up to but excluding [N]. *)
Definition occupies (E : env) (P : datetime -> Prop) (o : cobj) (B N : Z) : Prop :=
  match o with
  | CEntry x => interval E P (en_span x) B N
  | CSpan t => interval E P t B N
  | _ => False
  end.
(** What each predicate says about [B, N) and [B', N'). *)
Definition says (p : pred) (B N B' N' : Z) : Prop :=
  match p with
  | PStartsWithin => B' <= B < N'
  | PEndsWithin => B' <= N < N'
  | PIntersects => B' <= B < N' \/ B' <= N < N' \/ B <= B' < N \/ B <= N' < N
  | PIncludes => B <= B' /\ N' < N
  | PIsIncludedIn => B' <= B /\ N < N'
  end.
Definition is_span (o : cobj) : Prop := exists t, o = CSpan t.
Definition is_entry (o : cobj) : Prop := exists x, o = CEntry x.
(** What each operator says, given what [<] says. *)
Definition means_op (o : cmpop) {A} (lt : A -> A -> Prop) (x y : A) : Prop :=
  match o with CLt => lt x y | CGt => lt y x | CLe => ~ lt y x | CGe => ~ lt x y end.
Definition entry_lt (x y : (Z * Z) * list N) : Prop := key_lt (fst x) (fst y) \/ fst x = fst y /\ str_lt (snd x) (snd y).
