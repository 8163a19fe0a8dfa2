(** * Specification for the scopes *)
From Verif Require Import M_Base M_Codec M_Cal M_Time M_Scope.
Open Scope Z_scope.

(** Code that changes the wrap width (the factories) only inside scopes. *)
Fixpoint width_scoped (p : prog) : Prop :=
  match p with
  | PSetWidth _ => False
  | PSeq p q | PTry p q | PChoice p q => width_scoped p /\ width_scoped q
  | PLoop p | PCall p | PDet _ _ p => width_scoped p
  | _ => True
  end.
Fixpoint data_scoped (p : prog) : Prop :=
  match p with
  | PSetUid _ | PSetStamp _ => False
  | PSeq p q | PTry p q | PChoice p q => data_scoped p /\ data_scoped q
  | PLoop p | PCall p | PWrap _ p => data_scoped p
  | _ => True
  end.

(** The width asked for: none, zero and negative numbers mean lines of any length that
    Python can represent. *)
Inductive asked : warg -> Z -> Prop :=
  | asked_none : asked WNone (2 ^ 63 - 1)
  | asked_off w : w <= 0 -> asked (WInt w) (2 ^ 63 - 1)
  | asked_width w : 0 < w -> asked (WInt w) w.

(** The events of one thread; a thread enters and leaves its scopes properly. *)
Definition of_thread (t : bool) (tr : trace) : list event :=
  map snd (filter (fun te => Bool.eqb (fst te) t) tr).
Inductive balanced : list event -> Prop :=
  | bal_nil : balanced []
  | bal_scope w l l' : balanced l -> balanced l' -> balanced (Enter w :: l ++ Exit :: l').
(** Scopes of both threads never overlap partially: taken together they are nested. *)
Inductive nested : trace -> Prop :=
  | nest_nil : nested []
  | nest_scope t w l l' : nested l -> nested l' -> nested ((t, Enter w) :: l ++ (t, Exit) :: l').
