(** * Specification of VTIMEZONE lookups *)
From Verif Require Import M_Base M_Codec M_Cal M_Zone.
Open Scope Z_scope.

Section Onsets.
(** The onsets of an observance, an arbitrary set. *)
Variable onset : obs -> Z -> Prop.

Definition latest (c : obs) (t o : Z) : Prop := onset c o /\ o <= t /\ forall o', onset c o' -> o' <= t -> o' <= o.
(** [rrule.before] is right. *)
Definition rule_ok (c : obs) : Prop := forall t,
  match ob_before c t with
  | Some o => latest c t o
  | None => forall o, onset c o -> ~ o <= t
  end.
(** Where an observance sets the clock back, the second reading ([fold]) of a time is
    later by the amount set back, on a clock that is not set back. *)
Definition time_for (c : obs) (w : Z) (fold : bool) : Z :=
  if fold then if ob_to c <? ob_from c then w + (ob_from c - ob_to c) else w else w.
Definition started (c : obs) (w : Z) (fold : bool) : Prop := exists o, onset c o /\ o <= time_for c w fold.
(** The observance in force. *)
Inductive in_force (l : list obs) (w : Z) (fold : bool) : obs -> Prop :=
| if_started pre c post o : l = pre ++ c :: post -> latest c (time_for c w fold) o ->
    (forall c' o', In c' pre -> latest c' (time_for c' w fold) o' -> o' < o) ->
    (forall c' o', In c' post -> latest c' (time_for c' w fold) o' -> o' <= o) ->
    in_force l w fold c
| if_standard pre c post : l = pre ++ c :: post -> (forall c', In c' l -> ~ started c' w fold) ->
    ob_dst c = false -> (forall c', In c' pre -> ob_dst c' = true) -> in_force l w fold c
| if_first c post : l = c :: post -> (forall c', In c' l -> ~ started c' w fold) ->
    (forall c', In c' l -> ob_dst c' = true) -> in_force l w fold c.
End Onsets.

(** The answers about an observance. *)
Definition told (q : question) (c : obs) (a : answer) : Prop :=
  match q, a with
  | QOffset, AOffset x => x = ob_to c
  | QDst, ADst x => x = if ob_dst c then ob_to c - ob_from c else 0
  | QName, AName s => s = ob_name c
  | _, _ => False
  end.
(** Both readings of a time are found alike: the time is not repeated. *)
Definition fold_free (l : list obs) (w : Z) : Prop :=
  forall c, In c l -> ob_to c < ob_from c -> forall t, w < t <= w + (ob_from c - ob_to c) -> ob_before c t = ob_before c w.
