(** * Specification of conversions between UTC and a zone: what is in force at an instant *)
From Verif Require Import M_Base M_Codec M_Cal M_Zone.
Open Scope Z_scope.

Section Onsets.
Variable onset : obs -> Z -> Prop.

(** The instant (in UTC) of an onset, which is written on the clock shown before. *)
Definition instant (c : obs) (o : Z) : Z := o - ob_from c.
Definition begun (c : obs) (u o : Z) : Prop := onset c o /\ instant c o <= u.
(** The observance that began last; before all onsets the first one that is not summer
    time, or the first one. *)
Inductive at_instant (l : list obs) (u : Z) : obs -> Prop :=
| ai_begun c o : In c l -> begun c u o ->
    (forall c' o', In c' l -> begun c' u o' -> instant c' o' <= instant c o) -> at_instant l u c
| ai_standard pre c post : l = pre ++ c :: post -> (forall c' o', In c' l -> ~ begun c' u o') ->
    ob_dst c = false -> (forall c', In c' pre -> ob_dst c' = true) -> at_instant l u c
| ai_first c post : l = c :: post -> (forall c' o', In c' l -> ~ begun c' u o') ->
    (forall c', In c' l -> ob_dst c' = true) -> at_instant l u c.

(** One standard offset [s]: summer time is ahead of it and starts from it, standard
    time is it and starts from it or from a clock ahead of it. *)
Definition one_standard (s : Z) (l : list obs) : Prop := forall c, In c l ->
  (if ob_dst c then ob_from c = s /\ s <= ob_to c else ob_to c = s /\ s <= ob_from c) /\
  - US_DAY < ob_from c < US_DAY /\ - US_DAY < ob_to c < US_DAY.
(** Onsets are written in the order in which they happen. *)
Definition in_order (l : list obs) : Prop := forall c c' o o', In c l -> In c' l -> onset c o -> onset c' o' ->
  (o < o' -> instant c o < instant c' o') /\ (o = o' -> c = c').
(** The clock shows no reading of a later onset before that onset. *)
Definition ahead (l : list obs) : Prop := forall u c c' o', at_instant l u c -> In c' l -> onset c' o' ->
  u < instant c' o' -> u + ob_to c < o'.
(** The clock was set back and shows readings it has shown before. *)
Definition repeats (l : list obs) (u : Z) : Prop := exists c o, In c l /\ onset c o /\ instant c o <= u < o - ob_to c.
End Onsets.

(** All datetimes used exist. *)
Definition room (u : Z) : Prop := wall_ok (u - 4 * US_DAY) = true /\ wall_ok (u + 4 * US_DAY) = true.
