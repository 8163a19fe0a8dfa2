(** * Specification of timelines *)
From Verif Require Import M_Base M_Codec M_Cal M_Time M_Span S_Span M_Event M_Cmp S_Cmp M_Timeline.
Open Scope Z_scope.

(** A list is picked from another: the members with the property, in order, each as
    often as it occurs. *)
Inductive picked {A} (Q : A -> Prop) : list A -> list A -> Prop :=
| pk_nil : picked Q [] []
| pk_keep a r l : Q a -> picked Q r l -> picked Q (a :: r) (a :: l)
| pk_drop a r l : ~ Q a -> picked Q r l -> picked Q (a :: r) l.

Definition has_begin (x : entry) : bool := match ts_begin (en_span x) with Some _ => true | None => false end.
(** An event's span, as the constructor accepts it. *)
Definition event_ok (E : env) (x : entry) : Prop :=
  ts_kind (en_span x) = KEvent /\ validate E (en_span x) = Ok tt.
(** Not later than: by begin, then by end. *)
Definition not_after (E : env) (P : datetime -> Prop) (s t : timespan) : Prop :=
  forall k l, sort_key E P s k -> sort_key E P t l -> ~ key_lt l k.
(** In [P], clocks also run evenly: adding a duration moves the instant as far. *)
Definition even (E : env) (P : datetime -> Prop) : Prop :=
  forall a d a', P a -> P a' -> dt_add a d = Ok a' -> moment E a' = moment E a + d.

(** The calendar day of [d], in the zone of [d] (local time if it has none). *)
Definition day_start (d : datetime) : datetime := mk_dt (wall d / US_DAY * US_DAY) false (dtz d).
Definition next_day (d : datetime) : datetime := mk_dt ((wall d / US_DAY + 1) * US_DAY) false (dtz d).
(** The end of the queried day: the next midnight after one more second. *)
Definition day_end_wall (d : datetime) : Z :=
  if wall d mod US_DAY <=? US_DAY - US_SEC then (wall d / US_DAY + 1) * US_DAY else (wall d / US_DAY + 2) * US_DAY.
(** Two spans of instants share one; a span without length is its instant. *)
Definition shares (B N D0 D1 : Z) : Prop :=
  (exists x, inside x B N /\ inside x D0 D1) \/ B = N /\ inside B D0 D1.
Definition touches (B N D0 D1 : Z) : Prop := B < N /\ (N = D0 \/ B = D1).
(** All spans of a list of items are valid and have begin and end. *)
Definition timed (E : env) (P : datetime -> Prop) (r : list item) : Prop :=
  forall p, In p r -> validate E (fst p) = Ok tt /\ exists B N, interval E P (fst p) B N.
(** For examples: after the clock change of [env_ex]. *)
Definition ex_late (d : datetime) : Prop := dtz d <> Some TzLocal /\ ref + 3 * hour <= wall d.
