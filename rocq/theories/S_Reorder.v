(** * Specification: the same items in another order *)
From Verif Require Import M_Base M_Line M_Tree M_Comp S_Comp.

(** Two items whose order does not matter: they have different names, they are not both
    unknown to the class, and they are not the two names for the end of a time span. *)
Definition apart (c : cls) (a b : item) : Prop :=
  item_name a <> item_name b /\ (known c a \/ known c b) /\
  ~ (In (item_name a) [py "DTEND"; py "DUE"] /\ In (item_name b) [py "DTEND"; py "DUE"]).

(** Exchanging such neighbours any number of times, and changing the items by [R]. *)
Inductive reorder (c : cls) (R : item -> item -> Prop) : list item -> list item -> Prop :=
  | RO_nil : reorder c R [] []
  | RO_item a b l m : R a b -> reorder c R l m -> reorder c R (a :: l) (b :: m)
  | RO_swap a b l : apart c a b -> reorder c R (a :: b :: l) (b :: a :: l)
  | RO_trans l m n : reorder c R l m -> reorder c R m n -> reorder c R l n.

(** Inside the sub-components as well. *)
Definition alarm_order (a b : list item) : Prop := exists c, alarm_class a c /\ reorder c eq a b.
Definition in_entry (a b : item) : Prop :=
  a = b \/ exists l m, a = ICont (py "VALARM") l /\ b = ICont (py "VALARM") m /\ alarm_order l m.
Definition entry_order (c : cls) : list item -> list item -> Prop := reorder c in_entry.
Definition in_calendar (a b : item) : Prop :=
  a = b \/
  (exists l m, a = ICont (py "VEVENT") l /\ b = ICont (py "VEVENT") m /\ entry_order CEvent l m) \/
  (exists l m, a = ICont (py "VTODO") l /\ b = ICont (py "VTODO") m /\ entry_order CTodo l m).
Definition calendar_order : list item -> list item -> Prop := reorder CCalendar in_calendar.

(** Equality of components as Python has it: dictionaries are compared by key. *)
Record same {M} (RM : M -> M -> Prop) (x y : comp M) : Prop := mk_same {
  sa_cls : c_cls x = c_cls y;
  sa_name : c_name x = c_name y;
  sa_extra : c_extra x = c_extra y;
  sa_attrs : forall k, dict_get k (c_attrs x) = dict_get k (c_attrs y);
  sa_mem : forall k, match dict_get k (c_mem x), dict_get k (c_mem y) with
                     | Some l, Some m => Forall2 RM l m
                     | None, None => True
                     | _, _ => False
                     end;
  sa_params : forall k, dict_get k (c_params x) = dict_get k (c_params y)
}.
Definition same_alarm : alarm -> alarm -> Prop := same eq.
Definition same_entry : entry -> entry -> Prop := same same_alarm.
Definition same_calendar : calendar -> calendar -> Prop := same same_entry.

(** Two readings succeed together, with related results, or fail together. *)
Definition agree {A} (R : A -> A -> Prop) (a b : res A) : Prop :=
  match a, b with Ok x, Ok y => R x y | Err _, Err _ => True | _, _ => False end.

(** What may not be rearranged: items of one name among each other, unknown items among
    each other, and the two names for the end of a time span. Everything else may. *)
Definition named (n : list N) (it : item) : bool := str_eqb (item_name it) n.
Definition arranged (c : cls) (l m : list item) : Prop :=
  (forall n, filter (named n) l = filter (named n) m) /\
  (forall us, Unknown c l us -> Unknown c m us) /\
  filter (fun it => named (py "DTEND") it || named (py "DUE") it) l = filter (fun it => named (py "DTEND") it || named (py "DUE") it) m.
