(** * Model of opening calendars from text

    src/ics/icalendar.py:51-117 (Calendar.__init__, parse_multiple), src/ics/utils.py:192-206
    (one), src/ics/contentline/__init__.py:18-23. Reading one container into the new
    calendar ([self.populate]) is a parameter [populate] here; M_Comp models it. *)
From Verif Require Import M_Base M_Line M_Tree.

Section Open.
Variable C : Type.
(** [self.populate(container)] on a calendar with default attributes; [fresh] is the
    calendar without [imports]. *)
Variable populate : str -> list item -> res C.
Variable fresh : C.

(** The [imports] argument. A content line is iterated as a sequence of lines, which
    evaluates [line.params[0]] (container.py:194-195). *)
Inductive imports :=
  | FromNone
  | FromContainer (name : str) (items : list item)
  | FromStr (txt : str)
  | FromLines (lines : list str)
  | FromContentLine (l : content_line).

(** icalendar.py:83-104 on the generator of containers. *)
Definition import_stream (g : gen item) : res C :=
  match g with
  | ([], None) => Err ValueError
  | ([], Some e) => Err e
  | (ILine _ :: _, _) => Err ValueError
  | (ICont n its :: rest, e) =>
      do c <- populate n its;
      match rest, e with
      | _ :: _, _ => Err ValueError
      | [], Some e => Err e
      | [], None => Ok c
      end
  end.

(** [Calendar(imports)] (icalendar.py:75-104) *)
Definition Calendar (i : imports) : res C :=
  match i with
  | FromNone => Ok fresh
  | FromContainer n its => populate n its
  | FromStr txt => import_stream (string_to_containers txt)
  | FromLines ls => import_stream (lines_to_containers ls)
  | FromContentLine _ => import_stream (gfail KeyError)
  end.

(** [parse_multiple] (icalendar.py:110-117): a list comprehension over the generator. *)
Definition imports_of (it : item) : imports :=
  match it with ILine l => FromContentLine l | ICont n its => FromContainer n its end.
Fixpoint multiple (its : list item) (e : option exn) : res (list C) :=
  match its with
  | [] => match e with Some x => Err x | None => Ok [] end
  | it :: its' => do c <- Calendar (imports_of it); do cs <- multiple its' e; Ok (c :: cs)
  end.
Definition parse_multiple (txt : str) : res (list C) :=
  multiple (fst (string_to_containers txt)) (snd (string_to_containers txt)).
End Open.

(** [one] (utils.py:192-206) on a generator. *)
Definition one {A} (g : gen A) : res A :=
  match g with
  | ([], None) => Err ValueError
  | ([], Some e) => Err e
  | ([a], None) => Ok a
  | ([_], Some e) => Err e
  | (_ :: _ :: _, _) => Err ValueError
  end.

(** contentline/__init__.py:18-23 *)
Definition string_to_container (txt : str) : res item := one (string_to_containers txt).
Definition lines_to_container (lines : list str) : res item := one (lines_to_containers lines).
Arguments Calendar {C}. Arguments import_stream {C}. Arguments parse_multiple {C}. Arguments multiple {C}.
