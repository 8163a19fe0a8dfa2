(** * Predicates and comparisons between entries, spans and instants

    src/ics/event.py:206-248, src/ics/timespan.py:478-578 (the class of the other
    operand), src/ics/types.py:101-109. Entries and spans are those of M_Cmp. *)
From Verif Require Import M_Base M_Codec M_Cal M_Time M_Span M_Cmp.
Open Scope Z_scope.

(** What may stand on either side: an Event or Todo, a Timespan, a datetime or anything else. *)
Inductive cobj := CEntry (x : entry) | CSpan (t : timespan) | CInstant (d : datetime) | COther.
Inductive pred := PStartsWithin | PEndsWithin | PIntersects | PIncludes | PIsIncludedIn.

Section Obj.
Variable E : env.

(** [get_timespan_if_calendar_entry] (types.py:101-109) *)
Definition span_if_entry (o : cobj) : cobj := match o with CEntry x => CSpan (en_span x) | _ => o end.

(** The predicates of Timespan (timespan.py:478-554) on any argument: objects without
    [timespan_tuple] fail after the tuple of [s] has been computed. *)
Definition span_pred (p : pred) (s : timespan) (o : cobj) : res bool :=
  match o with
  | CSpan t =>
      match p with
      | PStartsWithin => starts_within E s t
      | PEndsWithin => ends_within E s t
      | PIntersects => intersects E s t
      | PIncludes => includes E s t
      | PIsIncludedIn => is_included_in E s t
      end
  | CInstant d =>
      match p with
      | PIncludes => includes_dt E s d
      | _ => do _ <- span_tuple E None s; Err AttributeError
      end
  | CEntry _ | COther => do _ <- span_tuple E None s; Err AttributeError
  end.
(** [a.starts_within(b)] etc.: entries have them too (event.py:235-248). *)
Definition call_pred (p : pred) (a b : cobj) : res bool :=
  match a with
  | CEntry x => span_pred p (en_span x) (span_if_entry b)
  | CSpan s => span_pred p s b
  | CInstant _ | COther => Err AttributeError
  end.
(** [b in a]: [__contains__] is there for spans only (timespan.py:544). *)
Definition contains_op (a b : cobj) : res bool :=
  match a with
  | CSpan s => span_pred PIncludes s b
  | _ => Err TypeError
  end.
(** [a < b] etc. (event.py:206-233, timespan.py:556-578): NotImplemented from both sides
    is a TypeError. [COther] is taken to know nothing of the other classes. *)
Definition compare_op (o : cmpop) (a b : cobj) : res bool :=
  match a, b with
  | CEntry x, CEntry y => entry_op E o x y
  | CSpan s, CSpan t => span_op E o s t
  | CInstant c, CInstant d => dt_op E o c d
  | _, _ => Err TypeError
  end.
End Obj.
