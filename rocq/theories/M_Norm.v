(** * Normalising entries and calendars (src/ics/timespan.py:77-132, icalendar.py:132-145) *)
From Verif Require Import M_Base M_Codec M_Cal M_Time M_Span M_Cmp M_Event.
Open Scope Z_scope.

Section Norm.
Variable E : env.
Variable utc : tz.

(** [normalize(entry)]: an entry has [floating], [replace_timezone] and
    [convert_timezone]; it is changed in place and returned. *)
Definition normalize_obj (N : normalization) : M unit :=
  let! t := get_span in
  match nm_action N (is_floating t) with
  | AIgnore => mret tt
  | AReplace => replace_timezone E utc (nm_repl N)
  | AConvert => convert_timezone E utc (nm_repl N)
  end.
(** One entry of the list comprehensions of [Calendar.normalize]. *)
Definition normalize_entry (N : normalization) : M unit :=
  let! t := get_span in
  if is_all_day t then mret tt else normalize_obj N.
(** The entries of a calendar after normalising them one by one until an exception
    occurs; the entries are changed in place. *)
Fixpoint normalize_entries (N : normalization) (l : list obj) : list obj * res unit :=
  match l with
  | [] => ([], Ok tt)
  | o :: l' =>
      match normalize_entry N o with
      | (o', Ok _) => let '(r, x) := normalize_entries N l' in (o' :: r, x)
      | (o', Err e) => (o' :: l', Err e)
      end
  end.
(** [Calendar.normalize] (icalendar.py:132-145): events, then todos. The reassignment of
    the two attributes with equal lists is not modelled. *)
Definition normalize_calendar (N : normalization) (events todos : list obj) : (list obj * list obj) * res unit :=
  match normalize_entries N events with
  | (ev, Ok _) => let '(td, x) := normalize_entries N todos in ((ev, td), x)
  | (ev, Err e) => ((ev, todos), Err e)
  end.
End Norm.
