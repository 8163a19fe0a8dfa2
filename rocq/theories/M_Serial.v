(** * Model of writing a calendar as text (src/ics/component.py:66-69, src/ics/icalendar.py:153-166) *)
From Verif Require Import M_Base M_Line M_Codec M_Cal M_Time M_Span M_Dt M_Fold M_Tree M_Comp M_Open.
Open Scope N_scope.

(** Line boundaries of [str.splitlines] (Python library reference, [str.splitlines]);
    CR followed by LF counts once. *)
Definition boundary (c : char) : bool :=
  existsb (N.eqb c) [10; 13; 11; 12; 28; 29; 30; 133; 8232; 8233].
(** [s.splitlines(keepends=True)]; [cur] is the line begun. *)
Fixpoint splitlines_keep (cur : str) (s : str) : list str :=
  match s with
  | [] => match cur with [] => [] | _ => [cur] end
  | c :: s' =>
      if (c =? c_cr) then
        match s' with
        | d :: s'' => if d =? c_lf then (cur ++ [c; d]) :: splitlines_keep [] s''
                      else (cur ++ [c]) :: splitlines_keep [] s'
        | [] => [cur ++ [c]]
        end
      else if boundary c then (cur ++ [c]) :: splitlines_keep [] s'
      else splitlines_keep (cur ++ [c]) s'
  end.

Section Serial.
Variable X : ext.
(** Wrapping as in M_Fold; [Calendar.serialize] uses the default width 75. *)
Variable hy : bool.
Variable resplit : str -> list str.
Variable W : option nat.
(** [Component.serialize] (component.py:66-69): the container is written without a final
    line break. *)
Definition calendar_serialize (c : calendar) : res str :=
  do it <- dump_calendar X c; item_serialize hy resplit W it false.
Definition entry_serialize (x : entry) : res str :=
  do it <- M_Comp.to_container X x; item_serialize hy resplit W it false.
(** [Calendar.__iter__] (icalendar.py:153-166) *)
Definition calendar_iter (c : calendar) : res (list str) := rmap (splitlines_keep []) (calendar_serialize c).
(** [Calendar(text)]: opening as in M_Open, with the component converters as [populate]. *)
Definition read_calendar (i : imports) : res calendar :=
  Calendar (load_calendar X) (new_comp X entry CCalendar) i.
Definition read_calendars (txt : str) : res (list calendar) :=
  parse_multiple (load_calendar X) (new_comp X entry CCalendar) txt.
End Serial.
