(** * Specification: which items a component knows, and how unknown ones are kept *)
From Verif Require Import M_Base M_Line M_Tree M_Comp.

(** Names of the lines and sub-components each class understands. *)
Definition entry_names : list (list N) := [py "DTSTART"; py "DTEND"; py "DUE"; py "DURATION"; py "SUMMARY"; py "UID"; py "DESCRIPTION"; py "LOCATION"; py "URL"; py "STATUS"; py "CREATED"; py "LAST-MODIFIED"; py "DTSTAMP"; py "VALARM"; py "ATTACH"].
Definition alarm_names : list (list N) := [py "TRIGGER"; py "REPEAT"; py "DURATION"; py "ACTION"].
Definition known_names (c : cls) : list (list N) :=
  match c with
  | CEvent => entry_names ++ [py "CLASSIFICATION"; py "TRANSPARENT"; py "ORGANIZER"; py "GEO"; py "ATTENDEE"; py "CATEGORIES"]
  | CTodo => entry_names ++ [py "PERCENT"; py "PRIORITY"; py "COMPLETED"]
  | CCalendar => [py "VERSION"; py "PRODID"; py "SCALE"; py "METHOD"; py "VEVENT"; py "VTODO"; py "VTIMEZONE"]
  | CAudio => alarm_names ++ [py "ATTACH"]
  | CCustom | CNone => alarm_names
  | CDisplay => alarm_names ++ [py "DESCRIPTION"]
  | CEmail => alarm_names ++ [py "SUMMARY"; py "DESCRIPTION"; py "ATTENDEE"; py "ATTACH"]
  end.

(** An item is unknown if its name is; VTIMEZONE is known as a sub-component only. *)
Definition known (c : cls) (it : item) : Prop :=
  match it with
  | ICont n _ => In n (known_names c)
  | ILine l => In (cl_name l) (known_names c) /\ ~ (c = CCalendar /\ cl_name l = py "VTIMEZONE")
  end.

(** [Unknown c its us]: [us] are the unknown items of [its], in order. *)
Inductive Unknown (c : cls) : list item -> list item -> Prop :=
  | U_nil : Unknown c [] []
  | U_known it its us : known c it -> Unknown c its us -> Unknown c (it :: its) us
  | U_keep it its us : ~ known c it -> Unknown c its us -> Unknown c (it :: its) (it :: us).

(** The contents of the sub-components of a name, in order. *)
Definition subs (n : list N) (its : list item) : list (list item) :=
  flat_map (fun it => match it with ICont m l => if str_eqb m n then [l] else [] | ILine _ => [] end) its.

(** The alarm class chosen by the text of the ACTION line. *)
Inductive action_class : list N -> cls -> Prop :=
  | AC_display : action_class (py "DISPLAY") CDisplay
  | AC_audio : action_class (py "AUDIO") CAudio
  | AC_none : action_class (py "NONE") CNone
  | AC_email : action_class (py "EMAIL") CEmail
  | AC_custom a : ~ In a ([py "DISPLAY"; py "AUDIO"; py "NONE"; py "EMAIL"]) -> action_class a CCustom.
Definition alarm_class (its : list item) (c : cls) : Prop :=
  exists l, In (ILine l) its /\ cl_name l = py "ACTION" /\ action_class (cl_value l) c.

(** What was read and what is written: the unknown items are kept, in order, after the
    known ones; inside the sub-components as well. *)
Definition kept_flat (c : cls) (R : list item -> list item -> Prop) (its out : list item) : Prop :=
  exists ks us, out = ks ++ us /\ Unknown c its us /\ Forall (known c) ks /\ R its ks.
Definition kept_alarm (its out : list item) : Prop :=
  exists c, alarm_class its c /\ kept_flat c (fun _ _ => True) its out.
Definition kept_entry (c : cls) : list item -> list item -> Prop :=
  kept_flat c (fun its ks => Forall2 kept_alarm (subs (py "VALARM") its) (subs (py "VALARM") ks)).
Definition kept_calendar : list item -> list item -> Prop :=
  kept_flat CCalendar (fun its ks =>
    Forall2 (kept_entry CEvent) (subs (py "VEVENT") its) (subs (py "VEVENT") ks) /\
    Forall2 (kept_entry CTodo) (subs (py "VTODO") its) (subs (py "VTODO") ks)).

(** Time zones are written as VTIMEZONE components. *)
Definition writes_zones (X : ext) : Prop :=
  forall z it, x_tz_dump X z = Ok it -> exists l, it = ICont (py "VTIMEZONE") l.
