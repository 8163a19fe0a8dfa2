(** * Specification: the order of what is written *)
From Verif Require Import M_Base M_Line M_Cal M_Time M_Span M_Dt M_Tree M_Comp.

Inductive slot :=
  | Span                          (* the time span: DTSTART, then DTEND, DUE or DURATION *)
  | Action                        (* the ACTION of an alarm *)
  | One (name attr : list N)      (* an attribute with one value *)
  | Many (name attr : list N)     (* an attribute with a list of values *)
  | Subs (attr : list N).         (* a list of components *)
Definition entry_slots : list slot := [
  Span; One (py "SUMMARY") (py "summary"); One (py "UID") (py "uid"); One (py "DESCRIPTION") (py "description");
  One (py "LOCATION") (py "location"); One (py "URL") (py "url"); One (py "STATUS") (py "status");
  One (py "CREATED") (py "created"); One (py "LAST-MODIFIED") (py "last_modified"); One (py "DTSTAMP") (py "dtstamp");
  Subs (py "alarms"); Many (py "ATTACH") (py "attach") ].
Definition alarm_slots : list slot := [
  Action; One (py "TRIGGER") (py "trigger"); One (py "REPEAT") (py "repeat"); One (py "DURATION") (py "duration") ].
Definition slots (c : cls) : list slot :=
  match c with
  | CEvent => entry_slots ++ [
      One (py "CLASSIFICATION") (py "classification"); One (py "TRANSPARENT") (py "transparent");
      One (py "ORGANIZER") (py "organizer"); One (py "GEO") (py "geo");
      Many (py "ATTENDEE") (py "attendees"); Many (py "CATEGORIES") (py "categories") ]
  | CTodo => entry_slots ++ [
      One (py "PERCENT") (py "percent"); One (py "PRIORITY") (py "priority"); One (py "COMPLETED") (py "completed") ]
  | CAudio => alarm_slots ++ [One (py "ATTACH") (py "attach")]
  | CCustom => alarm_slots ++ [One (py "ACTION") (py "_action")]
  | CDisplay => alarm_slots ++ [One (py "DESCRIPTION") (py "description")]
  | CEmail => alarm_slots ++ [
      One (py "SUMMARY") (py "summary"); One (py "DESCRIPTION") (py "description");
      Many (py "ATTENDEE") (py "attendees"); Many (py "ATTACH") (py "attach") ]
  | CNone => alarm_slots
  | CCalendar => []
  end.
Definition calendar_head : list slot := [
  One (py "VERSION") (py "version"); One (py "PRODID") (py "prodid");
  One (py "SCALE") (py "scale"); One (py "METHOD") (py "method") ].
Definition calendar_tail : list slot := [Subs (py "events"); Subs (py "todos")].

Definition line_of (n : list N) (it : item) : Prop := exists l, it = ILine l /\ cl_name l = n.
Definition is_line (it : item) : Prop := exists l, it = ILine l.
Definition is_component (it : item) : Prop := exists n l, it = ICont n l.
Section Order.
Context {M : Type}.
Variable name_of : M -> list N.
(** What one slot contributes. *)
Definition block (x : comp M) (s : slot) (its : list item) : Prop :=
  match s with
  | Span =>
      exists t a b, get_attr (py "timespan") x = AOne (VSpan t) /\ its = a ++ b /\
        match ts_begin t with None => a = [] | Some _ => exists l, a = [ILine l] /\ cl_name l = py "DTSTART" end /\
        (b = [] \/ exists l, b = [ILine l] /\ In (cl_name l) [py "DTEND"; py "DUE"; py "DURATION"])
  | Action => exists l, its = [ILine l] /\ cl_name l = py "ACTION"
  | One n a =>
      match get_attr a x with
      | ANone => its = []
      | _ => exists l, its = [ILine l] /\ cl_name l = n
      end
  | Many n a =>
      exists vs, get_attr a x = AMany vs /\ Forall (line_of n) its /\
        (length its <= length vs)%nat /\ (vs <> [] -> its <> [])
  | Subs a => Forall2 (fun m it => exists sub, it = ICont (name_of m) sub) (get_mem a x) its
  end.
(** Everything is written slot by slot. *)
Inductive in_order (x : comp M) : list slot -> list item -> Prop :=
  | IO_nil : in_order x [] []
  | IO_cons s ss b its : block x s b -> in_order x ss its -> in_order x (s :: ss) (b ++ its).
End Order.
(** Component names are written in capital letters. *)
Definition written_name {M} (m : comp M) : list N := upper (c_name m).
Definition nobody (m : Empty_set) : list N := match m with end.

(** RFC 5545, 3.6: in a component, all properties stand before all components. *)
Definition properties_first (its : list item) : Prop :=
  exists a b, its = a ++ b /\ Forall is_line a /\ Forall is_component b.
(** What comes after the alarms of an event. *)
Definition after_alarms (x : entry) : Prop :=
  (exists a, In a [py "classification"; py "transparent"; py "organizer"; py "geo"] /\ get_attr a x <> ANone) \/
  (exists a, In a [py "attach"; py "attendees"; py "categories"] /\ get_attr a x <> AMany []).

(** Properties of RFC 5545 and the names written for the attributes: class, attribute,
    RFC 5545, written *)
Definition RENAMED : list (cls * list N * list N * list N) := [
  (CEvent, py "classification", py "CLASS", py "CLASSIFICATION");
  (CEvent, py "transparent", py "TRANSP", py "TRANSPARENT");
  (CTodo, py "percent", py "PERCENT-COMPLETE", py "PERCENT");
  (CCalendar, py "scale", py "CALSCALE", py "SCALE") ].
