(** * Property C58: the order and the names of what is written *)
From Verif Require Import M_Base M_Line M_Dt M_Tree M_Comp S_Toy S_Order P_Order P_OrderEx.

(** C58. Alarms, events and todos are written attribute by attribute in a fixed order, then
    what was not understood. *)
Theorem C58_alarm : forall X (x : alarm) zs it zs', c_cls x <> CCalendar -> dump_alarm X x zs = Ok (it, zs') ->
  exists its, it = ICont (written_name x) (its ++ c_extra x) /\ in_order nobody x (slots (c_cls x)) its.
Proof. exact alarm_order. Qed.
Print Assumptions C58_alarm.
Theorem C58_entry : forall X (x : entry) zs it zs', c_cls x <> CCalendar -> dump_entry X x zs = Ok (it, zs') ->
  exists its, it = ICont (written_name x) (its ++ c_extra x) /\ in_order written_name x (slots (c_cls x)) its.
Proof. exact entry_order. Qed.
Print Assumptions C58_entry.
(** C58. Calendars: VERSION, PRODID, SCALE, METHOD, the time zones, the events, the todos,
    and what was not understood. *)
Theorem C58_calendar : forall X (x : calendar) it, dump_calendar X x = Ok it ->
  exists head (zs : zones) tzs tail, it = ICont (written_name x) (head ++ tzs ++ tail ++ c_extra x) /\
    in_order written_name x calendar_head head /\ Forall2 (fun z it => x_tz_dump X (snd z) = Ok it) zs tzs /\
    in_order written_name x calendar_tail tail.
Proof. exact calendar_order. Qed.
Print Assumptions C58_calendar.
Theorem C58_calendar_begins : forall X (x : calendar) n its, dump_calendar X x = Ok (ICont n its) ->
  get_attr (py "version") x <> ANone -> get_attr (py "prodid") x <> ANone ->
  exists v p rest, its = ILine v :: ILine p :: rest /\ cl_name v = py "VERSION" /\ cl_name p = py "PRODID".
Proof. exact calendar_begins. Qed.
Print Assumptions C58_calendar_begins.
Example C58_event_example : exists x zs1 n its zs2, load_entry toy CEvent (py "VEVENT") C58_items [] = Ok (x, zs1) /\ c_cls x = CEvent /\
  dump_entry toy x zs1 = Ok (ICont n its, zs2) /\ names_of its =
    [py "DTSTART"; py "DTEND"; py "SUMMARY"; py "UID"; py "DTSTAMP"; py "VALARM"; py "ATTENDEE"; py "CATEGORIES"; py "X-FOO"; py "CLASS"].
Proof. exact event_example. Qed.
Example C58_calendar_example : exists x n its, load_calendar toy (py "VCALENDAR") C58_calendar_items = Ok x /\ dump_calendar toy x = Ok (ICont n its) /\
  get_attr (py "scale") x = ANone /\ get_attr (py "version") x <> ANone /\ get_attr (py "prodid") x <> ANone /\ get_mem (py "events") x <> [] /\
  names_of its = [py "VERSION"; py "PRODID"; py "VTIMEZONE"; py "VEVENT"; py "X-WR-CALNAME"; py "CALSCALE"].
Proof. exact calendar_example. Qed.

(** C58 in the order of RFC 5545, properties before components, is false: an event's
    alarms stand before its attachments, organizer, attendees and categories, and the
    properties of a calendar that were not understood after its events. *)
Theorem C58_event_properties_first_refuted : ~ (forall X (x : entry) zs n its zs', c_cls x = CEvent -> c_extra x = [] ->
  dump_entry X x zs = Ok (ICont n its, zs') -> properties_first its).
Proof. exact event_first_refuted. Qed.
Print Assumptions C58_event_properties_first_refuted.
Theorem C58_calendar_properties_first_refuted : ~ (forall X n its x n' its', load_calendar X n its = Ok x -> properties_first its ->
  dump_calendar X x = Ok (ICont n' its') -> properties_first its').
Proof. exact calendar_first_refuted. Qed.
Print Assumptions C58_calendar_properties_first_refuted.
(** C58. Exactly when they do come first. *)
Theorem C58_event_properties_first : forall X (x : entry) zs n its zs', c_cls x = CEvent -> dump_entry X x zs = Ok (ICont n its, zs') ->
  (properties_first its <->
   get_mem (py "alarms") x = [] /\ properties_first (c_extra x) \/
   get_mem (py "alarms") x <> [] /\ ~ after_alarms x /\ Forall is_component (c_extra x)).
Proof. exact event_first. Qed.
Print Assumptions C58_event_properties_first.
Theorem C58_calendar_properties_first : forall X (x : calendar) n its, (forall z it, x_tz_dump X z = Ok it -> is_component it) ->
  get_mem (py "events") x <> [] \/ get_mem (py "todos") x <> [] -> dump_calendar X x = Ok (ICont n its) ->
  (properties_first its <-> Forall is_component (c_extra x)).
Proof. exact calendar_first. Qed.
Print Assumptions C58_calendar_properties_first.
Example C58_zones_example : forall z it, x_tz_dump toy z = Ok it -> is_component it.
Proof. exact toy_zones. Qed.

(** C58 with the names of RFC 5545 is false for four attributes: the classification of an
    event is not read from CLASS. *)
Theorem C58_rfc_names_refuted : ~ (forall X n its zs x zs' l, load_entry X CEvent n its zs = Ok (x, zs') -> In (ILine l) its -> cl_name l = py "CLASS" ->
  get_attr (py "classification") x = AOne (VStr (cl_value l))).
Proof. exact rfc_names_refuted. Qed.
Print Assumptions C58_rfc_names_refuted.
(** C58. They are written under their own names and never under those of RFC 5545. *)
Theorem C58_renamed_written : forall X c a rfc w (x : entry) zs n its zs', In (c, a, rfc, w) RENAMED -> c <> CCalendar -> c_cls x = c ->
  get_attr a x <> ANone -> dump_entry X x zs = Ok (ICont n its, zs') ->
  (exists l, In (ILine l) its /\ cl_name l = w) /\ (forall l, In (ILine l) its -> cl_name l = rfc -> In (ILine l) (c_extra x)).
Proof. exact renamed_entry. Qed.
Print Assumptions C58_renamed_written.
Theorem C58_scale_written : forall X (x : calendar) n its, (forall z it, x_tz_dump X z = Ok it -> is_component it) ->
  get_attr (py "scale") x <> ANone -> dump_calendar X x = Ok (ICont n its) ->
  (exists l, In (ILine l) its /\ cl_name l = py "SCALE") /\ (forall l, In (ILine l) its -> cl_name l = py "CALSCALE" -> In (ILine l) (c_extra x)).
Proof. exact renamed_calendar. Qed.
Print Assumptions C58_scale_written.
Example C58_todo_example : exists x n its zs, c_cls x = CTodo /\ get_attr (py "percent") x <> ANone /\ dump_entry toy x [] = Ok (ICont n its, zs) /\
  In (py "PERCENT") (names_of its) /\ ~ In (py "PERCENT-COMPLETE") (names_of its).
Proof. exact todo_example. Qed.
(** C58. The RFC 5545 lines do not set these attributes; they are kept as not understood. *)
Theorem C58_renamed_read : forall X c a rfc w n its zs x zs', In (c, a, rfc, w) RENAMED -> c <> CCalendar ->
  load_entry X c n its zs = Ok (x, zs') -> (forall l, In (ILine l) its -> cl_name l <> w) ->
  get_attr a x = ANone /\ forall l, In (ILine l) its -> cl_name l = rfc -> In (ILine l) (c_extra x).
Proof. exact renamed_read. Qed.
Print Assumptions C58_renamed_read.
Theorem C58_scale_read : forall X n its x, load_calendar X n its = Ok x -> (forall l, In (ILine l) its -> cl_name l <> py "SCALE") ->
  get_attr (py "scale") x = ANone /\ forall l, In (ILine l) its -> cl_name l = py "CALSCALE" -> In (ILine l) (c_extra x).
Proof. exact renamed_calendar_read. Qed.
Print Assumptions C58_scale_read.
