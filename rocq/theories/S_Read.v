(** * Specification: what the items of a component mean

    [reads c its x]: the component [x] of class [c] is what the items [its] say. Every
    property is described by itself: its name, the value types it may have, how the text
    of a line denotes a value, and what is done with that value. Nothing here refers to
    the reading loop. *)
From Verif Require Import M_Base M_Line M_Codec M_Cal M_Time M_Span M_Dt M_Tree M_Comp.
From Verif Require Import S_Text S_Codec S_Dt S_Comp S_Multi.
Open Scope N_scope.

(** ** Values *)
Section Read.
Variable X : ext.
(** The time zones defined in the calendar, the first of an identifier counting. *)
Variable zs : zones.

(** A zone by its identifier: one of the calendar, else one of the database. *)
Definition zone_named (id : list N) (z : tz) : Prop :=
  dict_get id zs = Some z \/ dict_get id zs = None /\ find_zone (x_zdb X) id = Ok z.

(** The TZID parameter: at most one value, the empty one counting as none. *)
Definition tzid_is (ps : xp) (t : option (list N)) : Prop :=
  match dict_get (py "TZID") ps with
  | None | Some [] => t = None
  | Some [p] => t = match pval_str p with [] => None | id => Some id end
  | Some _ => False
  end.
(** The text of a date (and time) denotes a datetime: in UTC if marked so, else in the
    zone of TZID, else floating. *)
Definition moment (text : list N -> fields -> Prop) (s : list N) (ps : xp) (d : datetime) : Prop :=
  s <> [] /\ text (unmarked s) (fields_of (wall d)) /\ real_fields (fields_of (wall d)) /\ fold d = false /\
  exists t, tzid_is ps t /\
    (utc_mark s /\ t = None /\ dtz d = Some (z_utc (x_zdb X)) \/
     ~ utc_mark s /\ match t with
                     | None => dtz d = None
                     | Some id => exists z, zone_named id z /\ dtz d = Some z
                     end).

(** [denotes t s ps v rest]: as a value of type [t], the text [s] with the parameters
    [ps] is [v], and the parameters [rest] are left over. *)
Inductive denotes : vconv -> list N -> xp -> val -> xp -> Prop :=
  | DE_text s ps v : TextEsc s v -> denotes Text s ps (VStr v) ps
  | DE_uri s ps u : x_urlparse X s = Ok u -> denotes Uri s ps (VUrl u) ps
  | DE_binary s ps b : b64_reads s b -> denotes Binary s ps (VBytes b) ps
  | DE_datetime s ps d : moment datetime_text s ps d -> denotes Datetime s ps (VDt d) (dict_del (py "TZID") ps)
  | DE_duration s ps secs : Accepted s secs -> (TD_MIN <= secs * 1000000 <= TD_MAX)%Z ->
      denotes Duration s ps (VTd (secs * 1000000)) ps
  | DE_int s ps n : IntText s n -> denotes Int s ps (VInt n) ps
  | DE_bool s ps b w : In w (if b : bool then true_words else false_words) -> same_letters s w -> denotes Bool s ps (VBool b) ps
  | DE_organizer s ps u : x_urlparse X s = Ok u -> denotes Organizer s ps (VPerson ROrganizer (EUrl u) ps) []
  | DE_attendee s ps u : x_urlparse X s = Ok u -> denotes Attendee s ps (VPerson RAttendee (EUrl u) ps) []
  | DE_geo a b ps lat lon : ~ In 59 a -> x_float X a = Ok lat -> x_float X b = Ok lon ->
      denotes Geo (a ++ py ";" ++ b) ps (VGeo lat lon) ps.

(** The value types of a property, with the words VALUE has for them; the first one is
    the default. VALUE has at most one word. *)
Definition types := list (list N * vconv).
Definition typed (ts : types) (ps : xp) (t : vconv) : Prop :=
  match dict_get (py "VALUE") ps with
  | None | Some [] => exists w ts', ts = (w, t) :: ts'
  | Some [p] => In (pval_str p, t) ts
  | Some _ => False
  end.

(** What is stored for a value. *)
Inductive rule := Plain | Status | Utc | Upto (hi : Z).
Definition kept (r : rule) (v w : val) : Prop :=
  match r with
  | Plain => w = v
  | Status => exists s, v = VStr s /\ w = VStr (upper s) /\ In (upper s) [py "TENTATIVE"; py "CONFIRMED"; py "CANCELLED"]
  | Utc => exists d e, v = VDt d /\ w = VDt e /\ dt_astimezone (x_env X) d (Some (x_utc X)) = Ok e
  | Upto hi => exists n, v = VInt n /\ w = v /\ (0 <= n <= hi)%Z
  end.

(** ** Properties *)
Definition TEXT := (py "TEXT", Text).
Definition URI := (py "URI", Uri).
Definition BINARY := (py "BINARY", Binary).
Definition DATE_TIME := (py "DATE-TIME", Datetime).
Definition DURATION := (py "DURATION", Duration).
Definition INTEGER := (py "INTEGER", Int).
Definition BOOLEAN := (py "BOOLEAN", Bool).

(** Attribute, name, types, rule of the properties with one value. *)
Record single := mk_single { g_attr : list N; g_name : list N; g_types : types; g_rule : rule }.
Definition entry_singles : list single := [
  mk_single (py "summary") (py "SUMMARY") [TEXT] Plain;
  mk_single (py "uid") (py "UID") [TEXT] Plain;
  mk_single (py "description") (py "DESCRIPTION") [TEXT] Plain;
  mk_single (py "location") (py "LOCATION") [TEXT] Plain;
  mk_single (py "url") (py "URL") [TEXT; URI] Plain;
  mk_single (py "status") (py "STATUS") [TEXT] Status;
  mk_single (py "created") (py "CREATED") [DATE_TIME] Utc;
  mk_single (py "last_modified") (py "LAST-MODIFIED") [DATE_TIME] Utc;
  mk_single (py "dtstamp") (py "DTSTAMP") [DATE_TIME] Utc].
Definition alarm_singles : list single := [
  mk_single (py "trigger") (py "TRIGGER") [DURATION; DATE_TIME] Plain;
  mk_single (py "repeat") (py "REPEAT") [INTEGER] Plain;
  mk_single (py "duration") (py "DURATION") [DURATION] Plain].
Definition singles (c : cls) : list single :=
  match c with
  | CEvent => entry_singles ++ [
      mk_single (py "classification") (py "CLASSIFICATION") [TEXT] Plain;
      mk_single (py "transparent") (py "TRANSPARENT") [BOOLEAN] Plain;
      mk_single (py "organizer") (py "ORGANIZER") [(py "ORGANIZER", Organizer)] Plain;
      mk_single (py "geo") (py "GEO") [(py "X-GEO", Geo)] Plain]
  | CTodo => entry_singles ++ [
      mk_single (py "percent") (py "PERCENT") [INTEGER] (Upto 100);
      mk_single (py "priority") (py "PRIORITY") [INTEGER] (Upto 9);
      mk_single (py "completed") (py "COMPLETED") [DATE_TIME] Plain]
  | CCalendar => [
      mk_single (py "version") (py "VERSION") [TEXT] Plain;
      mk_single (py "prodid") (py "PRODID") [TEXT] Plain;
      mk_single (py "scale") (py "SCALE") [TEXT] Plain;
      mk_single (py "method") (py "METHOD") [TEXT] Plain]
  | CAudio => alarm_singles ++ [mk_single (py "attach") (py "ATTACH") [URI; BINARY] Plain]
  | CDisplay => alarm_singles ++ [mk_single (py "description") (py "DESCRIPTION") [TEXT] Plain]
  | CEmail => alarm_singles ++ [mk_single (py "summary") (py "SUMMARY") [TEXT] Plain;
      mk_single (py "description") (py "DESCRIPTION") [TEXT] Plain]
  | CCustom => alarm_singles ++ [mk_single (py "_action") (py "ACTION") [TEXT] Plain]
  | CNone => alarm_singles
  end.
Definition required (c : cls) : list (list N) :=
  match c with CCalendar => [py "VERSION"; py "PRODID"] | _ => [] end.

(** The properties with several values. *)
Record multiple := mk_multiple { h_attr : list N; h_name : list N; h_types : types }.
Definition multiples (c : cls) : list multiple :=
  let attach := mk_multiple (py "attach") (py "ATTACH") [URI; BINARY] in
  let attendees := mk_multiple (py "attendees") (py "ATTENDEE") [(py "ATTENDEE", Attendee)] in
  match c with
  | CEvent => [attach; attendees; mk_multiple (py "categories") (py "CATEGORIES") [TEXT]]
  | CTodo => [attach]
  | CEmail => [attendees; attach]
  | _ => []
  end.
(** The sub-components: attribute, name, kind. *)
Definition members (c : cls) : list (list N * list N * mkind) :=
  match c with
  | CEvent | CTodo => [(py "alarms", py "VALARM", MAlarm)]
  | CCalendar => [(py "events", py "VEVENT", MEvent); (py "todos", py "VTODO", MTodo)]
  | _ => []
  end.
Definition is_alarm (c : cls) : bool :=
  match c with CAudio | CCustom | CDisplay | CEmail | CNone => true | _ => false end.
Definition is_entry (c : cls) : bool := match c with CEvent | CTodo => true | _ => false end.

(** What is there without a line. *)
Definition initial (a : list N) : attr :=
  if str_eqb a (py "uid") then AOne (VStr (x_uid X))
  else if str_eqb a (py "dtstamp") then AOne (VDt (x_now X))
  else ANone.
(** The parameters of a property are stored under its attribute in upper case, if any. *)
Definition params_are {M} (x : comp M) (key : list N) (ps : xp) : Prop :=
  dict_get key (c_params x) = match ps with [] => None | _ => Some (XOne ps) end.

(** The lines of a name; there are no sub-components of that name. *)
Definition only_lines (n : list N) (its : list item) (ls : list content_line) : Prop :=
  ls = lines n its /\ forall l, ~ In (ICont n l) its.

(** One line at most, and no line only if none is required. *)
Definition one_read {M} (c : cls) (f : single) (its : list item) (x : comp M) : Prop :=
  exists ls, only_lines (g_name f) its ls /\
  match ls with
  | [] => ~ In (g_name f) (required c) /\ dict_get (g_attr f) (c_attrs x) = Some (initial (g_attr f)) /\ params_are x (upper (g_attr f)) []
  | [l] => exists t v w rest, typed (g_types f) (cl_params l) t /\
      denotes t (cl_value l) (dict_del (py "VALUE") (cl_params l)) v rest /\ kept (g_rule f) v w /\
      dict_get (g_attr f) (c_attrs x) = Some (AOne w) /\ params_are x (upper (g_attr f)) rest
  | _ => False
  end.

(** Any number of lines, each with its values separated by commas. Each value has the
    parameters that the one before it left over, with a note that they share a line; the
    last value of a line has the opposite note. *)
Definition note_as (w : list N) (ps : xp) : xp := dict_set (py "__merge_next") [PRaw w] ps.
Inductive values_read (t : vconv) : list (list N) -> xp -> list val -> list xp -> Prop :=
  | VR_last s ps v rest : denotes t s ps v rest -> values_read t [s] ps [v] [note_as (py "FALSE") rest]
  | VR_more s ss ps v rest vs qs : denotes t s ps v rest -> values_read t ss (note_as (py "TRUE") rest) vs qs ->
      values_read t (s :: ss) ps (v :: vs) (note_as (py "TRUE") rest :: qs).
Inductive commas : list (list N) -> list N -> Prop :=
  | CO_one s : commas [s] s
  | CO_more s ss w : commas ss w -> commas (s :: ss) (s ++ py "," ++ w).
Definition line_read (ts : types) (l : content_line) (vs : list val) (qs : list xp) : Prop :=
  exists t ss, typed ts (cl_params l) t /\ commas ss (cl_value l) /\ (t <> Text -> Forall (fun s => ~ In 44 s) ss) /\
    values_read t ss (dict_del (py "VALUE") (cl_params l)) vs qs.
Inductive lines_read (ts : types) : list content_line -> list val -> list xp -> Prop :=
  | LR_nil : lines_read ts [] [] []
  | LR_line l ls vs qs vs' qs' : line_read ts l vs qs -> lines_read ts ls vs' qs' -> lines_read ts (l :: ls) (vs ++ vs') (qs ++ qs').
Definition many_read {M} (f : multiple) (its : list item) (x : comp M) : Prop :=
  exists ls vs qs, only_lines (h_name f) its ls /\ lines_read (h_types f) ls vs qs /\
    dict_get (h_attr f) (c_attrs x) = Some (AMany vs) /\
    dict_get (upper (h_attr f)) (c_params x) = match qs with [] => None | _ => Some (XMany qs) end.

(** ** The time span *)
(** A date or a date with time, by VALUE: precision, time and the parameters left. *)
Definition time_value (l : content_line) (p : prec) (d : datetime) (rest : xp) : Prop :=
  let ps := dict_del (py "VALUE") (cl_params l) in
  rest = dict_del (py "TZID") ps /\
  match option_map (map pval_str) (dict_get (py "VALUE") (cl_params l)) with
  | None => p = PSecond /\ moment datetime_text (cl_value l) ps d
  | Some w => w = [py "DATE-TIME"] /\ p = PSecond /\ moment datetime_text (cl_value l) ps d \/
              w = [py "DATE"] /\ p = PDay /\ exists e, moment date_text (cl_value l) ps e /\ d = mk_dt (wall e) false None
  end.
(** At most one line of a name, its precision [p] and parameters stored under [key]. *)
Definition time_read {M} (n key : list N) (its : list item) (x : comp M) (p : option prec) (o : option datetime) : Prop :=
  exists ls, only_lines n its ls /\
  match ls with
  | [] => o = None /\ params_are x key []
  | [l] => exists q d rest, time_value l q d rest /\ p = Some q /\ o = Some d /\ params_are x key rest
  | _ => False
  end.
Definition length_read {M} (its : list item) (x : comp M) (o : option Z) : Prop :=
  exists ls, only_lines (py "DURATION") its ls /\
  match ls with
  | [] => o = None /\ params_are x (py "DURATION") []
  | [l] => exists secs, Accepted (cl_value l) secs /\ (TD_MIN <= secs * 1000000 <= TD_MAX)%Z /\ o = Some (secs * 1000000)%Z /\
      params_are x (py "DURATION") (cl_params l)
  | _ => False
  end.
(** Every line of [m] comes before some line of [n]. *)
Definition before (m n : list N) (its : list item) : Prop :=
  forall l1 l l2, its = l1 ++ ILine l :: l2 -> cl_name l = m -> exists l', In (ILine l') l2 /\ cl_name l' = n.
(** All times of one precision, a valid span, and DTEND for events, DUE for todos; the
    other one may only come before it and then only leaves its parameters. *)
Definition span_read {M} (c : cls) (its : list item) (x : comp M) : Prop :=
  let '(k, own, key, other, okey) :=
    match c with
    | CTodo => (KTodo, py "DUE", py "DUE", py "DTEND", py "END")
    | _ => (KEvent, py "DTEND", py "END", py "DUE", py "DUE")
    end in
  exists p b e e' d, time_read (py "DTSTART") (py "BEGIN") its x p b /\
    time_read own key its x p e /\ time_read other okey its x p e' /\ length_read its x d /\
    before other own its /\ (b = None -> e = None -> p = None) /\
    let t := mk_ts k b e d (match p with Some q => q | None => PNone end) in
    validate (x_env X) t = Ok tt /\ dict_get (py "timespan") (c_attrs x) = Some (AOne (VSpan t)).

(** ** The action of an alarm *)
Definition action_read {M} (c : cls) (its : list item) (x : comp M) : Prop :=
  exists l, only_lines (py "ACTION") its [l] /\ action_class (cl_value l) c /\ params_are x (py "ACTION") (cl_params l).

(** ** Components *)
Definition attr_names (c : cls) : list (list N) :=
  map g_attr (singles c) ++ map h_attr (multiples c) ++ if is_entry c then [py "timespan"] else [].
Definition param_names (c : cls) : list (list N) :=
  map (fun f => upper (g_attr f)) (singles c) ++ map (fun f => upper (h_attr f)) (multiples c) ++
  (if is_entry c then [py "BEGIN"; py "END"; py "DUE"; py "DURATION"] else []) ++ if is_alarm c then [py "ACTION"] else [].
Definition title (c : cls) : list N :=
  match c with CEvent => py "VEVENT" | CTodo => py "VTODO" | CCalendar => py "VCALENDAR" | _ => py "VALARM" end.

Record reads {M} (RM : mkind -> list item -> M -> Prop) (c : cls) (its : list item) (x : comp M) : Prop := mk_reads {
  rd_cls : c_cls x = c;
  rd_name : c_name x = title c;
  rd_extra : Unknown c its (c_extra x);
  rd_one : forall f, In f (singles c) -> one_read c f its x;
  rd_many : forall f, In f (multiples c) -> many_read f its x;
  rd_span : is_entry c = true -> span_read c its x;
  rd_action : is_alarm c = true -> action_read c its x;
  rd_members : forall a n k, In (a, n, k) (members c) ->
    (forall l, In (ILine l) its -> cl_name l <> n) /\
    exists ms, dict_get a (c_mem x) = Some ms /\ Forall2 (RM k) (subs n its) ms;
  (* and there is nothing else *)
  rd_attrs : forall k, dict_get k (c_attrs x) <> None -> In k (attr_names c);
  rd_params : forall k, dict_get k (c_params x) <> None -> In k (param_names c);
  rd_mems : forall k, dict_get k (c_mem x) <> None -> In k (map (fun m => fst (fst m)) (members c))
}.
Definition no_reads (k : mkind) (its : list item) (m : Empty_set) : Prop := False.
Definition alarm_reads (its : list item) (x : alarm) : Prop := exists c, is_alarm c = true /\ reads no_reads c its x.
Definition in_entry_reads (k : mkind) (its : list item) (x : alarm) : Prop := alarm_reads its x.
Definition entry_reads (c : cls) (its : list item) (x : entry) : Prop := reads in_entry_reads c its x.
Definition in_calendar_reads (k : mkind) (its : list item) (x : entry) : Prop :=
  match k with MEvent => entry_reads CEvent its x | MTodo => entry_reads CTodo its x | MAlarm => False end.
End Read.
(** A calendar: its time zones are known to everything in it, wherever they stand. *)
Definition calendar_reads (X : ext) (its : list item) (x : calendar) : Prop :=
  exists zs, Forall2 (fun sub z => x_tz_load X sub = Ok z) (subs (py "VTIMEZONE") its) zs /\
    reads X zs (in_calendar_reads X zs) CCalendar its x.
