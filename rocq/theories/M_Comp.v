(** * Model of reading and writing components

    src/ics/converter/base.py, converter/component.py, converter/value.py,
    converter/types/{timespan,calendar,various}.py, component.py, valuetype/{special,generic}.py
    for the classes Event, Todo, Calendar and the five alarms.

    Simplifications. The context dictionary is split into what is local to the reading of
    one component (counters, time span data) and the dictionary of zones, which is passed
    on; its keys [(self, ...)] belong to one class each and are reset after each component
    (value.py:111-115), so the assertion at value.py:58 cannot fail. A partially read
    component is not observable: an exception gives no component. Time zone components
    are read and written by external functions. A fresh uid and the current time are
    constants. Assigning an attribute runs its own converter and validator (C38). *)
From Verif Require Import M_Base M_Text M_Line M_Codec M_Cal M_Time M_Span M_Dt M_Tree.

(** Parameters of a line, of the extra parameters and of a person. *)
Definition xp := M_Line.params.
Definition strs (ps : xp) : M_Dt.params := map (fun kv => (fst kv, map pval_str (snd kv))) ps.
Definition raw (l : list str) : list pval := map PRaw l.

(** [urllib.parse.ParseResult]: its six components. *)
Definition url := list str.

(** External functions. *)
Record ext := mk_ext {
  x_env : env;
  x_zdb : zone_db;
  x_utc : tz;                                (* ics.timezone.UTC *)
  x_urlparse : str -> res url;               (* urllib.parse.urlparse *)
  x_geturl : url -> str;                     (* ParseResult.geturl *)
  x_float : str -> res N;                    (* float(text); a float is its bit pattern *)
  x_ffmt : N -> str;                         (* "%f" % x *)
  x_uid : str;                               (* uid of a new event *)
  x_now : datetime;                          (* dtstamp of a new event *)
  x_tz_load : list item -> res (str * tz);   (* Timezone.from_container: tzid and zone *)
  x_tz_dump : tz -> res item                 (* Timezone.to_container *)
}.

(** ** Values *)
Inductive email := EStr (s : str) | EUrl (u : url).
Inductive role := ROrganizer | RAttendee.
Inductive val :=
  | VStr (s : str) | VUrl (u : url) | VBytes (b : list N) | VDt (d : datetime) | VTd (t : Z)
  | VInt (n : Z) | VBool (b : bool) | VPerson (r : role) (e : email) (extra : xp)
  | VGeo (lat lon : N) | VSpan (t : timespan).
(** An attribute: None, a value, or a list of values. *)
Inductive attr := ANone | AOne (v : val) | AMany (l : list val).
(** An entry of [extra_params]: a dict or a list of dicts. *)
Inductive xpar := XOne (p : xp) | XMany (l : list xp).

Inductive cls := CEvent | CTodo | CCalendar | CAudio | CCustom | CDisplay | CEmail | CNone.
Definition cls_eqb (a b : cls) : bool :=
  match a, b with
  | CEvent, CEvent | CTodo, CTodo | CCalendar, CCalendar | CAudio, CAudio
  | CCustom, CCustom | CDisplay, CDisplay | CEmail, CEmail | CNone, CNone => true
  | _, _ => false
  end.
(** [NAME] (event.py:286, todo.py:39, icalendar.py:47, alarm.py:32) *)
Definition NAME (c : cls) : str :=
  match c with
  | CEvent => py "VEVENT" | CTodo => py "VTODO" | CCalendar => py "VCALENDAR" | _ => py "VALARM"
  end.

(** A component with members (sub-components) of type [M]; [c_name] and [c_extra] are
    the name and the data of [component.extra]. *)
Record comp (M : Type) := mk_comp {
  c_cls : cls;
  c_attrs : dict attr;
  c_mem : dict (list M);
  c_name : str;
  c_extra : list item;
  c_params : dict xpar
}.
Arguments mk_comp {M}. Arguments c_cls {M}. Arguments c_attrs {M}. Arguments c_mem {M}.
Arguments c_name {M}. Arguments c_extra {M}. Arguments c_params {M}.

Definition set_attrs {M} (a : dict attr) (c : comp M) : comp M :=
  mk_comp (c_cls c) a (c_mem c) (c_name c) (c_extra c) (c_params c).
Definition set_mem {M} (m : dict (list M)) (c : comp M) : comp M :=
  mk_comp (c_cls c) (c_attrs c) m (c_name c) (c_extra c) (c_params c).
Definition set_extra {M} (x : list item) (c : comp M) : comp M :=
  mk_comp (c_cls c) (c_attrs c) (c_mem c) (c_name c) x (c_params c).
Definition set_params {M} (p : dict xpar) (c : comp M) : comp M :=
  mk_comp (c_cls c) (c_attrs c) (c_mem c) (c_name c) (c_extra c) p.

Definition get_attr {M} (a : str) (c : comp M) : attr :=
  match dict_get a (c_attrs c) with Some v => v | None => ANone end.
Definition get_mem {M} (a : str) (c : comp M) : list M :=
  match dict_get a (c_mem c) with Some l => l | None => [] end.

Section Comp.
Variable X : ext.
Definition D := x_zdb X.
Definition E := x_env X.

(** ** Value converters (valuetype/*.py) *)
Inductive vconv := Text | Uri | Binary | Datetime | Duration | Int | Bool | Organizer | Attendee | Geo.
Definition ics_type (c : vconv) : str :=
  match c with
  | Text => py "TEXT" | Uri => py "URI" | Binary => py "BINARY" | Datetime => py "DATE-TIME"
  | Duration => py "DURATION" | Int => py "INTEGER" | Bool => py "BOOLEAN"
  | Organizer => py "ORGANIZER" | Attendee => py "ATTENDEE" | Geo => py "X-GEO"
  end.
(** [isinstance(value, converter.python_type)]; bool is a subclass of int. *)
Definition isinst (c : vconv) (v : val) : bool :=
  match c, v with
  | Text, VStr _ | Uri, VUrl _ | Binary, VBytes _ | Datetime, VDt _ | Duration, VTd _
  | Int, VInt _ | Int, VBool _ | Bool, VBool _
  | Organizer, VPerson ROrganizer _ _ | Attendee, VPerson RAttendee _ _ | Geo, VGeo _ _ => true
  | _, _ => false
  end.

(** DATE-TIME with parameters whose values may be quoted: only TZID is touched. *)
Definition dt_parse (F : formats) (s : str) (ps : xp) (zs : zones) : res (datetime * xp * zones) :=
  do (d, _, zs') <- parse_dt D F s (strs ps) (Some zs);
  Ok (d, dict_del (py "TZID") ps, match zs' with Some z => z | None => zs end).
Definition dt_serialize (d : datetime) (ps : xp) (zs : zones) : res (str * xp * zones) :=
  do (s, q, zs') <- serialize_dt D d [] (Some zs);
  Ok (s, match dict_get (py "TZID") q with Some l => dict_set (py "TZID") (raw l) ps | None => ps end,
      match zs' with Some z => z | None => zs end).

(** [value.partition(";")] with an error if there is no separator (special.py:31-33). *)
Definition geo_parse (s : str) : res (N * N) :=
  match find_char c_semi s with
  | None => Err ValueError
  | Some i => do a <- x_float X (firstn i s); do b <- x_float X (skipn (S i) s); Ok (a, b)
  end.
(** PersonConverter.parse (special.py:50-58): the parameters become [extra] and are
    cleared. *)
Definition person_parse (r : role) (s : str) (ps : xp) : res (val * xp) :=
  do u <- x_urlparse X s; Ok (VPerson r (EUrl u) ps, []).
Definition email_str (e : email) : str := match e with EStr s => s | EUrl u => x_geturl X u end.

(** [converter.parse(value, params, context)]: value, parameters and zones afterwards. *)
Definition vparse (c : vconv) (s : str) (ps : xp) (zs : zones) : res (val * xp * zones) :=
  match c with
  | Text => do t <- text_parse s; Ok (VStr t, ps, zs)
  | Uri => do u <- x_urlparse X s; Ok (VUrl u, ps, zs)
  | Binary => do b <- binary_parse s; Ok (VBytes b, ps, zs)
  | Datetime => do (d, ps', zs') <- dt_parse FDatetime s ps zs; Ok (VDt d, ps', zs')
  | Duration => do t <- duration_parse s; Ok (VTd t, ps, zs)
  | Int => do n <- int_parse s; Ok (VInt n, ps, zs)
  | Bool => do b <- bool_parse s; Ok (VBool b, ps, zs)
  | Organizer => do (v, ps') <- person_parse ROrganizer s ps; Ok (v, ps', zs)
  | Attendee => do (v, ps') <- person_parse RAttendee s ps; Ok (v, ps', zs)
  | Geo => do (a, b) <- geo_parse s; Ok (VGeo a b, ps, zs)
  end.
(** [converter.serialize(value, params, context)]; the last case does not occur. *)
Definition vserialize (c : vconv) (v : val) (ps : xp) (zs : zones) : res (str * xp * zones) :=
  match c, v with
  | Text, VStr s => Ok (text_serialize s, ps, zs)
  | Uri, VUrl u => Ok (x_geturl X u, ps, zs)
  | Binary, VBytes b => Ok (binary_serialize b, ps, zs)
  | Datetime, VDt d => dt_serialize d ps zs
  | Duration, VTd t => Ok (duration_serialize t, ps, zs)
  | Int, VInt n => Ok (int_serialize n, ps, zs)
  | Int, VBool b => Ok (if b then py "True" else py "False", ps, zs)
  | Bool, VBool b => Ok (bool_serialize b, ps, zs)
  | Organizer, VPerson _ e x | Attendee, VPerson _ e x => Ok (email_str e, dict_update ps x, zs)
  | Geo, VGeo a b => Ok (x_ffmt X a ++ py ";" ++ x_ffmt X b, ps, zs)
  | _, _ => Err TypeError
  end.
(** [split_value_list] (base.py:24-25, text.py:65-77). *)
Definition vsplit (c : vconv) (s : str) : res (list str) :=
  match c with
  | Text => match split_value_list s with (l, None) => Ok l | (_, Some e) => Err e end
  | _ => Ok (split_on c_comma s)
  end.

(** ** Converters and validators of attributes (event.py:56-70, 252-270; todo.py:22-31;
       icalendar.py:18-38; alarm.py:34-40) *)
Inductive setter := SPlain | SStatus | SUtc | SStr | SOrganizer | SGeo | SRange (hi : Z)
  | SDatetime | STrigger | STimedelta | SSpan (k : kind).
Definition STATUS_VALUES : list str := [py "TENTATIVE"; py "CONFIRMED"; py "CANCELLED"].
(** Assigning a value that is not None (other shapes of arguments, such as tuples, are
    not modelled). *)
Definition apply_set (s : setter) (v : val) : res val :=
  match s, v with
  | SPlain, _ => Ok v
  | SStatus, VStr t => if str_in (upper t) STATUS_VALUES then Ok (VStr (upper t)) else Err ValueError
  | SStatus, _ => Err TypeError
  | SUtc, VDt d => rmap VDt (dt_astimezone E d (Some (x_utc X)))
  | SUtc, _ => Err ValueError
  | SStr, VStr _ => Ok v
  | SStr, _ => Err TypeError
  | SOrganizer, VPerson ROrganizer _ _ => Ok v
  | SOrganizer, _ => Err TypeError
  | SGeo, VGeo _ _ => Ok v
  | SGeo, _ => Err TypeError                     (* would become None *)
  | SRange hi, VInt n => if (0 <=? n)%Z && (n <=? hi)%Z then Ok v else Err ValueError
  | SRange hi, _ => Err ValueError
  | SDatetime, VDt _ => Ok v
  | SDatetime, _ => Err ValueError
  | STrigger, (VTd _ | VDt _) => Ok v
  | STrigger, _ => Err TypeError
  | STimedelta, VTd _ => Ok v
  | STimedelta, _ => Err ValueError
  | SSpan k, VSpan t => match ts_kind t, k with
                        | KEvent, KEvent | KTodo, KTodo => do _ <- validate E t; Ok v
                        | _, _ => Err TypeError
                        end
  | SSpan _, _ => Err TypeError
  end.

(** ** Attribute converters of the classes *)
Inductive mkind := MAlarm | MEvent | MTodo.
Inductive akind :=
  | KVal (convs : list vconv) (multi : bool) (required : bool) (set : setter)
                                      (* AttributeValueConverter *)
  | KSpan (k : kind)                  (* TimespanConverter *)
  | KMember (m : mkind)               (* MemberComponentConverter, AlarmMeta *)
  | KAction                           (* AlarmActionConverter *)
  | KZones.                           (* CalendarTimezoneConverter *)
(** The attribute, the names it answers to ([filter_ics_names]), priority, kind. *)
Record aconv := mk_aconv { a_attr : str; a_names : list str; a_prio : Z; a_kind : akind }.

(** The key in [extra_params]: the attribute name in upper case (base.py:169). *)
Definition a_key (a : aconv) : str := upper (a_attr a).

Definition one_of (attr ics : str) (convs : list vconv) (s : setter) : aconv :=
  mk_aconv attr [ics] 0 (KVal convs false false s).
Definition many_of (attr ics : str) (convs : list vconv) : aconv :=
  mk_aconv attr [ics] 0 (KVal convs true false SPlain).
Definition head_of (attr ics : str) (prio : Z) (required : bool) (s : setter) : aconv :=
  mk_aconv attr [ics] prio (KVal [Text] false required s).

(** CalendarEntryAttrs (event.py:56-70) *)
Definition entry_fields (k : kind) : list aconv := [
  mk_aconv (py "timespan") [py "DTSTART"; py "DTEND"; py "DUE"; py "DURATION"] 1000 (KSpan k);
  one_of (py "summary") (py "SUMMARY") [Text] SPlain;
  one_of (py "uid") (py "UID") [Text] SPlain;
  one_of (py "description") (py "DESCRIPTION") [Text] SPlain;
  one_of (py "location") (py "LOCATION") [Text] SPlain;
  one_of (py "url") (py "URL") [Text; Uri] SPlain;
  one_of (py "status") (py "STATUS") [Text] SStatus;
  one_of (py "created") (py "CREATED") [Datetime] SUtc;
  one_of (py "last_modified") (py "LAST-MODIFIED") [Datetime] SUtc;
  one_of (py "dtstamp") (py "DTSTAMP") [Datetime] SUtc;
  mk_aconv (py "alarms") [py "VALARM"] 0 (KMember MAlarm);
  many_of (py "attach") (py "ATTACH") [Uri; Binary] ].
(** EventAttrs (event.py:252-270), TodoAttrs (todo.py:22-31) *)
Definition event_fields : list aconv := entry_fields KEvent ++ [
  one_of (py "classification") (py "CLASSIFICATION") [Text] SStr;
  one_of (py "transparent") (py "TRANSPARENT") [Bool] SPlain;
  one_of (py "organizer") (py "ORGANIZER") [Organizer] SOrganizer;
  one_of (py "geo") (py "GEO") [Geo] SGeo;
  many_of (py "attendees") (py "ATTENDEE") [Attendee];
  many_of (py "categories") (py "CATEGORIES") [Text] ].
Definition todo_fields : list aconv := entry_fields KTodo ++ [
  one_of (py "percent") (py "PERCENT") [Int] (SRange 100);
  one_of (py "priority") (py "PRIORITY") [Int] (SRange 9);
  one_of (py "completed") (py "COMPLETED") [Datetime] SDatetime ].
(** CalendarAttrs (icalendar.py:16-38), CalendarMeta.find_converters (calendar.py:20-23) *)
Definition calendar_fields : list aconv := [
  head_of (py "version") (py "VERSION") 1000 true SStr;
  head_of (py "prodid") (py "PRODID") 900 true SStr;
  head_of (py "scale") (py "SCALE") 800 false SPlain;
  head_of (py "method") (py "METHOD") 700 false SPlain;
  mk_aconv (py "events") [py "VEVENT"] (-100) (KMember MEvent);
  mk_aconv (py "todos") [py "VTODO"] (-200) (KMember MTodo);
  mk_aconv [] [py "VTIMEZONE"] 600 KZones ].
(** Alarms (alarm.py), AlarmMeta.find_converters (various.py:127-137) *)
Definition alarm_fields : list aconv := [
  one_of (py "trigger") (py "TRIGGER") [Duration; Datetime] STrigger;
  one_of (py "repeat") (py "REPEAT") [Int] SPlain;
  one_of (py "duration") (py "DURATION") [Duration] STimedelta ].
Definition action_field : aconv := mk_aconv [] [py "ACTION"] 1000 KAction.
Definition class_fields (c : cls) : list aconv :=
  match c with
  | CEvent => event_fields
  | CTodo => todo_fields
  | CCalendar => calendar_fields
  | CAudio => alarm_fields ++ [one_of (py "attach") (py "ATTACH") [Uri; Binary] SPlain; action_field]
  | CCustom => alarm_fields ++ [one_of (py "_action") (py "ACTION") [Text] SPlain; action_field]
  | CDisplay => alarm_fields ++ [one_of (py "description") (py "DESCRIPTION") [Text] SPlain; action_field]
  | CEmail => alarm_fields ++ [one_of (py "summary") (py "SUMMARY") [Text] SPlain;
      one_of (py "description") (py "DESCRIPTION") [Text] SPlain;
      many_of (py "attendees") (py "ATTENDEE") [Attendee];
      many_of (py "attach") (py "ATTACH") [Uri; Binary]; action_field]
  | CNone => alarm_fields ++ [action_field]
  end.

(** [sorted(converters, key=priority, reverse=True)]: stable (base.py:276-283). *)
Fixpoint insert_conv (a : aconv) (l : list aconv) : list aconv :=
  match l with
  | [] => [a]
  | b :: l' => if (a_prio b <? a_prio a)%Z then a :: l else b :: insert_conv a l'
  end.
Definition sort_converters (l : list aconv) : list aconv := fold_left (fun acc a => insert_conv a acc) l [].
Definition converters (c : cls) : list aconv := sort_converters (class_fields c).
(** [converter_lookup.get(name, [])] (component.py:83-88, 152) *)
Definition lookup (c : cls) (name : str) : list aconv :=
  filter (fun a => existsb (str_eqb name) (a_names a)) (converters c).

Definition item_name (it : item) : str := match it with ILine l => cl_name l | ICont n _ => n end.

(** [get_type_from_action] (alarm.py:117-127) *)
Definition type_from_action (a : str) : cls :=
  if str_eqb a (py "DISPLAY") then CDisplay
  else if str_eqb a (py "AUDIO") then CAudio
  else if str_eqb a (py "NONE") then CNone
  else if str_eqb a (py "EMAIL") then CEmail
  else CCustom.

(** ** Extra parameters (base.py:163-185) *)
Definition store_params {M} (key : str) (p : xp) (c : comp M) : comp M :=
  match p with [] => c | _ => set_params (dict_set key (XOne p) (c_params c)) c end.
Definition append_params {M} (key : str) (p : xp) (c : comp M) : res (comp M) :=
  match dict_get key (c_params c) with
  | None => Ok (set_params (dict_set key (XMany [p]) (c_params c)) c)
  | Some (XMany l) => Ok (set_params (dict_set key (XMany (l ++ [p])) (c_params c)) c)
  | Some (XOne _) => Err AttributeError
  end.
(** [copy_extra_params(self.get_extra_params(component, name))] for a single value *)
Definition single_params {M} (key : str) (c : comp M) : res xp :=
  match dict_get key (c_params c) with
  | None => Ok []
  | Some (XOne p) => Ok p
  | Some (XMany []) => Ok []
  | Some (XMany _) => Err AttributeError
  end.

(** ** Reading (component.py:113-160) *)
Record spanctx := mk_sc {
  sc_seen : list str;             (* CONTEXT_ITEMS *)
  sc_begin : option datetime;
  sc_end : option datetime;
  sc_dur : option Z;
  sc_prec : option prec;
  sc_end_name : option str
}.
Definition sc0 : spanctx := mk_sc [] None None None None None.

Record lst (M : Type) := mk_lst {
  l_comp : comp M;
  l_count : dict nat;             (* (self, "current_value_count") by attribute *)
  l_span : spanctx;
  l_zones : zones
}.
Arguments mk_lst {M}. Arguments l_comp {M}. Arguments l_count {M}. Arguments l_span {M}. Arguments l_zones {M}.

Definition count {M} (a : str) (st : lst M) : nat :=
  match dict_get a (l_count st) with Some n => n | None => O end.

Definition VALUE : str := py "VALUE".
Definition MERGE : str := py "__merge_next".

(** [__prepare_params] (value.py:95-109) *)
Definition prepare_params (convs : list vconv) (ps : xp) : res (xp * vconv) :=
  let ps' := dict_del VALUE ps in
  match dict_get VALUE ps with
  | Some (_ :: _ :: _) => Err ValueError
  | Some [t] =>
      match find (fun c => str_eqb (ics_type c) (pval_str t)) convs with
      | Some c => Ok (ps', c)
      | None => Err ValueError
      end
  | Some [] | None => match convs with c :: _ => Ok (ps', c) | [] => Err IndexError end
  end.

(** [set_or_append_value] for a list (base.py:147-158) *)
Definition append_value {M} (a : str) (v : val) (c : comp M) : res (comp M) :=
  match get_attr a c with
  | ANone => Ok (set_attrs (dict_set a (AMany [v]) (c_attrs c)) c)
  | AMany l => Ok (set_attrs (dict_set a (AMany (l ++ [v])) (c_attrs c)) c)
  | AOne _ => Err AttributeError
  end.

(** AttributeValueConverter.populate for one value (value.py:76-90) *)
Definition populate_single {M} (a : aconv) (convs : list vconv) (s : setter) (cl : content_line) (st : lst M)
  : res (lst M) :=
  if Nat.ltb 0 (count (a_attr a) st) then Err ValueError
  else
    do (ps, c) <- prepare_params convs (cl_params cl);
    do (v, ps', zs) <- vparse c (cl_value cl) ps (l_zones st);
    do v' <- apply_set s v;
    let comp1 := store_params (a_key a) ps' (l_comp st) in
    let comp2 := set_attrs (dict_set (a_attr a) (AOne v') (c_attrs comp1)) comp1 in
    Ok (mk_lst comp2 (dict_set (a_attr a) (S (count (a_attr a) st)) (l_count st)) (l_span st) zs).

(** The loop over the values of a line (value.py:62-75). The dict of the last value is
    marked afterwards; here the mark is chosen when the dict is stored. *)
Fixpoint populate_values {M} (a : aconv) (c : vconv) (vals : list str) (ps : xp) (st : lst M) : res (lst M) :=
  match vals with
  | [] => Ok st
  | s :: vals' =>
      do (v, ps', zs) <- vparse c s ps (l_zones st);
      let ps1 := dict_set MERGE (raw [py "TRUE"]) ps' in
      let stored := match vals' with [] => dict_set MERGE (raw [py "FALSE"]) ps' | _ => ps1 end in
      do comp1 <- append_params (a_key a) stored (l_comp st);
      do comp2 <- append_value (a_attr a) v comp1;
      populate_values a c vals' ps1
        (mk_lst comp2 (dict_set (a_attr a) (S (count (a_attr a) st)) (l_count st)) (l_span st) zs)
  end.
Definition populate_multi {M} (a : aconv) (convs : list vconv) (cl : content_line) (st : lst M) : res (lst M) :=
  do (ps, c) <- prepare_params convs (cl_params cl);
  do vals <- vsplit c (cl_value cl);
  populate_values a c vals ps st.

(** TimespanConverter.populate (timespan.py:33-78) *)
Definition populate_span {M} (cl : content_line) (st : lst M) : res (lst M) :=
  let sc := l_span st in
  let name := cl_name cl in
  if existsb (str_eqb name) (sc_seen sc) then Err ValueError
  else
    let seen := sc_seen sc ++ [name] in
    let ps := cl_params cl in
    if str_eqb name (py "DURATION") then
      let comp1 := store_params (py "DURATION") ps (l_comp st) in
      do d <- duration_parse (cl_value cl);
      Ok (mk_lst comp1 (l_count st)
            (mk_sc seen (sc_begin sc) (sc_end sc) (Some d) (sc_prec sc) (sc_end_name sc)) (l_zones st))
    else
      let vt := match dict_get VALUE ps with Some l => map pval_str l | None => [py "DATE-TIME"] end in
      let ps1 := dict_del VALUE ps in
      do (p, d, ps2, zs) <-
        (if list_eq_dec (list_eq_dec N.eq_dec) vt [py "DATE-TIME"] then
           do (d, ps2, zs) <- dt_parse FDatetime (cl_value cl) ps1 (l_zones st); Ok (PSecond, d, ps2, zs)
         else if list_eq_dec (list_eq_dec N.eq_dec) vt [py "DATE"] then
           do (d, ps2, zs) <- dt_parse FDate (cl_value cl) ps1 (l_zones st);
           Ok (PDay, mk_dt (wall d - wall d mod US_DAY)%Z false None, ps2, zs)
         else Err ValueError);
      do _ <- match sc_prec sc with
              | Some q => guard (negb (prec_eqb p q)) ValueError
              | None => Ok tt
              end;
      let prec := match sc_prec sc with Some q => Some q | None => Some p end in
      if str_eqb name (py "DTSTART") then
        Ok (mk_lst (store_params (py "BEGIN") ps2 (l_comp st)) (l_count st)
              (mk_sc seen (Some d) (sc_end sc) (sc_dur sc) prec (sc_end_name sc)) zs)
      else
        let en := if str_eqb name (py "DTEND") then py "end" else py "due" in
        Ok (mk_lst (store_params (upper en) ps2 (l_comp st)) (l_count st)
              (mk_sc seen (sc_begin sc) (Some d) (sc_dur sc) prec (Some en)) zs).

(** AlarmActionConverter.populate (various.py:101-108) *)
Definition populate_action {M} (cl : content_line) (st : lst M) : res (lst M) :=
  if cls_eqb (c_cls (l_comp st)) (type_from_action (cl_value cl)) then
    Ok (mk_lst (store_params (py "ACTION") (cl_params cl) (l_comp st)) (l_count st) (l_span st) (l_zones st))
  else Err AssertionError.

Section Load.
Variable M : Type.
(** [self.meta.load_instance(item, context)] *)
Variable load_m : mkind -> str -> list item -> zones -> res (M * zones).

(** [conv.populate(instance, line, context)]: consumed or not. *)
Definition populate_conv (a : aconv) (it : item) (st : lst M) : res (lst M * bool) :=
  match a_kind a, it with
  | KVal convs false _ s, ILine cl => do st' <- populate_single a convs s cl st; Ok (st', true)
  | KVal convs true _ _, ILine cl => do st' <- populate_multi a convs cl st; Ok (st', true)
  | KSpan _, ILine cl => do st' <- populate_span cl st; Ok (st', true)
  | KAction, ILine cl => do st' <- populate_action cl st; Ok (st', true)
  | KMember m, ICont n its =>
      do (x, zs) <- load_m m n its (l_zones st);
      let c := l_comp st in
      Ok (mk_lst (set_mem (dict_set (a_attr a) (get_mem (a_attr a) c ++ [x]) (c_mem c)) c)
                 (l_count st) (l_span st) zs, true)
  | KZones, ICont n _ => Ok (st, str_eqb n (py "VTIMEZONE"))
  | KZones, ILine _ => Ok (st, false)
  | KVal _ _ _ _, ICont _ _ | KSpan _, ICont _ _ | KAction, ICont _ _ | KMember _, ILine _ => Err AssertionError
  end.
Fixpoint populate_convs (l : list aconv) (it : item) (st : lst M) (consumed : bool) : res (lst M * bool) :=
  match l with
  | [] => Ok (st, consumed)
  | a :: l' => do (st', b) <- populate_conv a it st; populate_convs l' it st' (consumed || b)
  end.
Definition populate_item (it : item) (st : lst M) : res (lst M) :=
  do (st', consumed) <- populate_convs (lookup (c_cls (l_comp st)) (item_name it)) it st false;
  if consumed then Ok st'
  else let c := l_comp st' in
       Ok (mk_lst (set_extra (c_extra c ++ [it]) c) (l_count st') (l_span st') (l_zones st')).
Fixpoint populate_items (its : list item) (st : lst M) : res (lst M) :=
  match its with
  | [] => Ok st
  | it :: its' => do st' <- populate_item it st; populate_items its' st'
  end.

(** [post_populate] (value.py:111-115, timespan.py:80-102) *)
Definition end_name (k : kind) : str := match k with KTodo => py "due" | _ => py "end" end.
Definition post_conv (a : aconv) (st : lst M) : res (lst M) :=
  match a_kind a with
  | KVal _ _ required _ =>
      if required && Nat.eqb (count (a_attr a) st) 0 then Err ValueError
      else Ok (mk_lst (l_comp st) (dict_set (a_attr a) O (l_count st)) (l_span st) (l_zones st))
  | KSpan k =>
      let sc := l_span st in
      do t <- make E k (sc_begin sc) (sc_end sc) (sc_dur sc)
                (match sc_prec sc with Some p => p | None => PNone end);
      do _ <- match sc_end_name sc with
              | Some n => guard (negb (str_eqb n (end_name k))) ValueError
              | None => Ok tt
              end;
      do v <- apply_set (SSpan k) (VSpan t);
      let c := l_comp st in
      Ok (mk_lst (set_attrs (dict_set (a_attr a) (AOne v) (c_attrs c)) c) (l_count st) sc0 (l_zones st))
  | _ => Ok st
  end.
Fixpoint post_convs (l : list aconv) (st : lst M) : res (lst M) :=
  match l with
  | [] => Ok st
  | a :: l' => do st' <- post_conv a st; post_convs l' st'
  end.

(** [populate_instance] (component.py:130-160): the component and the zones. *)
Definition populate_instance (c : comp M) (name : str) (its : list item) (zs : zones) : res (comp M * zones) :=
  if str_eqb name (NAME (c_cls c)) then
    do st <- populate_items its (mk_lst c [] sc0 zs);
    do st' <- post_convs (converters (c_cls c)) st;
    Ok (l_comp st', l_zones st')
  else Err ValueError.

(** A new instance: the default values (event.py:56-70, icalendar.py:49-50, 71-76). *)
Definition default_attr (c : cls) (a : aconv) : attr :=
  match a_kind a with
  | KVal _ true _ _ => AMany []
  | KVal _ false _ _ =>
      if str_eqb (a_attr a) (py "uid") then AOne (VStr (x_uid X))
      else if str_eqb (a_attr a) (py "dtstamp") then AOne (VDt (x_now X))
      else if str_eqb (a_attr a) (py "version") then AOne (VStr (py "2.0"))
      else if str_eqb (a_attr a) (py "prodid") then AOne (VStr (py "ics.py 0.8.0.dev0 - http://git.io/lLljaA"))
      else ANone
  | KSpan k => AOne (VSpan (mk_ts k None None None PSecond))
  | _ => ANone
  end.
Definition has_attr (a : aconv) : bool :=
  match a_kind a with KVal _ _ _ _ | KSpan _ => true | _ => false end.
Definition has_members (a : aconv) : bool := match a_kind a with KMember _ => true | _ => false end.
Definition new_comp (c : cls) : comp M :=
  mk_comp c (map (fun a => (a_attr a, default_attr c a)) (filter has_attr (class_fields c)))
    (map (fun a => (a_attr a, [])) (filter has_members (class_fields c))) (NAME c) [] [].
(** [load_instance] (component.py:119-128) *)
Definition load_comp (c : cls) (name : str) (its : list item) (zs : zones) : res (comp M * zones) :=
  populate_instance (new_comp c) name its zs.
End Load.

(** ** Writing (component.py:162-185) *)
(** [__find_value_converter] (value.py:173-182) *)
Fixpoint find_conv (first : bool) (convs : list vconv) (v : val) (ps : xp) : res (vconv * xp) :=
  match convs with
  | [] => Err ValueError
  | c :: convs' =>
      if isinst c v then Ok (c, if first then ps else dict_set VALUE (raw [ics_type c]) ps)
      else find_conv false convs' v ps
  end.
(** AttributeValueConverter.serialize for one value (value.py:121-131) *)
Definition serialize_single {M} (a : aconv) (name : str) (convs : list vconv) (c : comp M) (zs : zones)
  : res (list item * zones) :=
  match get_attr (a_attr a) c with
  | ANone => Ok ([], zs)
  | AMany _ => do _ <- single_params (a_key a) c; Err ValueError
  | AOne v =>
      do ps <- single_params (a_key a) c;
      do (conv, ps1) <- find_conv true convs v ps;
      do (s, ps2, zs') <- vserialize conv v ps1 zs;
      Ok ([ILine (ContentLine name ps2 s)], zs')
  end.
(** [__serialize_multi] (value.py:133-171); [cur] is [current_params], [acc] are
    [current_values]. *)
Fixpoint serialize_values (name : str) (convs : list vconv) (vs : list (val * xp)) (cur : option xp)
  (acc : list str) (merging : bool) (zs : zones) : res (list item * zones) :=
  match vs with
  | [] => if merging then Err ValueError else Ok ([], zs)
  | (v, p) :: vs' =>
      let merge := match dict_get MERGE p with
                   | Some [t] => str_eqb (pval_str t) (py "TRUE")
                   | _ => false
                   end in
      do (conv, ps1) <- find_conv true convs v (dict_del MERGE p);
      do (s, ps2, zs') <- vserialize conv v ps1 zs;
      do _ <- match cur with
              | Some q => guard (negb (params_eqb (strs q) (strs ps2))) ValueError
              | None => Ok tt
              end;
      let cur' := match cur with Some q => q | None => ps2 end in
      if merge then serialize_values name convs vs' (Some cur') (acc ++ [s]) true zs'
      else
        do (its, zs'') <- serialize_values name convs vs' None [] false zs';
        Ok (ILine (ContentLine name ps2 (join_value_list (acc ++ [s]))) :: its, zs'')
  end.
Definition serialize_multi {M} (a : aconv) (name : str) (convs : list vconv) (c : comp M) (zs : zones)
  : res (list item * zones) :=
  match get_attr (a_attr a) c with
  | ANone => Err TypeError
  | AOne _ => Err TypeError
  | AMany vs =>
      match dict_get (a_key a) (c_params c) with
      | None | Some (XMany []) | Some (XOne []) =>
          serialize_values name convs (map (fun v => (v, [])) vs) None [] false zs
      | Some (XMany ps) =>
          if Nat.eqb (length ps) (length vs) then serialize_values name convs (combine vs ps) None [] false zs
          else Err ValueError
      | Some (XOne p) => if Nat.eqb (length p) (length vs) then Err AttributeError else Err ValueError
      end
  end.

(** TimespanConverter.serialize (timespan.py:104-143) *)
Definition span_date (day : bool) (d : datetime) (ps : xp) (zs : zones) : res (str * xp * zones) :=
  if day then Ok (date_serialize (wall d), dict_set VALUE (raw [py "DATE"]) ps, zs)
  else dt_serialize d ps zs.
Definition serialize_span {M} (a : aconv) (c : comp M) (zs : zones) : res (list item * zones) :=
  match get_attr (a_attr a) c with
  | AOne (VSpan t) =>
      let day := is_all_day t in
      do (its1, zs1) <-
        match ts_begin t with
        | None => Ok ([], zs)
        | Some b =>
            do ps <- single_params (py "BEGIN") c;
            do (s, ps', zs') <- span_date day b ps zs;
            Ok ([ILine (mk_line (py "DTSTART") ps' s)], zs')
        end;
      do (its2, zs2) <-
        match end_representation t with
        | None => Ok ([], zs1)
        | Some REnd =>
            let name := match ts_kind t with KTodo => py "DUE" | _ => py "DTEND" end in
            do ps <- single_params name c;
            do e <- eff_end E t;
            match e with
            | None => Err AttributeError
            | Some e => do (s, ps', zs') <- span_date day e ps zs1; Ok ([ILine (mk_line name ps' s)], zs')
            end
        | Some RDuration =>
            do ps <- single_params (py "DURATION") c;
            do d <- eff_duration E t;
            match d with
            | None => Err AssertionError
            | Some d => Ok ([ILine (mk_line (py "DURATION") ps (duration_serialize d))], zs1)
            end
        end;
      Ok (its1 ++ its2, zs2)
  | _ => Err AttributeError
  end.

(** [component.action] (alarm.py) *)
Definition action {M} (c : comp M) : res str :=
  match c_cls c with
  | CAudio => Ok (py "AUDIO")
  | CDisplay => Ok (py "DISPLAY")
  | CEmail => Ok (py "EMAIL")
  | CNone => Ok (py "NONE")
  | CCustom => match get_attr (py "_action") c with AOne (VStr s) => Ok s | _ => Err TypeError end
  | _ => Err AssertionError
  end.
(** AlarmActionConverter.serialize (various.py:110-118). The value is not checked when
    the line is made; the TypeError for a CustomAlarm without action comes when the line
    is written, as does that for parameters that are a list of dicts (AttributeError here). *)
Definition serialize_action {M} (c : comp M) (zs : zones) : res (list item * zones) :=
  do a <- action c;
  do ps <- single_params (py "ACTION") c;
  Ok ([ILine (mk_line (py "ACTION") ps a)], zs).

Section Dump.
Variable M : Type.
(** [value.to_container(context)] *)
Variable dump_m : M -> zones -> res (item * zones).

Fixpoint dump_list (l : list M) (zs : zones) : res (list item * zones) :=
  match l with
  | [] => Ok ([], zs)
  | m :: l' => do (it, zs1) <- dump_m m zs; do (its, zs2) <- dump_list l' zs1; Ok (it :: its, zs2)
  end.
Definition serialize_conv (a : aconv) (c : comp M) (zs : zones) : res (list item * zones) :=
  match a_kind a with
  | KVal convs multi _ _ =>
      let name := match a_names a with n :: _ => n | [] => [] end in
      if multi then serialize_multi a name convs c zs else serialize_single a name convs c zs
  | KSpan _ => serialize_span a c zs
  | KMember _ =>
      match dict_get (a_key a) (c_params c) with
      | Some (XOne (_ :: _)) | Some (XMany (_ :: _)) => Err ValueError
      | _ => dump_list (get_mem (a_attr a) c) zs
      end
  | KAction => serialize_action c zs
  | KZones => Ok ([], zs)
  end.
Fixpoint serialize_convs (l : list aconv) (c : comp M) (zs : zones) : res (list item * zones) :=
  match l with
  | [] => Ok ([], zs)
  | a :: l' =>
      do (its, zs1) <- serialize_conv a c zs;
      do (rest, zs2) <- serialize_convs l' c zs1;
      Ok (its ++ rest, zs2)
  end.
(** [serialize_toplevel] (component.py:162-185) *)
Definition dump_comp (c : comp M) (zs : zones) : res (item * zones) :=
  do (its, zs') <- serialize_convs (converters (c_cls c)) c zs;
  do it <- Container (c_name c) (its ++ c_extra c);
  Ok (it, zs').
End Dump.

(** ** The classes *)
Definition alarm := comp Empty_set.
Definition entry := comp alarm.
Definition calendar := comp entry.

(** AlarmMeta.load_instance (various.py:139-151) *)
Definition no_member (m : mkind) (n : str) (its : list item) (zs : zones) : res (Empty_set * zones) :=
  Err AssertionError.
Definition dump_none (m : Empty_set) (zs : zones) : res (item * zones) := match m with end.
Definition find_action (its : list item) : res str :=
  match filter (fun it => str_eqb (item_name it) (py "ACTION")) its with
  | [ILine l] => Ok (cl_value l)
  | [ICont _ _] => Err AttributeError
  | _ => Err ValueError
  end.
Definition load_alarm (n : str) (its : list item) (zs : zones) : res (alarm * zones) :=
  do a <- find_action its;
  load_comp Empty_set no_member (type_from_action a) n its zs.
Definition dump_alarm : alarm -> zones -> res (item * zones) := dump_comp Empty_set dump_none.

Definition entry_member (m : mkind) (n : str) (its : list item) (zs : zones) : res (alarm * zones) :=
  match m with MAlarm => load_alarm n its zs | _ => Err AssertionError end.
Definition load_entry (c : cls) : str -> list item -> zones -> res (entry * zones) :=
  load_comp alarm entry_member c.
Definition dump_entry : entry -> zones -> res (item * zones) := dump_comp alarm dump_alarm.

Definition calendar_member (m : mkind) (n : str) (its : list item) (zs : zones) : res (entry * zones) :=
  match m with
  | MEvent => load_entry CEvent n its zs
  | MTodo => load_entry CTodo n its zs
  | MAlarm => Err AssertionError
  end.
(** CalendarMeta._populate_attrs (calendar.py:25-38) *)
Fixpoint load_zones (its : list item) (zs : zones) : res zones :=
  match its with
  | [] => Ok zs
  | ICont n sub :: its' =>
      if str_eqb n (py "VTIMEZONE") then
        do (id, z) <- x_tz_load X sub;
        load_zones its' (match dict_get id zs with Some _ => zs | None => dict_set id z zs end)
      else load_zones its' zs
  | ILine _ :: its' => load_zones its' zs
  end.
(** [calendar.populate(container)] on a calendar that may already have contents. *)
Definition populate_calendar (c : calendar) (n : str) (its : list item) : res calendar :=
  if str_eqb n (py "VCALENDAR") then
    do zs <- load_zones its [];
    do (c', _) <- populate_instance entry calendar_member c n its zs;
    Ok c'
  else Err ValueError.
Definition load_calendar : str -> list item -> res calendar := populate_calendar (new_comp entry CCalendar).

(** CalendarMeta._serialize_attrs (calendar.py:40-57): the zones are inserted where
    CalendarTimezoneConverter would have written. *)
Fixpoint dump_zones (zs : zones) : res (list item) :=
  match zs with
  | [] => Ok []
  | (_, z) :: zs' => do it <- x_tz_dump X z; do r <- dump_zones zs'; Ok (it :: r)
  end.
Definition is_zones (a : aconv) : bool := match a_kind a with KZones => true | _ => false end.
Fixpoint before_zones (l : list aconv) : list aconv :=
  match l with [] => [] | a :: l' => if is_zones a then [] else a :: before_zones l' end.
Fixpoint after_zones (l : list aconv) : list aconv :=
  match l with [] => [] | a :: l' => if is_zones a then l' else after_zones l' end.
Definition dump_calendar (c : calendar) : res item :=
  do (its1, zs1) <- serialize_convs entry dump_entry (before_zones (converters CCalendar)) c [];
  do (its2, zs2) <- serialize_convs entry dump_entry (after_zones (converters CCalendar)) c zs1;
  do tzs <- dump_zones zs2;
  Container (c_name c) (its1 ++ tzs ++ its2 ++ c_extra c).

(** Reading and writing one component outside a calendar ([from_container],
    [to_container] without context). *)
Definition event_from_container (n : str) (its : list item) : res entry := rmap fst (load_entry CEvent n its []).
Definition todo_from_container (n : str) (its : list item) : res entry := rmap fst (load_entry CTodo n its []).
Definition to_container (c : entry) : res item := rmap fst (dump_entry c []).

(** [strip_extras] (component.py:70-94): which things are dropped. *)
Definition strip_extras {M} (properties params merging : bool) (c : comp M) : res (comp M) :=
  if negb (properties || params || merging) then Err ValueError
  else
    let c1 := if properties then set_extra [] c else c in
    Ok (if params then set_params [] c1
        else if merging then
          set_params (map (fun kv => (fst kv, match snd kv with
                                              | XMany l => XMany (map (dict_del MERGE) l)
                                              | XOne p => XOne p
                                              end)) (c_params c1)) c1
        else c1).
End Comp.
Arguments mk_lst {M}. Arguments l_comp {M}. Arguments l_count {M}. Arguments l_span {M}. Arguments l_zones {M}.
