(** * How the converters of a class are found from the declarations of its attributes

    src/ics/converter/base.py:131-139, 205-298, converter/component.py:70-117,
    converter/value.py:24-47, converter/types/{timespan,various,timezone,calendar}.py,
    ics/__init__.py:19-46, and the declarations themselves (component.py, event.py, todo.py,
    alarm.py, icalendar.py, timezone/__init__.py).

    Simplifications. A class is a constant. [Optional[T]] is [Union[T, None]], as in Python.
    The metadata entries "ics_converter" and "ics_type" do not occur. [d_set] stands for the
    arguments [converter] and [validator] of [attr.ib], see M_Comp. *)
From Verif Require Import M_Base M_Text M_Line M_Codec M_Cal M_Time M_Span M_Dt M_Tree M_Comp M_Rrule M_Zone M_Vtz.
Open Scope Z_scope.

(** ** Types *)
Inductive pyclass :=
  | Pstr | Pint | Pbool | Pfloat | Pbytes | Pbytearray | Pdatetime | Pdate | Ptime | Ptimedelta | PUTCOffset | PURL
  | PGeo | POrganizer | PAttendee | PTimespan | PEventTimespan | PTodoTimespan | Prruleset
  | PBaseAlarm | PEvent | PTodo | PCalendar | PTimezone | PTimezoneObservance | PContainer.
Scheme Equality for pyclass.
Inductive ty := TyClass (c : pyclass) | TyNone | TyUnion (l : list ty) | TyList (t : ty).
(** [issubclass(c, MutableSequence)]; Container is a MutableSequence. *)
Definition is_sequence (c : pyclass) : bool := match c with Pbytearray | PContainer => true | _ => false end.
Definition not_none (t : ty) : bool := match t with TyNone => false | _ => true end.
(** [unwrap_type] (base.py:260-288): is it a list, and the types of the values *)
Fixpoint unwrap_type (t : ty) : res (bool * list ty) :=
  match t with
  | TyUnion l =>
      match filter not_none l with
      | [] => Err IndexError
      | l' => Ok (false, l')
      end
  | TyList t' => do (m, l) <- unwrap_type t'; if m then Err AssertionError else Ok (true, l)
  | TyClass c => if is_sequence c then Err IndexError else Ok (false, [t])
  | TyNone => Err ValueError
  end.

(** ** Registered converters *)
Inductive anyconv :=
  | CBinary | CBoolean | CInteger | CFloat | CUri | CRawText | CText
  | CDatetime | CDate | CTime | COffset | CDuration | CPeriod | CGeo | COrganizer | CAttendee.
(** [ValueConverter.__init__] uses [setdefault] (valuetype/base.py:15-17); two lines assign. *)
Inductive registration := RDefault (t : pyclass) (c : anyconv) | RAssign (t : pyclass) (c : anyconv).
Definition registered (rs : list registration) (t : pyclass) : option anyconv :=
  fold_left (fun o r =>
    match r with
    | RDefault t' c => if pyclass_beq t t' then match o with Some _ => o | None => Some c end else o
    | RAssign t' c => if pyclass_beq t t' then Some c else o
    end) rs None.
(** generic.py, text.py, datetime.py, special.py, in the order of ics/__init__.py:22-26 *)
Definition VALUE_CONVERTERS : list registration := [
  RDefault Pbytes CBinary; RAssign Pbytearray CBinary; RDefault Pbool CBoolean; RDefault Pint CInteger;
  RDefault Pfloat CFloat; RDefault PURL CUri;
  RDefault Pstr CRawText; RDefault Pstr CText; RAssign Pstr CText;
  RDefault Pdatetime CDatetime; RDefault Pdate CDate; RDefault Ptime CTime; RDefault PUTCOffset COffset;
  RDefault Ptimedelta CDuration; RDefault PTimespan CPeriod;
  RDefault PGeo CGeo; RDefault POrganizer COrganizer; RDefault PAttendee CAttendee ].
Definition value_converter : pyclass -> option anyconv := registered VALUE_CONVERTERS.

(** Converters found for attributes. *)
Inductive dkind :=
  | DValue (convs : list anyconv) (multi required : bool) (set : setter)
  | DSpan                    (* TimespanConverter *)
  | DRules                   (* RecurrenceConverter *)
  | DMember (c : pyclass)    (* MemberComponentConverter *)
  | DObservances             (* TimezoneObservanceMemberMeta *)
  | DAction                  (* AlarmActionConverter *)
  | DZones.                  (* CalendarTimezoneConverter *)
Record dconv := mk_dconv { dc_attr : str; dc_names : list str; dc_prio : Z; dc_kind : dkind }.

(** [AttributeConverter.BY_TYPE] (timespan.py:149-151, various.py:96): kind, [filter_ics_names]
    and [default_priority] *)
Definition attribute_converter (t : pyclass) : option (dkind * list str * Z) :=
  match t with
  | PTimespan | PEventTimespan | PTodoTimespan => Some (DSpan, [py "DTSTART"; py "DTEND"; py "DUE"; py "DURATION"], 1000)
  | Prruleset => Some (DRules, [py "RRULE"; py "RDATE"; py "EXRULE"; py "EXDATE"; py "DTSTART"], 0)
  | _ => None
  end.
(** [ComponentMeta.BY_TYPE] (various.py:158-163, timezone.py:77-84, ics/__init__.py:39-40) *)
Definition component_converter (t : pyclass) : option (dkind * list str * Z) :=
  match t with
  | PBaseAlarm => Some (DMember PBaseAlarm, [py "VALARM"], 0)
  | PEvent => Some (DMember PEvent, [py "VEVENT"], 0)
  | PTodo => Some (DMember PTodo, [py "VTODO"], 0)
  | PTimezoneObservance => Some (DObservances, [py "STANDARD"; py "DAYLIGHT"], 0)
  | PTimezone => Some (DMember PTimezone, [py "VTIMEZONE"], 0)
  | _ => None
  end.

(** ** Declarations: [name: type = attr.ib(...)] *)
Record decl := mk_decl {
  d_name : str; d_type : ty;
  d_init : bool;                       (* init= *)
  d_default : bool;                    (* is there a default or factory *)
  d_ignore : option bool;              (* metadata "ics_ignore", "ics_priority", "ics_required", "ics_name" *)
  d_priority : option Z;
  d_required : option bool;
  d_ics_name : option str;
  d_set : setter }.

(** [ics_name] (value.py:37-42): [name.upper().replace("_", "-").strip("-")] *)
Definition dashes (s : str) : str := map (fun c => if N.eqb c 95 then 45%N else c) s.
Fixpoint lstrip_dash (s : str) : str :=
  match s with c :: s' => if N.eqb c 45 then lstrip_dash s' else s | [] => [] end.
Definition strip_dash (s : str) : str := rev (lstrip_dash (rev (lstrip_dash s))).
Definition ics_name (d : decl) : str :=
  match d_ics_name d with
  | Some (c :: n) => c :: n
  | _ => strip_dash (dashes (upper (d_name d)))
  end.
(** [is_required] (base.py:134-142) *)
Definition is_required (d : decl) : bool :=
  match d_required d with
  | Some b => b
  | None => if negb (d_init d) then false else negb (d_default d)
  end.
Definition priority (d : decl) (default : Z) : Z := match d_priority d with Some p => p | None => default end.

(** [AttributeValueConverter(attribute)] (value.py:24-35) *)
Fixpoint value_converters (l : list ty) : res (list anyconv) :=
  match l with
  | [] => Ok []
  | t :: l' =>
      match t with
      | TyClass c =>
          match value_converter c with
          | Some v => do vs <- value_converters l'; Ok (v :: vs)
          | None => Err ValueError
          end
      | _ => Err ValueError
      end
  end.
(** [get_converter_for] (base.py:204-240) *)
Definition get_converter_for (d : decl) : res (option dconv) :=
  if match d_ignore d with Some b => b | None => negb (d_init d) end then Ok None
  else
    do (multi, l) <- unwrap_type (d_type d);
    let found :=
      match l with
      | [TyClass c] => match component_converter c with Some k => Some k | None => attribute_converter c end
      | _ => None
      end in
    match found with
    | Some (k, names, prio) => Ok (Some (mk_dconv (d_name d) names (priority d prio) k))
    | None =>
        do vs <- value_converters l;
        Ok (Some (mk_dconv (d_name d) [ics_name d] (priority d 0) (DValue vs multi (is_required d) (d_set d))))
    end.
Fixpoint get_all (ds : list decl) : res (list dconv) :=
  match ds with
  | [] => Ok []
  | d :: ds' =>
      do o <- get_converter_for d;
      do r <- get_all ds';
      Ok (match o with Some c => c :: r | None => r end)
  end.

(** [sort_converters] (base.py:291-298): [sorted(..., reverse=True)] is stable. *)
Fixpoint insert_d (a : dconv) (l : list dconv) : list dconv :=
  match l with
  | [] => [a]
  | b :: l' => if dc_prio b <? dc_prio a then a :: l else b :: insert_d a l'
  end.
Definition sort_d (l : list dconv) : list dconv := fold_left (fun acc a => insert_d a acc) l [].

(** ** The declarations *)
Definition opt (c : pyclass) : ty := TyUnion [TyClass c; TyNone].
Definition ib (name : str) (t : ty) (default : bool) (s : setter) : decl :=
  mk_decl name t true default None None None None s.
Definition ib_prio (name : str) (t : ty) (default : bool) (p : Z) (s : setter) : decl :=
  mk_decl name t true default None (Some p) None None s.
Definition ib_name (name : str) (t : ty) (default : bool) (n : str) : decl :=
  mk_decl name t true default None None None (Some n) SPlain.

(** [attr.fields]: those of the base class that are not declared again, then the own ones. *)
Definition extend (base own : list decl) : list decl :=
  filter (fun d => negb (existsb (fun e => str_eqb (d_name d) (d_name e)) own)) base ++ own.
(** Component (component.py:18-26); the type of extra_params is a dict, shown as a list. *)
Definition Component_decls : list decl := [
  mk_decl (py "extra") (TyClass PContainer) false false (Some true) None None None SPlain;
  mk_decl (py "extra_params") (TyList (TyClass Pstr)) false true (Some true) None None None SPlain ].
(** CalendarEntryAttrs (event.py:55-71) *)
Definition CalendarEntryAttrs_decls : list decl := extend Component_decls [
  ib (py "timespan") (TyClass PTimespan) false SPlain;
  ib (py "summary") (opt Pstr) true SPlain;
  ib (py "uid") (TyClass Pstr) true SPlain;
  ib (py "description") (opt Pstr) true SPlain;
  ib (py "location") (opt Pstr) true SPlain;
  ib (py "url") (TyUnion [TyNone; TyClass Pstr; TyClass PURL]) true SPlain;
  ib (py "status") (opt Pstr) true SStatus;
  ib (py "created") (opt Pdatetime) true SUtc;
  ib (py "last_modified") (opt Pdatetime) true SUtc;
  ib (py "dtstamp") (TyClass Pdatetime) true SUtc;
  ib (py "alarms") (TyList (TyClass PBaseAlarm)) true SPlain;
  ib (py "attach") (TyList (TyUnion [TyClass PURL; TyClass Pbytes])) true SPlain ].
(** EventAttrs (event.py:251-266) *)
Definition EventAttrs_decls : list decl := extend CalendarEntryAttrs_decls [
  ib (py "classification") (opt Pstr) true SStr;
  ib (py "transparent") (opt Pbool) true SPlain;
  ib (py "organizer") (opt POrganizer) true SOrganizer;
  ib (py "geo") (opt PGeo) true SGeo;
  ib_name (py "attendees") (TyList (TyClass PAttendee)) true (py "ATTENDEE");
  ib (py "categories") (TyList (TyClass Pstr)) true SPlain ].
(** TodoAttrs (todo.py:22-29) *)
Definition TodoAttrs_decls : list decl := extend CalendarEntryAttrs_decls [
  ib (py "percent") (opt Pint) true (SRange 100);
  ib (py "priority") (opt Pint) true (SRange 9);
  ib (py "completed") (opt Pdatetime) true SDatetime ].
(** CalendarAttrs (icalendar.py:16-32) *)
Definition CalendarAttrs_decls : list decl := extend Component_decls [
  ib_prio (py "version") (TyClass Pstr) false 1000 SStr;
  ib_prio (py "prodid") (TyClass Pstr) false 900 SStr;
  ib_prio (py "scale") (opt Pstr) true 800 SPlain;
  ib_prio (py "method") (opt Pstr) true 700 SPlain;
  ib_prio (py "events") (TyList (TyClass PEvent)) true (-100) SPlain;
  ib_prio (py "todos") (TyList (TyClass PTodo)) true (-200) SPlain ].
(** BaseAlarm and its subclasses (alarm.py:34-38, 53, 66, 79, 92-97, 109) *)
Definition BaseAlarm_decls : list decl := extend Component_decls [
  ib (py "trigger") (TyUnion [TyClass Ptimedelta; TyClass Pdatetime; TyNone]) true STrigger;
  ib (py "repeat") (TyClass Pint) true SPlain;
  ib (py "duration") (TyClass Ptimedelta) true STimedelta ].
Definition alarm_attach : ty := TyUnion [TyClass PURL; TyClass Pbytes; TyNone].
Definition decls (c : cls) : list decl :=
  match c with
  | CEvent => EventAttrs_decls
  | CTodo => TodoAttrs_decls
  | CCalendar => CalendarAttrs_decls
  | CAudio => extend BaseAlarm_decls [ib (py "attach") alarm_attach true SPlain]
  | CCustom => extend BaseAlarm_decls [ib (py "_action") (TyClass Pstr) true SPlain]
  | CDisplay => extend BaseAlarm_decls [ib (py "description") (TyClass Pstr) true SPlain]
  | CEmail => extend BaseAlarm_decls [
      ib (py "summary") (TyClass Pstr) true SPlain;
      ib (py "description") (TyClass Pstr) true SPlain;
      ib_name (py "attendees") (TyList (TyClass PAttendee)) true (py "ATTENDEE");
      ib (py "attach") (TyList alarm_attach) true SPlain ]
  | CNone => BaseAlarm_decls
  end.
(** TimezoneObservance, Timezone (timezone/__init__.py:101-110, 130-137) *)
Definition Observance_decls : list decl := extend Component_decls [
  ib (py "tzoffsetfrom") (TyClass PUTCOffset) false SPlain;
  ib (py "tzoffsetto") (TyClass PUTCOffset) false SPlain;
  ib (py "rrule") (TyClass Prruleset) false SPlain;
  ib (py "tzname") (opt Pstr) true SPlain;
  ib (py "comment") (opt Pstr) true SPlain ].
Definition Timezone_decls : list decl := extend Component_decls [
  ib (py "tzid") (TyClass Pstr) false SPlain;
  ib (py "observances") (TyList (TyClass PTimezoneObservance)) true SPlain;
  ib (py "tzurl") (opt PURL) true SPlain;
  ib (py "last_modified") (opt Pdatetime) true SUtc ].

(** [find_converters] (component.py:108-116), of AlarmMeta (various.py:131-142) and of
    CalendarMeta (calendar.py:20-23) *)
Definition ACTION_CONVERTER : dconv := mk_dconv [] [py "ACTION"] 1000 DAction.
Definition ZONE_CONVERTER : dconv := mk_dconv [] [py "VTIMEZONE"] 600 DZones.
Definition find_plain (ds : list decl) : res (list dconv) := rmap sort_d (get_all ds).
Definition find_converters (c : cls) : res (list dconv) :=
  match c with
  | CEvent | CTodo => find_plain (decls c)
  | CCalendar => rmap (fun l => sort_d (l ++ [ZONE_CONVERTER])) (find_plain (decls c))
  | _ => rmap (fun l => sort_d (l ++ [ACTION_CONVERTER])) (get_all (decls c))
  end.
(** [converter_lookup] (component.py:81-102): a [defaultdict(list)]. *)
Definition add_lookup (a : dconv) (d : list (str * list dconv)) (name : str) : list (str * list dconv) :=
  dict_set name (match dict_get name d with Some l => l ++ [a] | None => [a] end) d.
Definition converter_lookup (l : list dconv) : list (str * list dconv) :=
  fold_left (fun d a => fold_left (add_lookup a) (dc_names a) d) l [].
