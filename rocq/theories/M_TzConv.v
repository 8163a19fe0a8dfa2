(** * Making time zone definitions from tzinfo objects

    src/ics/timezone/converters.py, src/ics/timezone/__init__.py:63-82 (is_utc), 142-165
    (from_tzid, from_tzinfo, is_builtin, to_builtin) and 233-246 (UTC).

    Simplifications. The tzinfo classes of the standard library, dateutil and pytz that the
    code tells apart are the constructors of [tzinfo], with the data the code looks at; [text]
    is [str(tz)]. Subclasses of them are not modelled, nor the [ZoneInfo] class of another
    package (an AssertionError). [type(tz).__qualname__ == "pytz.UTC"] is never true, as a
    qualified name does not contain the module. The data package [ics_vtimezones] is given by
    three functions. *)
From Verif Require Import M_Base M_Text M_Line M_Codec M_Cal M_Time M_Span M_Dt M_Tree M_Comp M_Open M_Rrule M_Zone M_Vtz.
Open Scope Z_scope.

Inductive tzinfo :=
  | TIcs (z : timezone)                          (* ics.Timezone *)
  | TBuiltin (off : Z) (name : option str)       (* datetime.timezone(off, name) *)
  | TZoneInfo (key : option str) (text : str)    (* zoneinfo.ZoneInfo *)
  | TUtilUtc                                     (* dateutil.tz.tzutc *)
  | TUtilOffset (off : Z) (text : str)           (* dateutil.tz.tzoffset *)
  | TUtilFile (file : option str) (text : str)   (* dateutil.tz.tzfile *)
  | TUtilWin (name text : str)                   (* dateutil.tz.tzwin *)
  | TUtilWinLocal (text : str)                   (* dateutil.tz.tzwinlocal *)
  | TUtilLocal (like_utc : bool) (text : str)    (* dateutil.tz.tzlocal *)
  | TUtilRule (text : str)                       (* dateutil.tz.tzstr, tzical, tzrange *)
  | TPytzUtc                                     (* pytz.utc *)
  | TPytzDst (zone : str)                        (* pytz.tzinfo.DstTzInfo *)
  | TPytzStatic (zone name : str) (off : Z)      (* pytz.tzinfo.StaticTzInfo *)
  | TPytzReference (name text : str) (off : Z)   (* pytz.reference.FixedOffset *)
  | TPytzLocal (text : str)                      (* pytz.reference.LocalTimezone *)
  | TPytzUS (text : str)                         (* pytz.reference.USTimeZone *)
  | TPytzFixed (off : Z) (text : str)            (* pytz.FixedOffset(off) *)
  | TOther (eq : bool) (text : str).             (* any other class; [eq]: equal to a UTC object *)

(** [datetime.timezone._name_from_offset] (Lib/datetime.py) *)
Definition pad2 (n : Z) : str := pad 2 (Z.to_N n).
Definition name_from_offset (off : Z) : str :=
  if off =? 0 then py "UTC"
  else
    let d := Z.abs off in
    let us := d mod US_SEC in let s := d / US_SEC in
    py "UTC" ++ (if off <? 0 then py "-" else py "+") ++ pad2 (s / 3600) ++ py ":" ++ pad2 (s / 60 mod 60) ++
      (if us =? 0 then if s mod 60 =? 0 then [] else py ":" ++ pad2 (s mod 60)
       else py ":" ++ pad2 (s mod 60) ++ py "." ++ pad 6 (Z.to_N us)).
(** [datetime.timezone.tzname(None)], also its [str()] *)
Definition builtin_name (off : Z) (name : option str) : str :=
  match name with Some n => n | None => name_from_offset off end.

(** [str(tz)] *)
Definition tz_str (t : tzinfo) : str :=
  match t with
  | TIcs z => t_id z
  | TBuiltin off name => builtin_name off name
  | TZoneInfo key text => match key with Some k => k | None => text end
  | TUtilUtc => py "tzutc()"
  | TPytzUtc => py "UTC"
  | TPytzDst zone | TPytzStatic zone _ _ => zone
  | TUtilOffset _ text | TUtilFile _ text | TUtilWin _ text | TUtilWinLocal text | TUtilLocal _ text
  | TUtilRule text | TPytzReference _ text _ | TPytzLocal text | TPytzUS text | TPytzFixed _ text | TOther _ text => text
  end.
(** [tz in [datetime.timezone.utc, dateutil.tz.UTC, UTC]] (timezone/__init__.py:71):
    datetime.timezone compares the offset only; dateutil's UTC is equal to every tzoffset
    of 0 and to a tzlocal on a computer in UTC. A Timezone equal to [UTC] has its TZID,
    which is asked for separately below. *)
Definition eq_utc (t : tzinfo) : bool :=
  match t with
  | TBuiltin off _ | TUtilOffset off _ => off =? 0
  | TUtilUtc => true
  | TUtilLocal b _ | TOther b _ => b
  | _ => false
  end.
(** [is_utc] (timezone/__init__.py:63-82) of a tzinfo object *)
Definition UTC_NAMES : list str := [py "UTC"; py "ETC/UTC"].
Definition utc_name (s : str) : bool := existsb (str_eqb (upper s)) UTC_NAMES.
Definition is_utc (t : tzinfo) : bool :=
  eq_utc t || match t with TUtilUtc => true | _ => false end ||
  match t with TIcs z => utc_name (t_id z) | _ => false end || utc_name (tz_str t).

(** [RRULE_EPOCH_START] (timezone/__init__.py:233-235); the converter of the attribute
    makes a recurrence set of it (91-98). *)
Definition EPOCH_START : ruleset :=
  mk_set [mk_rule (Some (mk_wall 1970 1 1 0 0 0 0)) (py "FREQ=YEARLY;COUNT=1")] [] [] [].
(** [Timezone_from_offset] (converters.py:94-105) *)
Definition Timezone_from_offset (name : str) (off : Z) : timezone :=
  mk_timezone name [mk_observance false 0 off EPOCH_START (Some name) None [] []] None None [] [].
(** [UTC] (timezone/__init__.py:236-246) *)
Definition UTC : timezone := Timezone_from_offset (py "UTC") 0.

Inductive result := RZone (z : timezone) | RContinue | RLocal | RUnserializable | RNotImplemented.

Section Convert.
Variable X : ext.
(** dateutil's reader of rules and dates (M_Rrule). *)
Variable rule_parse : option Z -> str -> res rule.
Variable date_parse : str -> res Z.
(** [find_vtimezone_ics_file(tzid)] and [read_text] of it, [windows_to_olson(tzid)] (None
    also for an empty name), [BUILTIN_TZID_PREFIX]. *)
Variable find_file : str -> option str.
Variable windows_to_olson : str -> option str.
Variable PREFIX : str.

(** [Timezone_from_tzid] (converters.py:35-48). Indexing and [len] of a container are those
    of its items; an item that is a line is no VTIMEZONE component, and is rejected when it
    is read. *)
Definition tz_file (tzid : str) : option str :=
  match find_file tzid with
  | Some f => Some f
  | None => match windows_to_olson tzid with Some o => find_file o | None => None end
  end.
Definition Timezone_from_tzid (tzid : str) : res timezone :=
  match tz_file tzid with
  | None => Err ValueError
  | Some txt =>
      do cal <- one (string_to_containers txt);
      match cal with
      | ICont _ [_; _; ICont n its] =>
          if str_eqb n (py "VTIMEZONE") then load_zone X rule_parse date_parse n its else Err ValueError
      | ICont _ [_; _; ILine l] => if str_eqb (cl_name l) (py "VTIMEZONE") then Err TypeError else Err ValueError
      | ICont _ _ => Err ValueError
      | ILine _ => Err TypeError
      end
  end.

(** [Timezone_from_builtin], [_dateutil], [_pytz] (converters.py:108-178) *)
Definition from_builtin (t : tzinfo) : res result :=
  match t with
  | TBuiltin off name => Ok (RZone (Timezone_from_offset (builtin_name off name) off))
  | TZoneInfo key _ =>
      match key with
      | Some (c :: k) => rmap RZone (Timezone_from_tzid (c :: k))
      | _ => Ok RUnserializable
      end
  | _ => Ok RContinue
  end.
(** [str.startswith], [str.endswith] *)
Fixpoint starts_with (p s : str) : bool :=
  match p, s with
  | [], _ => true
  | c :: p', d :: s' => N.eqb c d && starts_with p' s'
  | _, [] => false
  end.
Definition ends_with (suffix s : str) : bool := starts_with (rev suffix) (rev s).
Definition from_dateutil (t : tzinfo) : res result :=
  match t with
  | TUtilFile file _ =>
      match file with
      | Some (c :: f) => if ends_with (py "localtime") (c :: f) then Ok RLocal else rmap RZone (Timezone_from_tzid (c :: f))
      | _ => Ok RUnserializable
      end
  | TUtilWin name _ => rmap RZone (Timezone_from_tzid name)
  | TUtilWinLocal _ | TUtilLocal _ _ => Ok RLocal
  | TUtilRule _ => Ok RNotImplemented
  | _ => Ok RContinue
  end.
Definition from_pytz (t : tzinfo) : res result :=
  match t with
  | TPytzUtc => Ok (RZone UTC)
  | TPytzDst _ | TPytzUS _ => Ok RNotImplemented
  | TPytzStatic _ name off | TPytzReference name _ off => Ok (RZone (Timezone_from_offset name off))
  | TPytzLocal _ => Ok RLocal
  | _ => Ok RContinue
  end.
Definition TIMEZONE_CONVERTERS : list (tzinfo -> res result) := [from_builtin; from_dateutil; from_pytz].

(** The loop of [Timezone_from_tzinfo] (converters.py:74-90) *)
Fixpoint try_all (fs : list (tzinfo -> res result)) (t : tzinfo) : res (option timezone) :=
  match fs with
  | [] => Err ValueError
  | f :: fs' =>
      do r <- f t;
      match r with
      | RContinue => try_all fs' t
      | RLocal => Ok None
      | RUnserializable | RNotImplemented => Err ValueError
      | RZone z => Ok (Some z)
      end
  end.
(** [Timezone_from_tzinfo] (converters.py:51-91). The entry "tzinfo_CACHE" of the context:
    [None] if there is none yet. The dictionary [cache] made by a call becomes the entry
    only if there is none (line 62), and the call looks and stores into its own one, so
    that a later call with the same context finds nothing. *)
Definition tz_cache := list (tzinfo * option timezone).
Definition from_tzinfo (t : tzinfo) (entry : option tz_cache) : res (option timezone) * option tz_cache :=
  match t with
  | TIcs z => (Ok (Some z), entry)
  | _ =>
      if is_utc t then (Ok (Some UTC), entry)
      else
        let r := try_all TIMEZONE_CONVERTERS t in
        (r, match entry with
            | Some c => Some c
            | None => Some (match r with Ok z => [(t, z)] | Err _ => [] end)
            end)
  end.
Definition Timezone_from_tzinfo (t : tzinfo) : res (option timezone) := fst (from_tzinfo t None).

(** [Timezone.is_builtin], [to_builtin] (timezone/__init__.py:153-170), without the warning. *)
Definition is_builtin (z : timezone) : bool := is_utc (TIcs z) || starts_with PREFIX (t_id z).
Definition to_builtin (z : timezone) : res timezone := if is_builtin z then Ok z else Timezone_from_tzid (t_id z).
End Convert.
