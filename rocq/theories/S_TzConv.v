(** * Specification: zone objects and the time zone definitions made of them *)
From Verif Require Import S_Codec.
From Verif Require Import M_Base M_Line M_Codec M_Cal M_Time M_Span M_Dt M_Tree M_Comp M_Open M_Rrule M_Zone M_Vtz M_TzConv.
Open Scope Z_scope.

(** ** What the objects say themselves *)
(** [utcoffset] of those with one offset *)
Definition own_offset (t : tzinfo) : option Z :=
  match t with
  | TBuiltin off _ | TUtilOffset off _ | TPytzStatic _ _ off | TPytzReference _ _ off | TPytzFixed off _ => Some off
  | TUtilUtc | TPytzUtc => Some 0
  | _ => None
  end.
(** [tzname] of those that are converted by it *)
Definition own_name (t : tzinfo) : option (list N) :=
  match t with
  | TBuiltin off name => Some (builtin_name off name)
  | TPytzStatic _ name _ | TPytzReference name _ _ => Some name
  | _ => None
  end.
(** Called UTC, in any case of letters. *)
Definition called_utc (s : list N) : Prop := upper s = py "UTC" \/ upper s = py "ETC/UTC".
(** No text of the object that is looked at says UTC where the offset is another one. *)
Definition honest (t : tzinfo) : Prop := forall off, own_offset t = Some off ->
  called_utc (tz_str t) \/ (exists n, own_name t = Some n /\ called_utc n) -> off = 0.
(** The objects that stand for UTC *)
Inductive means_utc : tzinfo -> Prop :=
  | mu_builtin name : means_utc (TBuiltin 0 name)
  | mu_util : means_utc TUtilUtc
  | mu_offset text : means_utc (TUtilOffset 0 text)
  | mu_local text : means_utc (TUtilLocal true text)
  | mu_other text : means_utc (TOther true text)
  | mu_called t : called_utc (tz_str t) -> means_utc t.
(** Those that stand for the zone of the computer *)
Inductive stands_for_local : tzinfo -> Prop :=
  | sl_file p text : stands_for_local (TUtilFile (Some (p ++ py "localtime")) text)
  | sl_winlocal text : stands_for_local (TUtilWinLocal text)
  | sl_local b text : stands_for_local (TUtilLocal b text)
  | sl_pytz text : stands_for_local (TPytzLocal text).
(** Those that have the name of a zone of the data base *)
Inductive named : tzinfo -> list N -> Prop :=
  | nm_info n text : n <> [] -> named (TZoneInfo (Some n) text) n
  | nm_file n text : n <> [] -> (forall p, n <> p ++ py "localtime") -> named (TUtilFile (Some n) text) n
  | nm_win n text : named (TUtilWin n text) n.

(** ** What is made of them *)
(** A zone with one offset at all times, whatever was asked before and whatever its rules are. *)
Definition fixed_at (z : timezone) (off : Z) (name : option (list N)) : Prop :=
  forall before h q w f,
    let l := map (as_obs before) (t_obs z) in
    snd (ask l (after l [] h) q w f) =
      Ok match q with QOffset => AOffset off | QDst => ADst 0 | QName => AName name end.

(** Data base of zone definitions: the file of the name, or else of the name that the
    Windows name stands for. *)
Inductive file_for (find_file windows_to_olson : list N -> option (list N)) (n txt : list N) : Prop :=
  | ff_own : find_file n = Some txt -> file_for find_file windows_to_olson n txt
  | ff_windows o : find_file n = None -> windows_to_olson n = Some o -> find_file o = Some txt ->
      file_for find_file windows_to_olson n txt.
(** A calendar with two items and then the zone, and nothing after it *)
Definition holds_zone (txt : list N) (its : list item) : Prop :=
  exists c a b, string_to_containers txt = ([ICont c [a; b; ICont (py "VTIMEZONE") its]], None).

(** ** Datetimes *)
(** The zone objects [tz] of datetimes are described by [obj]; [inj] gives the objects
    that are the definitions made of them. *)
Record describes (E : env) (before : ruleset -> Z -> option Z) (obj : tz -> tzinfo) (inj : timezone -> tz) (utc : tz) : Prop := mk_describes {
  ds_inj : forall z n off, own_name (obj z) = Some n -> own_offset (obj z) = Some off ->
    obj (inj (Timezone_from_offset n off)) = TIcs (Timezone_from_offset n off);
  ds_utc : obj utc = TUtilUtc;
  ds_off : forall z off w f, own_offset (obj z) = Some off -> tz_off E z w f = off;
  ds_zone : forall z t w f a, obj z = TIcs t ->
    snd (ask (map (as_obs before) (t_obs t)) [] QOffset w f) = Ok (AOffset a) -> tz_off E z w f = a }.
(** The services of the converters of values, by the functions of this file's model *)
Definition zdb_of (X : ext) rule_parse date_parse find_file windows_to_olson
  (obj : tz -> tzinfo) (inj : timezone -> tz) (gettz : list N -> option tz) (utc : tz) : zone_db :=
  mk_zdb (fun z => is_utc (obj z))
    (fun z => rmap (option_map (fun t => (t_id t, inj t)))
       (Timezone_from_tzinfo X rule_parse date_parse find_file windows_to_olson (obj z)))
    (fun n => rmap inj (Timezone_from_tzid X rule_parse date_parse find_file windows_to_olson n))
    gettz utc.
(** Objects with one offset that are converted *)
Definition supported (t : tzinfo) : Prop :=
  match t with
  | TBuiltin _ _ | TUtilUtc | TPytzUtc | TPytzStatic _ _ _ | TPytzReference _ _ _ => True
  | TUtilOffset off _ => off = 0
  | _ => False
  end.
(** Many datetimes written with one table of zones *)
Fixpoint write_all (D : zone_db) (ds : list datetime) (zs : zones) : res (list (list N * params) * zones) :=
  match ds with
  | [] => Ok ([], zs)
  | d :: ds' =>
      do (s, ps, o) <- datetime_serialize D d [] (Some zs);
      match o with
      | Some zs' => do (r, zs'') <- write_all D ds' zs'; Ok ((s, ps) :: r, zs'')
      | None => Err AttributeError
      end
  end.
Definition writable (obj : tz -> tzinfo) (d : datetime) : Prop :=
  wall_ok (wall d) = true /\ wall d mod US_SEC = 0 /\ 1000 <= f_y (fields_of (wall d)) /\
  exists z off, dtz d = Some z /\ own_offset (obj z) = Some off /\ honest (obj z) /\ supported (obj z) /\ own_name (obj z) <> Some [].
(** One name, one offset. *)
Definition names_agree (obj : tz -> tzinfo) (ds : list datetime) : Prop := forall d d' z z' n,
  In d ds -> In d' ds -> dtz d = Some z -> dtz d' = Some z' -> own_name (obj z) = Some n -> own_name (obj z') = Some n ->
  own_offset (obj z) = own_offset (obj z').
Definition read_same (D : zone_db) (E : env) (zs : zones) (d : datetime) (p : list N * params) : Prop :=
  exists d' qs zs', datetime_parse D (fst p) (snd p) (Some zs) = Ok (d', qs, zs') /\ wall d' = wall d /\ instant E d' = instant E d.

(** The rule of definitions with one offset, which dateutil has to read back *)
Definition EPOCH : Z := mk_wall 1970 1 1 0 0 0 0.
Definition reads_epoch (rule_parse : option Z -> list N -> res rule) : Prop :=
  rule_parse (Some EPOCH) (py "FREQ=YEARLY;COUNT=1") = Ok (mk_rule (Some EPOCH) (py "FREQ=YEARLY;COUNT=1")).

(** Calls one after the other that share a context, with what is in its cache *)
Fixpoint run (X : ext) rule_parse date_parse find_file windows_to_olson (ts : list tzinfo) (c : option tz_cache) : list (res (option timezone)) :=
  match ts with
  | [] => []
  | t :: ts' =>
      let (r, c') := from_tzinfo X rule_parse date_parse find_file windows_to_olson t c in
      r :: run X rule_parse date_parse find_file windows_to_olson ts' c'
  end.

(** ** Names of offsets, as [datetime.timezone] gives them: the sign, hours, minutes and, if
    they are not 0, seconds and microseconds *)
Inductive offset_name : list N -> Z -> Prop :=
  | ON_utc : offset_name (py "UTC") 0
  | ON_hm sign k hh h mm m : sign = py "+" /\ k = 1 \/ sign = py "-" /\ k = -1 ->
      two_digits hh h -> two_digits mm m -> m < 60 -> offset_name (py "UTC" ++ sign ++ hh ++ py ":" ++ mm) (k * ((3600 * h + 60 * m) * US_SEC))
  | ON_hms sign k hh h mm m ss s : sign = py "+" /\ k = 1 \/ sign = py "-" /\ k = -1 ->
      two_digits hh h -> two_digits mm m -> two_digits ss s -> m < 60 -> s < 60 ->
      offset_name (py "UTC" ++ sign ++ hh ++ py ":" ++ mm ++ py ":" ++ ss) (k * ((3600 * h + 60 * m + s) * US_SEC))
  | ON_us sign k hh h mm m ss s uu u : sign = py "+" /\ k = 1 \/ sign = py "-" /\ k = -1 ->
      two_digits hh h -> two_digits mm m -> two_digits ss s -> m < 60 -> s < 60 -> length uu = 6%nat -> number uu u ->
      offset_name (py "UTC" ++ sign ++ hh ++ py ":" ++ mm ++ py ":" ++ ss ++ py "." ++ uu) (k * ((3600 * h + 60 * m + s) * US_SEC + u)).
