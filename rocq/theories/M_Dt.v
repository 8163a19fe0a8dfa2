(** * DATE, DATE-TIME, TIME and PERIOD values (src/ics/valuetype/datetime.py) *)
From Verif Require Import M_Base M_Codec M_Cal M_Time M_Span.
Open Scope Z_scope.

(** Zone services used by the converters: [is_utc] (timezone/__init__.py:63-82),
    [Timezone.from_tzinfo] (result: identifier and Timezone object, or None for local
    zones, or ValueError), [Timezone.from_tzid], [dateutil.tz.gettz] and
    [dateutil.tz.UTC]. *)
Record zone_db := mk_zdb {
  z_is_utc : tz -> bool;
  z_from_tzinfo : tz -> res (option (str * tz));
  z_from_tzid : str -> res tz;
  z_gettz : str -> option tz;
  z_utc : tz
}.

(** Extra parameters of a line: names with their values. *)
Definition params := dict (list str).
(** The relevant part of the context: the zones available by TZID. *)
Definition zones := dict tz.

(** [strftime] with the formats used (glibc: years below 1000 are not padded). *)
Definition z2 (n : Z) : str := pad 2 (Z.to_N n).
Definition fmt_date (f : fields) : str := dec (Z.to_N (f_y f)) ++ z2 (f_m f) ++ z2 (f_d f).
Definition fmt_time (f : fields) : str := z2 (f_H f) ++ z2 (f_M f) ++ z2 (f_S f).
Definition fmt_datetime (w : Z) : str :=
  let f := fields_of w in fmt_date f ++ py "T" ++ fmt_time f.

(** [strptime] for the formats of DATE-TIME and DATE (CPython 3.11 _strptime: the format
    is turned into a regular expression; as the length of the text is the sum of the
    maximal field widths, each field takes its full width). ASCII digits only. *)
Definition two (c d : char) : option Z :=
  if is_digit c && is_digit d then Some (Z.of_N (undec [c; d])) else None.
Definition two_in (lo hi : Z) (c d : char) : option Z :=
  match two c d with
  | Some v => if (lo <=? v) && (v <=? hi) then Some v else None
  | None => None
  end.
(** [%d] also accepts a space before a non-zero digit. *)
Definition day_in (c d : char) : option Z :=
  if N.eqb c c_space then
    if is_digit d && negb (N.eqb d 48) then Some (Z.of_N (undec [d])) else None
  else two_in 1 31 c d.
Definition four (a b c d : char) : option Z :=
  if is_digit a && is_digit b && is_digit c && is_digit d then Some (Z.of_N (undec [a; b; c; d])) else None.

Definition opt_bind {A B} (o : option A) (f : A -> option B) : option B :=
  match o with Some a => f a | None => None end.
Notation "'let?' x := o 'in' k" := (opt_bind o (fun x => k)) (at level 200, x pattern).

(** [datetime(y, m, d, H, M, S)] *)
Definition mk_datetime (y m d hh mi ss : Z) : option Z :=
  if valid_date y m d && valid_time hh mi ss 0 then Some (mk_wall y m d hh mi ss 0) else None.
Definition is_T (c : char) : bool := N.eqb c 84 || N.eqb c 116.
Definition strptime_ym (s : str) : option Z :=
  match s with
  | [y1; y2; y3; y4; m1; m2] =>
      let? y := four y1 y2 y3 y4 in let? m := two_in 1 12 m1 m2 in mk_datetime y m 1 0 0 0
  | _ => None
  end.
Definition strptime_ymd (s : str) : option Z :=
  match s with
  | [y1; y2; y3; y4; m1; m2; d1; d2] =>
      let? y := four y1 y2 y3 y4 in let? m := two_in 1 12 m1 m2 in
      let? d := day_in d1 d2 in mk_datetime y m d 0 0 0
  | _ => None
  end.
Definition strptime_ymdh (s : str) : option Z :=
  match s with
  | [y1; y2; y3; y4; m1; m2; d1; d2; t; h1; h2] =>
      if is_T t then
        let? y := four y1 y2 y3 y4 in let? m := two_in 1 12 m1 m2 in
        let? d := day_in d1 d2 in let? hh := two_in 0 23 h1 h2 in mk_datetime y m d hh 0 0
      else None
  | _ => None
  end.
Definition strptime_ymdhm (s : str) : option Z :=
  match s with
  | [y1; y2; y3; y4; m1; m2; d1; d2; t; h1; h2; n1; n2] =>
      if is_T t then
        let? y := four y1 y2 y3 y4 in let? m := two_in 1 12 m1 m2 in
        let? d := day_in d1 d2 in let? hh := two_in 0 23 h1 h2 in
        let? mi := two_in 0 59 n1 n2 in mk_datetime y m d hh mi 0
      else None
  | _ => None
  end.
(** [%S] matches up to 61; 60 and 61 are rejected by the constructor. *)
Definition strptime_ymdhms (s : str) : option Z :=
  match s with
  | [y1; y2; y3; y4; m1; m2; d1; d2; t; h1; h2; n1; n2; s1; s2] =>
      if is_T t then
        let? y := four y1 y2 y3 y4 in let? m := two_in 1 12 m1 m2 in
        let? d := day_in d1 d2 in let? hh := two_in 0 23 h1 h2 in
        let? mi := two_in 0 59 n1 n2 in let? ss := two_in 0 61 s1 s2 in mk_datetime y m d hh mi ss
      else None
  | _ => None
  end.

(** Without a date the result is on 1 January 1900. *)
Definition strptime_h (s : str) : option Z :=
  match s with
  | [h1; h2] => let? hh := two_in 0 23 h1 h2 in mk_datetime 1900 1 1 hh 0 0
  | _ => None
  end.
Definition strptime_hm (s : str) : option Z :=
  match s with
  | [h1; h2; n1; n2] =>
      let? hh := two_in 0 23 h1 h2 in let? mi := two_in 0 59 n1 n2 in mk_datetime 1900 1 1 hh mi 0
  | _ => None
  end.
Definition strptime_hms (s : str) : option Z :=
  match s with
  | [h1; h2; n1; n2; s1; s2] =>
      let? hh := two_in 0 23 h1 h2 in let? mi := two_in 0 59 n1 n2 in
      let? ss := two_in 0 61 s1 s2 in mk_datetime 1900 1 1 hh mi ss
  | _ => None
  end.

(** FORMATS of DatetimeConverterMixin (datetime.py:33), DatetimeConverterClass
    (133-138) and TimeConverterClass (198): by length of the text. Every failure of [strptime] is a ValueError. *)
Inductive formats := FDate | FDatetime | FTime.
Definition strptime (F : formats) (s : str) : res Z :=
  let r :=
    match length s, F with
    | 6%nat, FTime => strptime_hms s
    | 4%nat, FTime => strptime_hm s
    | 2%nat, FTime => strptime_h s
    | 6%nat, _ => strptime_ym s
    | 8%nat, FDate | 8%nat, FDatetime => strptime_ymd s
    | 11%nat, FDatetime => strptime_ymdh s
    | 13%nat, FDatetime => strptime_ymdhm s
    | 15%nat, FDatetime => strptime_ymdhms s
    | _, _ => None
    end in
  match r with Some w => Ok w | None => Err ValueError end.

Section Dt.
Variable D : zone_db.

(** Zone part of [_serialize_dt] (datetime.py:47-52). With [EmptyContext] the
    [setdefault] answers None and the next line raises AttributeError. *)
Definition write_zone (z : tz) (ps : params) (zs : option zones) : res (params * option zones) :=
  do r <- z_from_tzinfo D z;
  match r with
  | None => Ok (ps, zs)
  | Some (tzid, t) =>
      match zs with
      | None => Err AttributeError
      | Some zs =>
          let zs' := match dict_get tzid zs with Some _ => zs | None => dict_set tzid t zs end in
          Ok (dict_set (py "TZID") [tzid] ps, Some zs')
      end
  end.

(** [_serialize_dt] (datetime.py:36-53): text, parameters and zones afterwards. *)
Definition serialize_dt (d : datetime) (ps : params) (zs : option zones)
  : res (str * params * option zones) :=
  match dtz d with
  | None => Ok (fmt_datetime (wall d), ps, zs)
  | Some z =>
      if z_is_utc D z then Ok (fmt_datetime (wall d) ++ py "Z", ps, zs)
      else do (ps', zs') <- write_zone z ps zs; Ok (fmt_datetime (wall d), ps', zs')
  end.

(** [value.translate] deleting [/ - Z z] (datetime.py:78-80). *)
Definition skip_char (c : char) : bool :=
  N.eqb c c_slash || N.eqb c c_dash || N.eqb c 90 || N.eqb c 122.
Definition strip_marks (s : str) : str := filter (fun c => negb (skip_char c)) s.

(** [params.pop("TZID")] and the identifier it gives (datetime.py:62-70); an empty
    identifier counts as none in the tests at lines 91 and 96. *)
Definition pop_tzid (ps : params) : res (option str) :=
  match dict_get (py "TZID") ps with
  | Some (x :: _ :: _) => Err ValueError
  | Some [x] => Ok (match x with [] => None | _ => Some x end)
  | Some [] | None => Ok None
  end.

(** Choice of the zone (datetime.py:96-127). *)
Definition find_zone (t : str) : res tz :=
  match z_from_tzid D t with
  | Ok z => Ok z
  | Err ValueError => match z_gettz D t with Some z => Ok z | None => Err ValueError end
  | Err e => Err e
  end.
Definition read_zone (t : str) (zs : option zones) : res (tz * option zones) :=
  match match zs with Some zs => dict_get t zs | None => None end with
  | Some z => Ok (z, zs)
  | None =>
      do z <- find_zone t;
      match zs with
      | None => Err AttributeError
      | Some zs => Ok (z, Some (dict_set t z zs))
      end
  end.

(** [_parse_dt] (datetime.py:55-129): the value, parameters and zones afterwards. *)
Definition parse_dt (F : formats) (value : str) (ps : params) (zs : option zones)
  : res (datetime * params * option zones) :=
  let ps' := dict_del (py "TZID") ps in
  do tzid <- pop_tzid ps;
  match rev value with
  | [] => Err IndexError                                  (* value[-1] *)
  | c :: _ =>
      let fixed_utc := N.eqb (upper_char c) 90 in
      do w <- strptime F (strip_marks value);
      if fixed_utc then
        match tzid with
        | Some _ => Err ValueError
        | None => Ok (mk_dt w false (Some (z_utc D)), ps', zs)
        end
      else
        match tzid with
        | None => Ok (mk_dt w false None, ps', zs)
        | Some t => do (z, zs') <- read_zone t zs; Ok (mk_dt w false (Some z), ps', zs')
        end
  end.

(** DatetimeConverter (datetime.py:132-165), DateConverter (168-194): the date of a
    value is its wall clock cut to midnight. *)
Definition datetime_serialize := serialize_dt.
Definition datetime_parse := parse_dt FDatetime.
Definition date_serialize (w : Z) : str := fmt_date (fields_of w).
Definition date_parse (value : str) (ps : params) (zs : option zones) : res (Z * params * option zones) :=
  do (d, ps', zs') <- parse_dt FDate value ps zs;
  Ok ((wall d - wall d mod US_DAY)%Z, ps', zs').

(** TimeConverter (datetime.py:197-227): a [time] is microseconds since midnight, fold
    and zone. [is_utc] answers False for every [time] object, as it looks at the
    object itself and not at its tzinfo. *)
Definition time_serialize (d : datetime) (ps : params) (zs : option zones)
  : res (str * params * option zones) :=
  match dtz d with
  | None => Ok (fmt_time (fields_of (wall d)), ps, zs)
  | Some z => do (ps', zs') <- write_zone z ps zs; Ok (fmt_time (fields_of (wall d)), ps', zs')
  end.
Definition time_parse (value : str) (ps : params) (zs : option zones)
  : res (datetime * params * option zones) :=
  do (d, ps', zs') <- parse_dt FTime value ps zs;
  Ok (mk_dt (wall d mod US_DAY)%Z (fold d) (dtz d), ps', zs').

(** PeriodConverter (datetime.py:376-441). *)
Definition params_eqb (a b : params) : bool :=
  let sub a b := forallb (fun kv => match dict_get (fst kv) b with
                           | Some v => if list_eq_dec (list_eq_dec N.eq_dec) (snd kv) v then true else false
                           | None => false end) a in
  Nat.eqb (length a) (length b) && sub a b.
Fixpoint partition_slash (s : str) : str * option str :=
  match s with
  | [] => ([], None)
  | c :: s' => if N.eqb c c_slash then ([], Some s')
               else let '(a, b) := partition_slash s' in (c :: a, b)
  end.
Definition period_parse (E : env) (value : str) (ps : params) (zs : option zones)
  : res (timespan * params * option zones) :=
  match partition_slash value with
  | (_, None) => Err ValueError
  | (start, Some fin) =>
      match fin with
      | 80%N :: _ =>
          do (b, ps1, zs1) <- parse_dt FDate start ps zs;
          do d <- duration_parse fin;
          do t <- make E KBase (Some b) None (Some d) PSecond;
          Ok (t, ps1, zs1)
      | _ =>
          do (b, ps1, zs1) <- parse_dt FDate start ps zs;
          do (e, _, zs2) <- parse_dt FDate fin ps zs1;
          do t <- make E KBase (Some b) (Some e) None PSecond;
          Ok (t, ps1, zs2)
      end
  end.
Definition period_serialize (E : env) (t : timespan) (ps : params) (zs : option zones)
  : res (str * params * option zones) :=
  match ts_begin t with
  | None => Err ValueError
  | Some b =>
      match end_representation t with
      | Some RDuration =>
          do d <- eff_duration E t;
          do (s, ps1, zs1) <- serialize_dt b ps zs;
          match d with
          | Some d => Ok (s ++ py "/" ++ duration_serialize d, ps1, zs1)
          | None => Err AttributeError
          end
      | _ =>
          do e <- eff_end E t;
          match e with
          | None => Err ValueError
          | Some e =>
              do (s, ps1, zs1) <- serialize_dt b ps zs;
              do (s', ps2, zs2) <- serialize_dt e ps zs1;
              if params_eqb ps2 ps1 then Ok (s ++ py "/" ++ s', ps1, zs2) else Err ValueError
          end
      end
  end.

End Dt.
