(** * The texts of spans and entries (src/ics/timespan.py, event.py)

    [str()] of a datetime and of a timedelta as in CPython 3.11 (Lib/datetime.py:
    [datetime.isoformat] 1794-1829 with a space as separator, [_format_time] 163-182,
    [_format_offset] 184-199, [timedelta.__str__] 699-708), and [strftime("%Y-%m-%d")], whose
    year is not padded by glibc. *)
From Verif Require Import M_Base M_Codec M_Cal M_Time M_Span M_Dt M_Cmp.
Open Scope Z_scope.

(** [".%06d" % us] unless it is zero *)
Definition frac_str (us : Z) : str := if us =? 0 then [] else py "." ++ pad 6 (Z.to_N us).
Definition offset_str (off : Z) : str :=
  let o := Z.abs off in
  (if off <? 0 then py "-" else py "+") ++ z2 (o / (3600 * US_SEC)) ++ py ":" ++ z2 (o / (60 * US_SEC) mod 60) ++
  (if o mod (60 * US_SEC) =? 0 then [] else py ":" ++ z2 (o / US_SEC mod 60) ++ frac_str (o mod US_SEC)).
Definition td_str (td : Z) : str :=
  let days := td / US_DAY in let t := td mod US_DAY in
  (if days =? 0 then [] else int_serialize days ++ py " day" ++ (if Z.abs days =? 1 then [] else py "s") ++ py ", ") ++
  zdec (t / (3600 * US_SEC)) ++ py ":" ++ z2 (t / (60 * US_SEC) mod 60) ++ py ":" ++ z2 (t / US_SEC mod 60) ++ frac_str (t mod US_SEC).

Section Show.
Variable E : env.

Definition dt_str (d : datetime) : str :=
  let f := fields_of (wall d) in
  pad 4 (Z.to_N (f_y f)) ++ py "-" ++ z2 (f_m f) ++ py "-" ++ z2 (f_d f) ++ py " " ++
  z2 (f_H f) ++ py ":" ++ z2 (f_M f) ++ py ":" ++ z2 (f_S f) ++ frac_str (f_us f) ++
  match utcoffset E d with None => [] | Some off => offset_str off end.
Definition date_str (d : datetime) : str :=
  let f := fields_of (wall d) in dec (Z.to_N (f_y f)) ++ py "-" ++ z2 (f_m f) ++ py "-" ++ z2 (f_d f).

(** [_end_name] (timespan.py:168, 582, 602) *)
Definition end_name (k : kind) : str := match k with KTodo => py "due" | _ => py "end" end.
(** [self.__class__.__name__] of a span and of an entry *)
Definition span_class (k : kind) : str :=
  match k with KBase => py "Timespan" | KEvent => py "EventTimespan" | KTodo => py "TodoTimespan" end.
Definition entry_class (k : kind) : str :=
  match k with KBase => py "CalendarEntryAttrs" | KEvent => py "Event" | KTodo => py "Todo" end.

(** [get_str_segments] (timespan.py:302-338): prefix and suffix. *)
Definition stamp_str (t : timespan) (d : datetime) : str := if is_all_day t then date_str d else dt_str d.
Definition str_segments (t : timespan) : res (list str * list str) :=
  let prefix := if is_all_day t then [py "all-day"] else if is_floating t then [py "floating"] else [] in
  let s1 := match ts_begin t with Some b => [py "begin:"; stamp_str t b] | None => [] end in
  do e <- eff_end E t;
  let r := end_representation t in
  let s2 := match e with
            | Some e => (match r with Some REnd => [py "fixed"] | _ => [] end) ++ [end_name (ts_kind t) ++ py ":"; stamp_str t e]
            | None => []
            end in
  do d <- eff_duration E t;
  let s3 := match d, r with
            | Some d, Some r => (match r with RDuration => [py "fixed"] | REnd => [] end) ++ [py "duration:"; td_str d]
            | _, _ => []
            end in
  Ok (prefix, s1 ++ s2 ++ s3).

(** [" ".join(l)] *)
Fixpoint join_spaces (l : list str) : str :=
  match l with [] => [] | [x] => x | x :: l' => x ++ 32%N :: join_spaces l' end.
(** [Timespan.__str__] (timespan.py:340-342) *)
Definition span_str (t : timespan) : res str :=
  do (p, s) <- str_segments t; Ok (py "<" ++ join_spaces (p ++ [span_class (ts_kind t)] ++ s) ++ py ">").
(** [CalendarEntryAttrs.__str__] (event.py:187-192) *)
Definition entry_str (e : entry) : res str :=
  let name := entry_class (ts_kind (en_span e)) :: match en_summary e with Some (c :: s) => [py "'" ++ (c :: s) ++ py "'"] | _ => [] end in
  do (p, s) <- str_segments (en_span e); Ok (py "<" ++ join_spaces (p ++ name ++ s) ++ py ">").
End Show.
