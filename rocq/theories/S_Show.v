(** * Specification: what the texts of spans and entries say *)
From Verif Require Import M_Base M_Codec M_Cal M_Time M_Span M_Cmp.
From Verif Require Import S_Codec S_Dt.
Open Scope Z_scope.

(** ** Texts of numbers and times *)
Definition four_digits (s : list N) (v : Z) : Prop := length s = 4%nat /\ number s v.
(** A number without needless zeros. *)
Definition plain_number (s : list N) (v : Z) : Prop := number s v /\ (s = py "0" \/ forall c s', s = c :: s' -> c <> 48%N).
(** Microseconds, left out if there are none. *)
Definition fraction (s : list N) (us : Z) : Prop :=
  us = 0 /\ s = [] \/ 0 < us < 1000000 /\ exists ds, length ds = 6%nat /\ number ds us /\ s = py "." ++ ds.
(** Hours (with or without a zero), minutes, seconds. *)
Definition clock (hours : list N -> Z -> Prop) (s : list N) (t : Z) : Prop :=
  exists hh h mm m ss sec fr us, hours hh h /\ two_digits mm m /\ two_digits ss sec /\ fraction fr us /\
    0 <= h < 24 /\ 0 <= m < 60 /\ 0 <= sec < 60 /\ s = hh ++ py ":" ++ mm ++ py ":" ++ ss ++ fr /\
    t = ((h * 60 + m) * 60 + sec) * 1000000 + us.
(** A day by its number, the first being 0001-01-01. *)
Definition day_shown (year : list N -> Z -> Prop) (s : list N) (n : Z) : Prop :=
  exists yy y mm m dd d, year yy y /\ two_digits mm m /\ two_digits dd d /\ day_number (y, m, d) n /\
    s = yy ++ py "-" ++ mm ++ py "-" ++ dd.
(** An offset: a sign, hours and minutes, and the seconds unless there are none. *)
Definition offset_shown (s : list N) (off : option Z) : Prop :=
  match off with
  | None => s = []
  | Some o => exists sg k t, (sg = py "+" /\ k = 1 /\ 0 <= o \/ sg = py "-" /\ k = -1 /\ o < 0) /\
      (clock two_digits t (k * o) /\ (k * o) mod 60000000 <> 0 \/ clock two_digits (t ++ py ":00") (k * o)) /\ s = sg ++ t
  end.
Definition moment_shown (s : list N) (w : Z) (off : option Z) : Prop :=
  exists day n time t o, day_shown four_digits day n /\ clock two_digits time t /\ offset_shown o off /\
    w = (n - 1) * 86400000000 + t /\ s = day ++ py " " ++ time ++ o.
(** A length: days unless there are none, and a time. *)
Definition days_shown (s : list N) (d : Z) : Prop :=
  d = 0 /\ s = [] \/
  exists sg k n, (sg = [] /\ k = 1 /\ 0 < d \/ sg = py "-" /\ k = -1 /\ d < 0) /\ plain_number n (k * d) /\
    s = sg ++ n ++ (if k * d =? 1 then py " day, " else py " days, ").
Definition length_shown (s : list N) (td : Z) : Prop :=
  exists ds d time t, days_shown ds d /\ clock plain_number time t /\ s = ds ++ time /\ td = d * 86400000000 + t.

(** ** Spans and entries *)
Section Shown.
Variable E : env.
Definition stamp_shown (day : bool) (s : list N) (d : datetime) : Prop :=
  if day then day_shown plain_number s (wall d / 86400000000 + 1) else moment_shown s (wall d) (utcoffset E d).
Definition head_of (t : timespan) : list N :=
  if is_all_day t then py "all-day " else if is_floating t then py "floating " else [].
(** [tail_shown s t]: begin, end and length as far as they are known; the length only if
    the end or the length was given, with the word "fixed" before the one that was. *)
Definition tail_shown (s : list N) (t : timespan) : Prop :=
  exists b e d,
    match ts_begin t with None => b = [] | Some x => exists st, stamp_shown (is_all_day t) st x /\ b = py " begin: " ++ st end /\
    match eff_end E t with
    | Err _ => False
    | Ok None => e = []
    | Ok (Some x) => exists st, stamp_shown (is_all_day t) st x /\
        e = (if negb (is_none (ts_end t)) && is_none (ts_dur t) then py " fixed" else []) ++ (match ts_kind t with KTodo => py " due: " | _ => py " end: " end) ++ st
    end /\
    (if is_none (ts_end t) && is_none (ts_dur t) then d = []
     else match eff_duration E t with
          | Err _ => False
          | Ok None => d = []
          | Ok (Some x) => exists st, length_shown st x /\ d = (if is_none (ts_dur t) then [] else py " fixed") ++ py " duration: " ++ st
          end) /\
    s = b ++ e ++ d.
Definition span_shown (s : list N) (t : timespan) : Prop := exists tl, tail_shown tl t /\
  s = py "<" ++ head_of t ++ (match ts_kind t with KBase => py "Timespan" | KEvent => py "EventTimespan" | KTodo => py "TodoTimespan" end) ++ tl ++ py ">".
Definition entry_shown (s : list N) (x : entry) : Prop := exists tl, tail_shown tl (en_span x) /\
  s = py "<" ++ head_of (en_span x) ++ (match ts_kind (en_span x) with KBase => py "CalendarEntryAttrs" | KEvent => py "Event" | KTodo => py "Todo" end) ++
      (match en_name x with [] => [] | n => py " '" ++ n ++ py "'" end) ++ tl ++ py ">".

(** What a text shows of a span: of an all-day one the days, else the readings of the
    clock with their offsets. *)
Definition view (t : timespan) (d : datetime) : Z * option Z :=
  if is_all_day t then (wall d / 86400000000, None) else (wall d, utcoffset E d).
Definition same_view (t t' : timespan) : Prop :=
  ts_kind t = ts_kind t' /\ is_all_day t = is_all_day t' /\ (is_all_day t = false -> is_floating t = is_floating t') /\
  option_map (view t) (ts_begin t) = option_map (view t') (ts_begin t') /\
  rmap (option_map (view t)) (eff_end E t) = rmap (option_map (view t')) (eff_end E t') /\
  end_representation t = end_representation t' /\
  (end_representation t <> None -> eff_duration E t = eff_duration E t').
(** Every datetime is one of Python's, and every offset of its zone is below a day (both
    are enforced by the interpreter). *)
Definition python_time (d : datetime) : Prop :=
  wall_ok (wall d) = true /\ forall z, dtz d = Some z -> forall w f, Z.abs (tz_off E z w f) < 86400000000.
Definition python_times (t : timespan) : Prop := forall d, ts_begin t = Some d \/ ts_end t = Some d -> python_time d.
End Shown.
