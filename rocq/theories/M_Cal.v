(** * Proleptic Gregorian calendar as in CPython's datetime module

    CPython Lib/datetime.py (3.11) 33-130: [_is_leap], [_days_before_year],
    [_days_in_month], [_days_before_month], [_ymd2ord], [_ord2ymd]; the C version
    computes the same. Used by every date value of the library. *)
From Verif Require Import M_Base M_Codec.
Open Scope Z_scope.

Definition MAXORDINAL : Z := 3652059.

Definition is_leap (y : Z) : bool :=
  (y mod 4 =? 0) && (negb (y mod 100 =? 0) || (y mod 400 =? 0)).
Definition days_before_year (year : Z) : Z :=
  let y := year - 1 in y * 365 + y / 4 - y / 100 + y / 400.
Definition month_days (m : Z) : Z :=
  match m with
  | 2 => 28 | 4 => 30 | 6 => 30 | 9 => 30 | 11 => 30 | _ => 31
  end.
Definition days_in_month (y m : Z) : Z :=
  if (m =? 2) && is_leap y then 29 else month_days m.
Definition month_start (m : Z) : Z :=
  match m with
  | 1 => 0 | 2 => 31 | 3 => 59 | 4 => 90 | 5 => 120 | 6 => 151 | 7 => 181
  | 8 => 212 | 9 => 243 | 10 => 273 | 11 => 304 | 12 => 334 | _ => 0
  end.
Definition days_before_month (y m : Z) : Z :=
  month_start m + (if (2 <? m) && is_leap y then 1 else 0).
Definition ymd2ord (y m d : Z) : Z := days_before_year y + days_before_month y m + d.

Definition ord2ymd (n : Z) : Z * Z * Z :=
  let n := n - 1 in
  let n400 := n / 146097 in let n := n mod 146097 in
  let year := n400 * 400 + 1 in
  let n100 := n / 36524 in let n := n mod 36524 in
  let n4 := n / 1461 in let n := n mod 1461 in
  let n1 := n / 365 in let n := n mod 365 in
  let year := year + n100 * 100 + n4 * 4 + n1 in
  if (n1 =? 4) || (n100 =? 4) then (year - 1, 12, 31)
  else
    let leapyear := (n1 =? 3) && (negb (n4 =? 24) || (n100 =? 3)) in
    let month := (n + 50) / 32 in
    let preceding := month_start month + (if (2 <? month) && leapyear then 1 else 0) in
    let '(month, preceding) :=
      if n <? preceding then
        (month - 1, preceding - (month_days (month - 1) + (if (month - 1 =? 2) && leapyear then 1 else 0)))
      else (month, preceding) in
    (year, month, n - preceding + 1).

(** [datetime(y, m, d, H, M, S, us)]: ValueError unless every field is in range
    ([_check_date_fields], [_check_time_fields]). *)
Definition valid_date (y m d : Z) : bool :=
  (1 <=? y) && (y <=? 9999) && (1 <=? m) && (m <=? 12) && (1 <=? d) && (d <=? days_in_month y m).
Definition valid_time (H M S us : Z) : bool :=
  (0 <=? H) && (H <=? 23) && (0 <=? M) && (M <=? 59) && (0 <=? S) && (S <=? 59)
  && (0 <=? us) && (us <=? 999999).

(** A wall clock reading is a number of microseconds since 0001-01-01T00:00. *)
Definition WALL_END : Z := MAXORDINAL * US_DAY.
Definition wall_ok (w : Z) : bool := (0 <=? w) && (w <? WALL_END).
Definition mk_wall (y m d H M S us : Z) : Z :=
  (ymd2ord y m d - 1) * US_DAY + ((H * 60 + M) * 60 + S) * US_SEC + us.
Record fields := mk_fields { f_y : Z; f_m : Z; f_d : Z; f_H : Z; f_M : Z; f_S : Z; f_us : Z }.
Definition fields_of (w : Z) : fields :=
  let '(y, m, d) := ord2ymd (w / US_DAY + 1) in
  let t := w mod US_DAY in
  mk_fields y m d (t / (3600 * US_SEC)) (t / (60 * US_SEC) mod 60) (t / US_SEC mod 60) (t mod US_SEC).
