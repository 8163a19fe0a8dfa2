(** * Specification of calendar dates and of DATE / DATE-TIME / TIME texts *)
From Verif Require Import M_Base M_Cal.
Open Scope Z_scope.

(** Gregorian calendar, by divisibility and by the lengths of the months. *)
Definition leap_year (y : Z) : Prop := (4 | y) /\ (~ (100 | y) \/ (400 | y)).
Inductive month_length : Z -> Z -> Z -> Prop :=
  | ML_long y m : In m [1; 3; 5; 7; 8; 10; 12] -> month_length y m 31
  | ML_short y m : In m [4; 6; 9; 11] -> month_length y m 30
  | ML_feb y : ~ leap_year y -> month_length y 2 28
  | ML_feb_leap y : leap_year y -> month_length y 2 29.
Definition real_date (y m d : Z) : Prop :=
  1 <= y <= 9999 /\ exists len, month_length y m len /\ 1 <= d <= len.
Definition real_time (hh mi ss : Z) : Prop := 0 <= hh <= 23 /\ 0 <= mi <= 59 /\ 0 <= ss <= 59.

(** The day after a day, and the numbering of the days from 1 January of year 1. *)
Inductive next_day : Z * Z * Z -> Z * Z * Z -> Prop :=
  | ND_day y m d len : month_length y m len -> d < len -> next_day (y, m, d) (y, m, d + 1)
  | ND_month y m d : month_length y m d -> m < 12 -> next_day (y, m, d) (y, m + 1, 1)
  | ND_year y : next_day (y, 12, 31) (y + 1, 1, 1).
Inductive day_number : Z * Z * Z -> Z -> Prop :=
  | DN_first : day_number (1, 1, 1) 1
  | DN_next a b n : day_number a n -> next_day a b -> day_number b (n + 1).

(** Digits. *)
Definition digit (n : Z) : N := Z.to_N (48 + n).
Definition d2 (n : Z) : str := [digit (n / 10); digit (n mod 10)].
Definition d4 (n : Z) : str :=
  [digit (n / 1000); digit (n / 100 mod 10); digit (n / 10 mod 10); digit (n mod 10)].
Definition below (n k : Z) : Prop := 0 <= n < k.

(** A two-character day: two digits, or a space and a non-zero digit. *)
Definition day_text (d : Z) (s : str) : Prop :=
  below d 100 /\ s = d2 d \/ 1 <= d <= 9 /\ s = [32%N; digit d].
Definition is_t (c : char) : Prop := c = 84%N \/ c = 116%N.

(** Texts accepted for DATE and for DATE-TIME, with the fields they show. *)
Inductive date_text : str -> fields -> Prop :=
  | DT_ym y m : below y 10000 -> below m 100 ->
      date_text (d4 y ++ d2 m) (mk_fields y m 1 0 0 0 0)
  | DT_ymd y m d s : below y 10000 -> below m 100 -> day_text d s ->
      date_text (d4 y ++ d2 m ++ s) (mk_fields y m d 0 0 0 0).
Inductive datetime_text : str -> fields -> Prop :=
  | DTT_date s f : date_text s f -> datetime_text s f
  | DTT_h y m d s c hh : below y 10000 -> below m 100 -> day_text d s -> is_t c -> below hh 100 ->
      datetime_text (d4 y ++ d2 m ++ s ++ c :: d2 hh) (mk_fields y m d hh 0 0 0)
  | DTT_hm y m d s c hh mi : below y 10000 -> below m 100 -> day_text d s -> is_t c ->
      below hh 100 -> below mi 100 ->
      datetime_text (d4 y ++ d2 m ++ s ++ c :: d2 hh ++ d2 mi) (mk_fields y m d hh mi 0 0)
  | DTT_hms y m d s c hh mi ss : below y 10000 -> below m 100 -> day_text d s -> is_t c ->
      below hh 100 -> below mi 100 -> below ss 100 ->
      datetime_text (d4 y ++ d2 m ++ s ++ c :: d2 hh ++ d2 mi ++ d2 ss) (mk_fields y m d hh mi ss 0).
Inductive time_text : str -> fields -> Prop :=
  | TT_h hh : below hh 100 -> time_text (d2 hh) (mk_fields 1900 1 1 hh 0 0 0)
  | TT_hm hh mi : below hh 100 -> below mi 100 ->
      time_text (d2 hh ++ d2 mi) (mk_fields 1900 1 1 hh mi 0 0)
  | TT_hms hh mi ss : below hh 100 -> below mi 100 -> below ss 100 ->
      time_text (d2 hh ++ d2 mi ++ d2 ss) (mk_fields 1900 1 1 hh mi ss 0).

(** The fields are a real date and time. *)
Definition real_fields (f : fields) : Prop :=
  real_date (f_y f) (f_m f) (f_d f) /\ real_time (f_H f) (f_M f) (f_S f) /\ f_us f = 0.

(** A text without its slashes, dashes and UTC marks. *)
Definition unmarked (v : str) : str := filter (fun c => negb (mem c (py "/-Zz"))) v.
(** The text ends with the UTC mark. *)
Definition utc_mark (v : str) : Prop := exists u, v = u ++ py "Z" \/ v = u ++ py "z".
