(** * Seconds computed with floats (src/ics/valuetype/datetime.py:259-285, 340-349)

    [timedelta.total_seconds()] is the quotient of two ints, correctly rounded
    (Modules/_datetimemodule.c, Objects/longobject.c: [long_true_divide]). [//] and [%] of
    floats are those of Objects/floatobject.c: [fmod] is exact, the difference and the
    quotient are rounded. The numbers here are not negative; a float is given by its value
    in units of [2 ^ -1074] (M_Float). M_Codec has the same functions on integers. *)
From Verif Require Import M_Base M_Codec M_Float.
Open Scope Z_scope.

Definition units (d : dbl) : Z := match d with DFin m E => m * 2 ^ E | _ => 0 end.
(** The float next to [n / d]. *)
Definition rnd (n d : Z) : Z := units (double_of n d).
(** [abs(td.total_seconds())] *)
Definition abs_seconds (us : Z) : Z := rnd (Z.abs us) US_SEC.
(** [v % w], [v // w] for an int [w] (float_rem, float_floor_div) *)
Definition f_mod (v w : Z) : Z := v mod (w * UNIT).
Definition f_floordiv (v w : Z) : Z :=
  let num := rnd (v - f_mod v w) UNIT in
  let div := rnd num (w * UNIT) in
  let fl := div / UNIT * UNIT in
  if UNIT <? 2 * rnd (div - fl) UNIT then rnd (fl + UNIT) UNIT else fl.
(** [int(v)], also in ["%02d" % v] *)
Definition f_int (v : Z) : Z := v / UNIT.

(** [UTCOffsetConverter.serialize] (datetime.py:259-285) *)
Definition offset_text (us : Z) : str :=
  let v := abs_seconds us in
  let res := if (us <? 0) && negb (v =? 0) then py "-" else py "+" in
  let h := f_int (f_floordiv v 3600) in
  let v1 := f_mod v 3600 in
  let m := f_int (f_floordiv v1 60) in
  let v2 := f_mod v1 60 in
  res ++ pad 2 (Z.to_N h) ++ pad 2 (Z.to_N m) ++ (if v2 =? 0 then [] else pad 2 (Z.to_N (f_int v2))).
(** [abs(int(value.total_seconds()))] in [DurationConverter.serialize] (datetime.py:347) *)
Definition duration_total (us : Z) : Z := f_int (abs_seconds us).
