(** * The FLOAT converter (src/ics/valuetype/generic.py:126-152)

    [float(text)] is [fl_read] of M_Float; [str(x)] of CPython for a binary64 number given
    by its 64 bits (Objects/floatobject.c: [float_repr], Python/pystrtod.c:
    [format_float_short] with 'r', Python/dtoa.c mode 0): the shortest decimal number that
    is read as the same double; among the shortest ones the nearest, ties to even. *)
From Verif Require Import M_Base M_Codec M_Float.
Open Scope Z_scope.

(** The double of [c * 10 ^ q]. *)
Definition dec_double (c q : Z) : dbl := if 0 <=? q then double_of (c * 10 ^ q) 1 else double_of c (10 ^ (- q)).
Definition dbl_eqb (x : dbl) (m E : Z) : bool := match x with DFin m' E' => (m' =? m) && (E' =? E) | _ => false end.
(** The decimal exponent [K]: the number is at least [10 ^ (K - 1)] and below [10 ^ K].
    All positive doubles are above [10 ^ -330]. *)
Definition magnitude (m E : Z) : Z := Z.of_nat (length (dec (Z.to_N (m * 2 ^ E * 10 ^ 330 / UNIT)))) - 330.
(** The nearest multiple of [10 ^ q] and the one on the other side. *)
Definition candidates (m E q : Z) : Z * Z :=
  let '(a, b) := if 0 <=? q then (m * 2 ^ E, UNIT * 10 ^ q) else (m * 2 ^ E * 10 ^ (- q), UNIT) in
  let c := round_half_even a b in
  (c, if c * b <=? a then c + 1 else c - 1).
(** The first number of digits that suffices; 17 always do. *)
Fixpoint shortest (fuel : nat) (m E q : Z) : Z * Z :=
  let '(c, c') := candidates m E q in
  if dbl_eqb (dec_double c q) m E then (c, q)
  else if dbl_eqb (dec_double c' q) m E then (c', q)
  else match fuel with O => (c, q) | S fuel' => shortest fuel' m E (q - 1) end.
Fixpoint drop_zeros (fuel : nat) (c q : Z) : Z * Z :=
  match fuel with
  | O => (c, q)
  | S fuel' => if (0 <? c) && (c mod 10 =? 0) then drop_zeros fuel' (c / 10) (q + 1) else (c, q)
  end.
Definition digits (m E : Z) : Z * Z :=
  if m =? 0 then (0, 0) else let '(c, q) := shortest 16 m E (magnitude m E - 1) in drop_zeros 20 c q.
Definition zeros (n : Z) : str := repeat 48%N (Z.to_nat n).
(** [format_float_short]: with exponent if the point is not among or next to the digits. *)
Definition layout (c q : Z) : str :=
  let ds := zdec c in
  let p := q + Z.of_nat (length ds) in
  if (-4 <? p) && (p <=? 16) then
    if p <=? 0 then py "0." ++ zeros (- p) ++ ds
    else if 0 <=? q then ds ++ zeros q ++ py ".0"
    else firstn (Z.to_nat p) ds ++ py "." ++ skipn (Z.to_nat p) ds
  else
    firstn 1 ds ++ (match skipn 1 ds with [] => [] | r => py "." ++ r end) ++ py "e" ++
    (if p - 1 <? 0 then py "-" else py "+") ++ pad 2 (Z.to_N (Z.abs (p - 1))).
Definition fl_repr (b : N) : str :=
  match decode b with
  | DNan => py "nan"
  | DInf => (if is_neg b then py "-" else []) ++ py "inf"
  | DFin m E => let '(c, q) := digits m E in (if is_neg b then py "-" else []) ++ layout c q
  end.
(** [FloatConverterClass.parse], [serialize] (generic.py:135-149) *)
Definition float_parse (s : str) : res N := fl_read s.
Definition float_serialize (b : N) : str := fl_repr b.
