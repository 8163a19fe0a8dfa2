(** * Floats in GEO values (src/ics/valuetype/special.py:23-40)

    [float(text)] and ["%f" % x] of CPython for binary64 numbers, given by their 64
    bits. Both are correctly rounded (Python/dtoa.c), ties to even. [float] accepts
    only ASCII digits and white space here (CPython: any Unicode ones). *)
From Verif Require Import M_Base M_Codec.
Open Scope Z_scope.

(** The absolute value: [m * 2 ^ E] units of [2 ^ -1074], infinity, or not a number. *)
Inductive dbl := DNan | DInf | DFin (m E : Z).
Definition UNIT : Z := 2 ^ 1074.
Definition is_neg (b : N) : bool := (2 ^ 63 <=? b)%N.
Definition decode (b : N) : dbl :=
  let mag := (b mod 2 ^ 63)%N in
  let frac := Z.of_N (mag mod 2 ^ 52) in
  let ex := Z.of_N (mag / 2 ^ 52) in
  if ex =? 2047 then if frac =? 0 then DInf else DNan
  else if ex =? 0 then DFin frac 0 else DFin (2 ^ 52 + frac) (ex - 1).
Definition encode (neg : bool) (d : dbl) : N :=
  ((if neg then 2 ^ 63 else 0) +
   match d with
   | DNan => 2047 * 2 ^ 52 + 2 ^ 51
   | DInf => 2047 * 2 ^ 52
   | DFin m E => Z.to_N (if m <? 2 ^ 52 then m else (E + 1) * 2 ^ 52 + (m - 2 ^ 52))%Z
   end)%N.

(** The double nearest to [n / d]. *)
Definition double_of (n d : Z) : dbl :=
  let E := Z.max 0 (Z.log2 (n * UNIT / d) - 52) in
  let m := round_half_even (n * UNIT) (d * 2 ^ E) in
  let '(m, E) := if m =? 2 ^ 53 then (2 ^ 52, E + 1) else (m, E) in
  if 2045 <? E then DInf else DFin m E.

(** ["%f" % x]: six digits after the point. *)
Definition fixed (n : Z) : str := zdec (n / 10 ^ 6) ++ py "." ++ pad 6 (Z.to_N (n mod 10 ^ 6)).
Definition millionths (m E : Z) : Z := round_half_even (m * 2 ^ E * 10 ^ 6) UNIT.
Definition fl_show (b : N) : str :=
  match decode b with
  | DNan => py "nan"
  | DInf => (if is_neg b then py "-" else []) ++ py "inf"
  | DFin m E => (if is_neg b then py "-" else []) ++ fixed (millionths m E)
  end.

(** [float(text)]: digits with single underscores between them, *)
Definition starts_digit (s : str) : bool := match s with c :: _ => is_digit c | [] => false end.
Fixpoint digit_run (prev : bool) (s : str) : str * str :=
  match s with
  | [] => ([], [])
  | c :: s' =>
      if is_digit c then let '(ds, r) := digit_run true s' in (c :: ds, r)
      else if N.eqb c 95 && prev && starts_digit s' then digit_run false s'
      else ([], s)
  end.
Definition take_sign (s : str) : bool * str :=
  match s with
  | c :: s' => if N.eqb c c_dash then (true, s') else if N.eqb c c_plus then (false, s') else (false, s)
  | [] => (false, s)
  end.
(** the exponent, *)
Definition read_exponent (s : str) : option Z :=
  match s with
  | [] => Some 0
  | c :: s' =>
      if N.eqb c 101 || N.eqb c 69 then
        let '(neg, s') := take_sign s' in
        match digit_run false s' with
        | (c :: ds, []) => Some ((if neg then -1 else 1) * Z.of_N (undec (c :: ds)))
        | _ => None
        end
      else None
  end.
(** and the number as a fraction. *)
Definition read_number (s : str) : option (Z * Z) :=
  let '(ip, r) := digit_run false s in
  let '(fp, r) := match r with c :: r' => if N.eqb c 46 then digit_run false r' else ([], r) | [] => ([], r) end in
  match ip ++ fp with
  | [] => None
  | ds => match read_exponent r with
          | Some x =>
              let k := x - Z.of_nat (length fp) in
              let n := Z.of_N (undec ds) in
              Some (if 0 <=? k then (n * 10 ^ k, 1) else (n, 10 ^ (- k)))
          | None => None
          end
  end.
Definition lower_ascii (s : str) : str := map (fun c => if (65 <=? c)%N && (c <=? 90)%N then (c + 32)%N else c) s.
Definition fl_read (value : str) : res N :=
  let '(neg, s) := take_sign (strip_space value) in
  if str_in (lower_ascii s) [py "inf"; py "infinity"] then Ok (encode neg DInf)
  else if str_eqb (lower_ascii s) (py "nan") then Ok (encode neg DNan)
  else match read_number s with
       | Some (n, d) => Ok (encode neg (double_of n d))
       | None => Err ValueError
       end.
