(** * Model of the value converters DURATION, UTC-OFFSET, BOOLEAN, INTEGER, BINARY

    src/ics/valuetype/datetime.py:239-370, src/ics/valuetype/generic.py:18-132.
    A [timedelta] is its number of microseconds ([Z]). *)
From Verif Require Import M_Base.
Open Scope Z_scope.

Definition US_SEC : Z := 1000000.
Definition US_DAY : Z := 86400 * US_SEC.
(** [timedelta] holds days in -999999999..999999999 (CPython datetime). *)
Definition TD_MIN : Z := - (999999999 * US_DAY).
Definition TD_MAX : Z := 1000000000 * US_DAY - 1.
Definition timedelta (us : Z) : res Z :=
  if (TD_MIN <=? us) && (us <=? TD_MAX) then Ok us else Err OverflowError.

(** [abs(int(td.total_seconds()))] (datetime.py:347): [total_seconds] is the quotient
    of the microseconds by 10**6 rounded to a double (53 significant bits, ties to
    even); [int] drops the fraction. [n] is the absolute value. *)
Definition round_half_even (a b : Z) : Z :=
  let q := a / b in let r := a mod b in
  if 2 * r <? b then q
  else if b <? 2 * r then q + 1
  else if Z.even q then q else q + 1.
Definition float_exp (n : Z) : Z := 52 - Z.log2 (n / US_SEC).
Definition int_total_seconds (n : Z) : Z :=
  if n <? US_SEC then
    (* quotient below one: the nearest double is at most 0.999999 *)
    0
  else
    let e := float_exp n in
    round_half_even (n * 2 ^ e) US_SEC / 2 ^ e.

(** [str(n)] for [n >= 0]. *)
Definition zdec (n : Z) : str := dec (Z.to_N n).

(** [DurationConverter.serialize] (datetime.py:340-370). The final test
    [value.total_seconds() >= 0] is the sign of the microseconds. *)
Definition duration_serialize (us : Z) : str :=
  let total := int_total_seconds (Z.abs us) in
  let days := total / 86400 in
  let seconds := total mod 86400 in
  let res := (if days =? 0 then [] else zdec days ++ py "D") in
  let res :=
    if seconds =? 0 then res
    else
      let res := res ++ py "T" in
      let h := seconds / 3600 in
      let res := if h =? 0 then res else res ++ zdec h ++ py "H" in
      let seconds := if h =? 0 then seconds else seconds mod 3600 in
      let m := seconds / 60 in
      let res := if m =? 0 then res else res ++ zdec m ++ py "M" in
      let seconds := if m =? 0 then seconds else seconds mod 60 in
      if seconds =? 0 then res else res ++ zdec seconds ++ py "S" in
  let res := match res with [] => py "T0S" | _ => res end in
  if 0 <=? us then py "P" ++ res else py "-P" ++ res.

(** [while value[j].isdigit(): j += 1] (datetime.py:322-323); [isdigit] for ASCII. *)
Fixpoint span_digits (s : str) : str * str :=
  match s with
  | c :: s' => if is_digit c then let '(d, r) := span_digits s' in (c :: d, r) else ([], s)
  | [] => ([], [])
  end.

(** [dict.pop]/lookup in the small unit tables. *)
Fixpoint unit_get (c : char) (t : list (char * Z)) : option (Z * list (char * Z)) :=
  match t with
  | [] => None
  | (k, v) :: t' =>
      if N.eqb c k then Some (v, t')
      else match unit_get c t' with Some (w, r) => Some (w, (k, v) :: r) | None => None end
  end.

(** The loop of [DurationConverter.parse] (datetime.py:316-337); [s] is [value[i:]]. *)
Fixpoint duration_loop (fuel : nat) (s : str) (DAYS SECS : list (char * Z)) (days secs : Z)
  : res (Z * Z) :=
  match fuel with
  | O => Err OutOfFuel
  | S f =>
      match s with
      | [] => Ok (days, secs)
      | c :: s' =>
          let s1 := if N.eqb c 84 (* T *) then s' else s in
          match s1 with
          | [] => Ok (days, secs)                       (* break *)
          | _ =>
              let '(ds, r) := span_digits s1 in
              match r with
              | [] => Err IndexError                    (* value[j] past the end *)
              | u :: r' =>
                  match ds with
                  | [] => Err ValueError
                  | _ =>
                      let val := Z.of_N (undec ds) in
                      match unit_get u DAYS with
                      | Some (k, DAYS') => duration_loop f r' DAYS' SECS (days + val * k) secs
                      | None =>
                          match unit_get u SECS with
                          | Some (k, SECS') => duration_loop f r' DAYS SECS' days (secs + val * k)
                          | None => Err ValueError
                          end
                      end
                  end
              end
          end
      end
  end.

Definition DAYS0 : list (char * Z) := [(68%N, 1); (87%N, 7)].             (* D W *)
Definition SECS0 : list (char * Z) := [(83%N, 1); (77%N, 60); (72%N, 3600)]. (* S M H *)

(** [DurationConverter.parse] (datetime.py:300-338). *)
Definition duration_parse (value : str) : res Z :=
  match value with
  | [] => Err IndexError
  | c :: s =>
      let '(sign, s1) :=
        if N.eqb c c_dash then (-1, s) else if N.eqb c c_plus then (1, s) else (1, value) in
      match s1 with
      | [] => Err IndexError
      | p :: s2 =>
          if N.eqb p 80 (* P *) then
            do (days, secs) <- duration_loop (S (length s2)) s2 DAYS0 SECS0 0 0;
            timedelta ((sign * days * 86400 + sign * secs) * US_SEC)
          else Err ValueError
      end
  end.

(** [UTCOffsetConverter.serialize] (datetime.py:259-285). Floats are replaced by
    microseconds; for offsets below 2^33 seconds the double quotient has the same
    integer parts and is zero modulo 60 in the same cases. *)
Definition utcoffset_serialize (us : Z) : str :=
  let n := Z.abs us in
  let res := if us <? 0 then py "-" else py "+" in
  let h := n / (3600 * US_SEC) in
  let n1 := n mod (3600 * US_SEC) in
  let m := n1 / (60 * US_SEC) in
  let n2 := n1 mod (60 * US_SEC) in
  res ++ pad 2 (Z.to_N h) ++ pad 2 (Z.to_N m)
      ++ (if n2 =? 0 then [] else pad 2 (Z.to_N (n2 / US_SEC))).

(** [UTCOffsetConverter.parse] (datetime.py:239-257): full match of a sign or
    nothing, then four or six digits. *)
Definition utcoffset_parse (value : str) : res Z :=
  let '(sign, digits) :=
    match value with
    | c :: s => if N.eqb c c_plus then (1, s) else if N.eqb c c_dash then (-1, s) else (1, value)
    | [] => (1, value)
    end in
  if forallb is_digit digits then
    let num a b := Z.of_N (undec (slice digits a b)) in
    match length digits with
    | 4%nat => Ok (sign * (num 0%nat 2%nat * 3600 + num 2%nat 4%nat * 60) * US_SEC)
    | 6%nat => Ok (sign * (num 0%nat 2%nat * 3600 + num 2%nat 4%nat * 60 + num 4%nat 6%nat) * US_SEC)
    | _ => Err ValueError
    end
  else Err ValueError.

(** [BooleanConverter] (generic.py:59-92); values given as [str] are parsed first. *)
Definition str_in (s : str) (l : list str) : bool := existsb (str_eqb s) l.
Definition bool_parse (value : str) : res bool :=
  if str_eqb value (py "TRUE") then Ok true
  else if str_eqb value (py "FALSE") then Ok false
  else
    let value := upper value in
    if str_eqb value (py "TRUE") then Ok true
    else if str_eqb value (py "FALSE") then Ok false
    else if str_in value [py "T"; py "Y"; py "YES"; py "ON"; py "1"] then Ok true
    else if str_in value [py "F"; py "N"; py "NO"; py "OFF"; py "0"] then Ok false
    else Err ValueError.
Definition bool_serialize (b : bool) : str := if b then py "TRUE" else py "FALSE".
Definition bool_serialize_str (s : str) : res str := rmap bool_serialize (bool_parse s).

(** [IntegerConverter] (generic.py:107-123): [str(n)] and [int(s)]. [int] strips
    white space and allows single underscores between digits; ASCII only, and
    without the interpreter's limit on the number of digits. *)
Definition int_serialize (n : Z) : str :=
  if n <? 0 then c_dash :: dec (Z.to_N (- n)) else dec (Z.to_N n).
Definition is_space (c : char) : bool :=
  ((9 <=? c) && (c <=? 13) || (c =? 32))%N.
Fixpoint lstrip_space (s : str) : str :=
  match s with c :: s' => if is_space c then lstrip_space s' else s | [] => [] end.
Definition strip_space (s : str) : str := rev (lstrip_space (rev (lstrip_space s))).
(** Digits with single underscores between them; [prev] tells whether the character
    before was a digit. Returns the digits. *)
Fixpoint int_digits (prev : bool) (s : str) : option str :=
  match s with
  | [] => if prev then Some [] else None
  | c :: s' =>
      if is_digit c then
        match int_digits true s' with Some d => Some (c :: d) | None => None end
      else if N.eqb c 95 && prev then int_digits false s'
      else None
  end.
Definition int_parse (value : str) : res Z :=
  let s := strip_space value in
  let '(sign, s) :=
    match s with
    | c :: s' => if N.eqb c c_dash then (-1, s') else if N.eqb c c_plus then (1, s') else (1, s)
    | [] => (1, s)
    end in
  match int_digits false s with
  | Some d => Ok (sign * Z.of_N (undec d))
  | None => Err ValueError
  end.

(** [BinaryConverter] (generic.py:27-41): standard base64. *)
Open Scope N_scope.
Definition b64_char (v : N) : char :=
  if v <? 26 then 65 + v else if v <? 52 then 71 + v else if v <? 62 then v - 4
  else if v =? 62 then 43 else 47.
Definition b64_val (c : char) : option N :=
  if (65 <=? c) && (c <=? 90) then Some (c - 65)
  else if (97 <=? c) && (c <=? 122) then Some (c - 71)
  else if (48 <=? c) && (c <=? 57) then Some (c + 4)
  else if c =? 43 then Some 62 else if c =? 47 then Some 63 else None.
Definition c_pad : char := 61.

(** [base64.b64encode] (CPython binascii.b2a_base64). *)
Fixpoint binary_serialize (bs : list N) : str :=
  match bs with
  | a :: b :: c :: bs' =>
      b64_char (a / 4) :: b64_char (a mod 4 * 16 + b / 16)
      :: b64_char (b mod 16 * 4 + c / 64) :: b64_char (c mod 64) :: binary_serialize bs'
  | [a; b] =>
      [b64_char (a / 4); b64_char (a mod 4 * 16 + b / 16); b64_char (b mod 16 * 4); c_pad]
  | [a] => [b64_char (a / 4); b64_char (a mod 4 * 16); c_pad; c_pad]
  | [] => []
  end.

(** [base64.b64decode] without validation (CPython 3.11 binascii.a2b_base64, not
    strict): state [quad] (position in the group of four), [left] (pending bits),
    [pads]. *)
Fixpoint b64_loop (s : str) (quad : N) (left : N) (pads : N) : res (list N) :=
  match s with
  | [] => if quad =? 0 then Ok [] else Err ValueError
  | c :: s' =>
      if c =? c_pad then
        if 2 <=? quad then
          if 4 <=? quad + (pads + 1) then Ok []           (* goto done *)
          else b64_loop s' quad left (pads + 1)
        else b64_loop s' quad left pads
      else match b64_val c with
           | None => b64_loop s' quad left pads
           | Some v =>
               if quad =? 0 then b64_loop s' 1 v 0
               else if quad =? 1 then
                 do r <- b64_loop s' 2 (v mod 16) 0; Ok ((left * 4 + v / 16) mod 256 :: r)
               else if quad =? 2 then
                 do r <- b64_loop s' 3 (v mod 4) 0; Ok ((left * 16 + v / 4) mod 256 :: r)
               else
                 do r <- b64_loop s' 0 0 0; Ok ((left * 64 + v) mod 256 :: r)
           end
  end.
(** Non-ASCII characters are a ValueError before decoding. *)
Definition binary_parse (s : str) : res (list N) :=
  if forallb (fun c => c <? 128) s then b64_loop s 0 0 0 else Err ValueError.
