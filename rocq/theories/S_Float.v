(** * Specification of decimal texts and of the doubles next to them *)
From Verif Require Import M_Base M_Codec S_Codec M_Comp M_Float.
Open Scope Z_scope.

(** Finite doubles: 53 bits, as many of them as the smallest exponent permits. *)
Definition finite (m E : Z) : Prop := 0 <= m < 2 ^ 53 /\ 0 <= E <= 2045 /\ (E = 0 \/ 2 ^ 52 <= m).
Definition bits (b : N) : Prop := (b < 2 ^ 64)%N.
(** The bits of a finite double. *)
Definition stands (b : N) (neg : bool) (m E : Z) : Prop := finite m E /\
  Z.of_N b = (if neg then 2 ^ 63 else 0) + if m <? 2 ^ 52 then m else (E + 1) * 2 ^ 52 + (m - 2 ^ 52).
(** The finite double [m * 2 ^ (E - 1074)] is one nearest to [n / d]. *)
Definition nearest (n d m E : Z) : Prop := finite m E /\
  forall m' E', finite m' E' -> Z.abs (m * 2 ^ E * d - n * 2 ^ 1074) <= Z.abs (m' * 2 ^ E' * d - n * 2 ^ 1074).
(** If there are two of them, it is the one ending in a zero bit. *)
Definition even_tie (n d m E : Z) : Prop := forall m' E', finite m' E' -> (m', E') <> (m, E) ->
  Z.abs (m * 2 ^ E * d - n * 2 ^ 1074) = Z.abs (m' * 2 ^ E' * d - n * 2 ^ 1074) -> Z.even m = true.
(** At least half a step above the largest finite double, [(2 ^ 53 - 1) * 2 ^ 971]: read as infinity. *)
Definition too_large (n d : Z) : Prop := (2 ^ 54 - 1) * 2 ^ 970 * d <= n.
Definition infinite (b : N) (neg : bool) : Prop := Z.of_N b = (if neg then 2 ^ 63 else 0) + 2047 * 2 ^ 52.
(** What is read for [n / d]. *)
Definition rounded (neg : bool) (n d : Z) (b : N) : Prop :=
  (~ too_large n d /\ exists m E, stands b neg m E /\ nearest n d m E /\ even_tie n d m E) \/ (too_large n d /\ infinite b neg).
(** The sign, and the number after it: digits, perhaps a point and further digits. *)
Inductive decimal : list N -> Z -> Z -> Prop :=
| D_whole ds n : number ds n -> decimal ds n 0
| D_point ds n fs f : number ds n -> number fs f ->
    decimal (ds ++ py "." ++ fs) (n * 10 ^ Z.of_nat (length fs) + f) (Z.of_nat (length fs)).
Inductive signed : list N -> bool -> Z -> Z -> Prop :=
| S_plus t n k : decimal t n k -> signed t false n k
| S_plus_sign t n k : decimal t n k -> signed (py "+" ++ t) false n k
| S_minus t n k : decimal t n k -> signed (py "-" ++ t) true n k.
(** Exactly six digits after the point, no superfluous zeros before it: the [n]
    millionths are the nearest ones to the double. *)
Definition six (t : list N) (n : Z) : Prop := exists ds fs i f, t = ds ++ py "." ++ fs /\ number ds i /\ number fs f /\
  length fs = 6%nat /\ n = i * 10 ^ 6 + f /\ (forall r, ds = 48%N :: r -> r = []).
Definition nearest_six (m E n : Z) : Prop :=
  forall n', Z.abs (n * 2 ^ 1074 - m * 2 ^ E * 10 ^ 6) <= Z.abs (n' * 2 ^ 1074 - m * 2 ^ E * 10 ^ 6) /\
  (n' <> n -> Z.abs (n * 2 ^ 1074 - m * 2 ^ E * 10 ^ 6) = Z.abs (n' * 2 ^ 1074 - m * 2 ^ E * 10 ^ 6) -> Z.even n = true).

(** ** All texts of numbers *)
(** Digits, perhaps with single underscores between them. *)
Inductive under : list N -> list N -> Prop :=
| U_one c : (48 <= c <= 57)%N -> under [c] [c]
| U_next c t ds : (48 <= c <= 57)%N -> under t ds -> under (c :: t) (c :: ds)
| U_under c t ds : (48 <= c <= 57)%N -> under t ds -> under (c :: 95%N :: t) (c :: ds).
Inductive maybe_under : list N -> list N -> Prop :=
| MU_none : maybe_under [] []
| MU_some t ds : under t ds -> maybe_under t ds.
(** The digits, and how many of them are after the point. *)
Inductive mantissa : list N -> list N -> Z -> Prop :=
| M_whole t ds : under t ds -> mantissa t ds 0
| M_point a x b y : maybe_under a x -> maybe_under b y -> x ++ y <> [] ->
    mantissa (a ++ py "." ++ b) (x ++ y) (Z.of_nat (length y)).
Definition sign (t : list N) (neg : bool) : Prop := t = [] /\ neg = false \/ t = py "+" /\ neg = false \/ t = py "-" /\ neg = true.
Inductive exponent : list N -> Z -> Prop :=
| E_none : exponent [] 0
| E_some e s neg t ds : (e = py "e" \/ e = py "E") -> sign s neg -> under t ds ->
    exponent (e ++ s ++ t) (if neg then - Z.of_N (undec ds) else Z.of_N (undec ds)).
Definition blank (t : list N) : Prop := forall c, In c t -> (9 <= c <= 13)%N \/ c = 32%N.
(** The number is [n / d]. *)
Definition numeral (t : list N) (neg : bool) (n d : Z) : Prop := exists l s m ds k e x r,
  t = l ++ s ++ m ++ e ++ r /\ blank l /\ blank r /\ sign s neg /\ mantissa m ds k /\ exponent e x /\
  n = Z.of_N (undec ds) * 10 ^ Z.max 0 (x - k) /\ d = 10 ^ Z.max 0 (k - x).
(** Words, in any case. *)
Definition spells (w t : list N) : Prop := Forall2 (fun a b => b = a \/ (97 <= a <= 122)%N /\ b = (a - 32)%N) w t.
Definition word_of (w : list N) (t : list N) (neg : bool) : Prop := exists l s u r,
  t = l ++ s ++ u ++ r /\ blank l /\ blank r /\ sign s neg /\ spells w u.
Definition not_a_number (b : N) : Prop := (2047 * 2 ^ 52 < b mod 2 ^ 63)%N.
(** What a text is read as. *)
Inductive float_text : list N -> (N -> Prop) -> Prop :=
| FT_number t neg n d : numeral t neg n d -> float_text t (rounded neg n d)
| FT_inf t neg w : w = py "inf" \/ w = py "infinity" -> word_of w t neg -> float_text t (fun b => infinite b neg)
| FT_nan t neg : word_of (py "nan") t neg -> float_text t not_a_number.

(** ** Coordinates *)
(** [float] and ["%f"] are those of CPython. *)
Definition float_ext (X : ext) : Prop := (forall s, x_float X s = fl_read s) /\ (forall b, x_ffmt X b = fl_show b).
