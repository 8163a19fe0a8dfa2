(** * Specification of the shortest text of a double (C70) *)
From Verif Require Import M_Base M_Codec S_Codec M_Float S_Float.
Open Scope Z_scope.

(** [n / d] is a decimal number of at most [j] digits, not counting zeros before and after them. *)
Definition short (n d j : Z) : Prop := exists a e e', 0 <= e /\ 0 <= e' /\ 0 <= a < 10 ^ j /\ n * 10 ^ e = a * 10 ^ e' * d.
(** The distance of [n / d] from the double is at most that of [n' / d']. *)
Definition not_farther (m E n d n' d' : Z) : Prop :=
  Z.abs (n * 2 ^ 1074 - m * 2 ^ E * d) * d' <= Z.abs (n' * 2 ^ 1074 - m * 2 ^ E * d') * d.

(** ** The forms of a text *)
Definition digits_only (s : list N) : Prop := s <> [] /\ forall c, In c s -> (48 <= c <= 57)%N.
Definition no_first_zero (s : list N) : Prop := forall r, s <> 48%N :: r.
Definition no_last_zero (s : list N) : Prop := forall r, s <> r ++ [48%N].
(** Digits, a point and digits, without needless zeros. *)
Definition point_form (t : list N) : Prop := exists i f, t = i ++ py "." ++ f /\ digits_only i /\ digits_only f /\
  (i = py "0" \/ no_first_zero i) /\ (f = py "0" \/ no_last_zero f).
(** One digit that is not zero, perhaps a point and digits, and a signed exponent of at
    least two digits. *)
Definition exponent_form (t : list N) : Prop := exists a f g x, t = [a] ++ f ++ py "e" ++ g ++ x /\ (49 <= a <= 57)%N /\
  (f = [] \/ exists r, f = py "." ++ r /\ digits_only r /\ no_last_zero r) /\ (g = py "+" \/ g = py "-") /\
  digits_only x /\ (2 <= length x)%nat /\ ((2 < length x)%nat -> no_first_zero x).
(** At least a ten thousandth and below ten to the sixteenth. *)
Definition medium (n d : Z) : Prop := d <= n * 10 ^ 4 /\ n < 10 ^ 16 * d.
