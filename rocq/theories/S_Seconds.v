(** * Specification: the text of an offset whose seconds are rounded to a double *)
From Verif Require Import M_Base M_Codec M_Float S_Float.
Open Scope Z_scope.

(** The double next to the seconds, as a multiple [v] of [2 ^ -1074]. *)
Definition seconds_rounded (us v : Z) : Prop :=
  exists m E, nearest (Z.abs us) 1000000 m E /\ even_tie (Z.abs us) 1000000 m E /\ v = m * 2 ^ E.
(** Hours, minutes and, unless there is nothing left of them, seconds: whole numbers with
    [h] hours, [i] minutes, [s] seconds and a rest [r] below a second. *)
Definition two_digits (n : Z) : list N := pad 2 (Z.to_N n).
Inductive clock_text (sign : list N) (v : Z) : list N -> Prop :=
| CT_minutes h i : 0 <= i < 60 -> v = (h * 3600 + i * 60) * 2 ^ 1074 ->
    clock_text sign v (sign ++ two_digits h ++ two_digits i)
| CT_seconds h i s r : 0 <= i < 60 -> 0 <= s < 60 -> 0 <= r < 2 ^ 1074 -> v = (h * 3600 + i * 60 + s) * 2 ^ 1074 + r ->
    0 < s \/ 0 < r -> clock_text sign v (sign ++ two_digits h ++ two_digits i ++ two_digits s).
