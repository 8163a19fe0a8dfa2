(** * C70: values of the type FLOAT *)
From Verif Require Import M_Base M_Codec S_Codec M_Float S_Float P_Float P_Float2 P_Float3 P_Float4 P_Float5 P_Float6 P_FloatEx M_Repr S_Repr P_Repr P_Repr2 P_Repr3 P_Repr4 P_ReprEx.
Open Scope Z_scope.

(** ** C70. A text is read as the nearest double exactly if it is the text of a number; *)
Theorem C70_read : forall t,
  (exists P b, float_text t P /\ float_parse t = Ok b /\ P b) \/ ((forall P, ~ float_text t P) /\ float_parse t = Err ValueError).
Proof. exact parse_cases. Qed.
Print Assumptions C70_read.
Example C70_read_example : float_text (py " -0_0.1_0e+0 ") (rounded true 10 100) /\ float_parse (py "1,5") = Err ValueError.
Proof. split; [exact (FT_number _ _ _ _ tenth_text)|now vm_compute]. Qed.
(** every double is read from what was written for it, sign and all bits, *)
Theorem C70_kept : forall b, bits b -> ~ not_a_number b -> float_parse (float_serialize b) = Ok b.
Proof. exact repr_read. Qed.
Print Assumptions C70_kept.
Example C70_kept_example : bits (tenth + 2 ^ 63) /\ ~ not_a_number (tenth + 2 ^ 63) /\ float_serialize (tenth + 2 ^ 63) = py "-0.1".
Proof. split; [now vm_compute|]. split; [now vm_compute|now vm_compute]. Qed.
(** and two doubles that are numbers have different texts. *)
Theorem C70_distinct : forall a b, bits a -> bits b -> ~ not_a_number a -> ~ not_a_number b -> float_serialize a = float_serialize b -> a = b.
Proof. exact repr_inj. Qed.
Print Assumptions C70_distinct.
Example C70_distinct_example : float_serialize 4591870180066957722 = py "0.1" /\ float_serialize 4591870180066957723 = py "0.10000000000000002".
Proof. split; now vm_compute. Qed.
(** What is not a number stays so, but not its bits. *)
Theorem C70_nan : forall b, bits b -> not_a_number b ->
  float_serialize b = py "nan" /\ exists b', float_parse (float_serialize b) = Ok b' /\ not_a_number b'.
Proof. exact repr_nan. Qed.
Print Assumptions C70_nan.
Example C70_nan_example : bits 18446744073709551615 /\ not_a_number 18446744073709551615.
Proof. split; now vm_compute. Qed.
Theorem C70_nan_refuted : exists b, bits b /\ float_parse (float_serialize b) <> Ok b.
Proof. exact nan_changed. Qed.
Print Assumptions C70_nan_refuted.
(** The text has the least number of digits that are read as the double, and among those
    the nearest to it. *)
Theorem C70_shortest : forall b neg m E, stands b neg m E -> 0 < m -> exists n d j,
  numeral (float_serialize b) neg n d /\ short n d j /\ rounded neg n d b /\
  (forall n' d' j', 0 <= n' -> 0 < d' -> rounded neg n' d' b -> short n' d' j' -> j <= j') /\
  (forall n' d', 0 <= n' -> 0 < d' -> rounded neg n' d' b -> short n' d' j -> not_farther m E n d n' d').
Proof. exact repr_shortest. Qed.
Print Assumptions C70_shortest.
Example C70_shortest_example : stands tenth false 7205759403792794 1018 /\ float_serialize tenth = py "0.1".
Proof. split; [exact tenth_stands|now vm_compute]. Qed.
(** It is written with a point from a ten thousandth up to ten to the sixteenth, else with
    an exponent. *)
Theorem C70_form : forall b neg m E, stands b neg m E -> 0 < m -> exists t n d,
  float_serialize b = (if neg then py "-" else []) ++ t /\ numeral t false n d /\
  (medium n d /\ point_form t \/ ~ medium n d /\ exponent_form t).
Proof. exact repr_form. Qed.
Print Assumptions C70_form.
Example C70_form_example : stands 4502148214488346440 false 7555786372591432 998 /\ float_serialize 4502148214488346440 = py "1e-07" /\
  float_serialize 4787326403894837248 = py "1099511627776.0".
Proof. split; [exact (proj1 small_stands)|]. split; now vm_compute. Qed.
Theorem C70_zero : forall b neg, stands b neg 0 0 -> float_serialize b = (if neg then py "-" else []) ++ py "0.0".
Proof. exact repr_zero. Qed.
Print Assumptions C70_zero.
Example C70_zero_example : stands (2 ^ 63) true 0 0.
Proof. exact zero_stands. Qed.
Theorem C70_infinite : forall b neg, infinite b neg -> float_serialize b = (if neg then py "-" else []) ++ py "inf".
Proof. exact repr_infinite. Qed.
Print Assumptions C70_infinite.
Example C70_infinite_example : infinite (Z.to_N (2047 * 2 ^ 52)) false.
Proof. now vm_compute. Qed.
(** Whatever was read is read again from what is written for it. *)
Theorem C70_again : forall t b, float_parse t = Ok b -> ~ not_a_number b -> float_parse (float_serialize b) = Ok b.
Proof. exact parse_again. Qed.
Print Assumptions C70_again.
Example C70_again_example : float_parse (py "0.10000000000000000555") = Ok tenth.
Proof. now vm_compute. Qed.
