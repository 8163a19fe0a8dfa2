(** * Property C78: seconds computed with floats *)
From Verif Require Import M_Base M_Codec M_Float S_Float M_Seconds S_Seconds P_Seconds P_SecondsEx.
Open Scope Z_scope.

(** C78. The text of an offset has the hours, minutes and seconds of the double next to
    its seconds, whatever is rounded on the way, *)
Theorem C78_offset_text : forall us, TD_MIN <= us <= TD_MAX -> exists v, seconds_rounded us v /\
  clock_text (if us <? 0 then py "-" else py "+") v (offset_text us).
Proof. exact offset_spec_td. Qed.
Print Assumptions C78_offset_text.
Example C78_offset_text_example : TD_MIN <= -5400000000 <= TD_MAX /\ offset_text (-5400000000) = py "-0130".
Proof. split; [split; vm_compute; discriminate|vm_compute; reflexivity]. Qed.
(** and there is only one such double. *)
Theorem C78_one_double : forall us v w, seconds_rounded us v -> seconds_rounded us w -> v = w.
Proof. exact rounded_once. Qed.
Print Assumptions C78_one_double.
(** C78. It is zero for no other offset, so the sign is that of the microseconds. *)
Theorem C78_sign : forall us, TD_MIN <= us <= TD_MAX -> forall v, seconds_rounded us v -> (v = 0 <-> us = 0).
Proof. exact sign_kept. Qed.
Print Assumptions C78_sign.
(** C78. Below [2 ^ 34] seconds, about 544 years, it is the text computed with integers (C14), *)
Theorem C78_offset_integers : forall us, Z.abs us < 2 ^ 34 * US_SEC -> offset_text us = utcoffset_serialize us.
Proof. exact offset_same. Qed.
Print Assumptions C78_offset_integers.
Example C78_offset_integers_example : Z.abs (-3723500000) < 2 ^ 34 * US_SEC /\ offset_text (-3723500000) = py "-010203".
Proof. split; vm_compute; reflexivity. Qed.
(** so offsets below 100 hours are read back up to the fraction. *)
Theorem C78_offset_roundtrip : forall us, Z.abs us < 360000 * US_SEC ->
  utcoffset_parse (offset_text us) = Ok (Z.quot us US_SEC * US_SEC).
Proof. exact offset_back. Qed.
Print Assumptions C78_offset_roundtrip.
(** Finding: not for all time differences, as a fraction may be rounded up. *)
Theorem C78_offset_refuted : ~ forall us, TD_MIN <= us <= TD_MAX -> offset_text us = utcoffset_serialize us.
Proof. exact rounded_up. Qed.
Print Assumptions C78_offset_refuted.
(** C78. The seconds of a duration in C13 are the whole part of this double, *)
Theorem C78_duration : forall us, TD_MIN <= us <= TD_MAX -> int_total_seconds (Z.abs us) = duration_total us.
Proof. exact duration_same_td. Qed.
Print Assumptions C78_duration.
Theorem C78_duration_whole : forall us, TD_MIN <= us <= TD_MAX -> exists v, seconds_rounded us v /\
  duration_total us * 2 ^ 1074 <= v < (duration_total us + 1) * 2 ^ 1074.
Proof. exact duration_spec. Qed.
Print Assumptions C78_duration_whole.
Example C78_duration_example : duration_total (-90500000) = 90 /\ duration_total (2 ^ 46 * US_SEC + 999999) = 2 ^ 46 + 1.
Proof. split; vm_compute; reflexivity. Qed.
(** Finding: it is not the whole part of the seconds. *)
Theorem C78_duration_refuted : ~ forall us, TD_MIN <= us <= TD_MAX -> duration_total us = Z.abs us / 1000000.
Proof. exact duration_up. Qed.
Print Assumptions C78_duration_refuted.
