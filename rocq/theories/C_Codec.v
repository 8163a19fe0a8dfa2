(** * C12-C14, C40, C41: DURATION, UTC-OFFSET, BOOLEAN, INTEGER, BINARY *)
From Verif Require Import M_Base P_Base M_Codec S_Codec P_Codec P_CodecX P_CodecX2.
Open Scope Z_scope.

(** C12. Whole seconds survive; below 2^34 seconds a fraction is cut off towards zero. *)
Theorem C12_duration_roundtrip : forall us, TD_MIN <= us <= TD_MAX ->
  Z.abs us < 2 ^ 34 * US_SEC \/ us mod US_SEC = 0 ->
  duration_parse (duration_serialize us) = Ok (Z.quot us US_SEC * US_SEC).
Proof. exact duration_roundtrip_gen. Qed.
Print Assumptions C12_duration_roundtrip.
Example C12_example : duration_serialize (-90061 * US_SEC - 7) = py "-P1DT1H1M1S" /\
  duration_parse (py "-P1DT1H1M1S") = Ok (-90061 * US_SEC).
Proof. split; vm_compute; reflexivity. Qed.

(** C12, finding: without the bound the fraction is not cut off: [total_seconds()]
    is a double, so the largest timedelta is written as one second more, which
    cannot be read back at all. *)
Theorem C12_truncation_refuted :
  duration_parse (duration_serialize (2 ^ 35 * US_SEC - 1)) = Ok (2 ^ 35 * US_SEC) /\
  duration_parse (duration_serialize TD_MAX) = Err OverflowError.
Proof. split; vm_compute; reflexivity. Qed.
Print Assumptions C12_truncation_refuted.

(** C12. The written text is an RFC 5545 dur-value denoting the duration, unless it
    has hours and seconds but no minutes. *)
Theorem C12_written_grammar : forall us,
  (let r := (Z.abs us / US_SEC) mod 86400 in r / 3600 = 0 \/ r mod 3600 / 60 <> 0 \/ r mod 60 = 0) ->
  Z.abs us < 2 ^ 34 * US_SEC \/ us mod US_SEC = 0 -> TD_MIN <= us <= TD_MAX ->
  DurValue (duration_serialize us) (Z.quot us US_SEC).
Proof. exact serialize_rfc. Qed.
Print Assumptions C12_written_grammar.
Example C12_example_grammar : DurValue (py "PT1H1M1S") 3661.
Proof.
  assert (E : duration_serialize (3661 * US_SEC) = py "PT1H1M1S") by (vm_compute; reflexivity).
  rewrite <- E. apply (C12_written_grammar (3661 * US_SEC)).
  - vm_compute. right. left. discriminate.
  - right. vm_compute. reflexivity.
  - vm_compute. split; discriminate.
Qed.

(** C12, finding: "PT1H1S" is written, which the RFC grammar does not derive. *)
Theorem C12_written_grammar_refuted :
  duration_serialize (3601 * US_SEC) = py "PT1H1S" /\ ~ exists v, DurValue (py "PT1H1S") v.
Proof.
  split; [vm_compute; reflexivity|]. intros (v & H).
  assert (HM : In 77%N (py "PT1H1S")).
  { apply (durvalue_HSM _ _ H); vm_compute; tauto. }
  vm_compute in HM. intuition discriminate.
Qed.
Print Assumptions C12_written_grammar_refuted.

(** C13. Every RFC 5545 dur-value is read as its signed sum (or rejected because a
    timedelta cannot hold it). *)
Theorem C13_grammar_meaning : forall s secs, DurValue s secs ->
  duration_parse s = timedelta (secs * US_SEC).
Proof. exact (fun s v H => accepted_parse s v (durvalue_accepted s v H)). Qed.
Print Assumptions C13_grammar_meaning.
Example C13_example : duration_parse (py "+P0015DT5H0M20S") = Ok (1314020 * US_SEC).
Proof. vm_compute. reflexivity. Qed.

(** C13. Exactly these strings are accepted, with exactly these values. *)
Theorem C13_exact : forall s us, duration_parse s = Ok us <->
  exists secs, Accepted s secs /\ us = secs * US_SEC /\ TD_MIN <= us <= TD_MAX.
Proof. exact duration_parse_exact. Qed.
Print Assumptions C13_exact.

(** C13. Anything else terminates with one of two exceptions; OverflowError exactly
    for grammatical durations that are too large. *)
Theorem C13_total : forall s e, duration_parse s = Err e ->
  e = ValueError \/ e = IndexError \/ e = OverflowError.
Proof. exact duration_parse_errors. Qed.
Print Assumptions C13_total.
Theorem C13_overflow_iff : forall s, duration_parse s = Err OverflowError <->
  exists secs, Accepted s secs /\ ~ TD_MIN <= secs * US_SEC <= TD_MAX.
Proof. exact duration_parse_overflow. Qed.
Print Assumptions C13_overflow_iff.
Example C13_example_overflow : duration_parse (py "P1000000000D") = Err OverflowError.
Proof. vm_compute. reflexivity. Qed.

(** C13, findings: not always ValueError; non-RFC spellings are accepted ("P1M" is one
    minute, "PT" is zero, weeks may be mixed with the rest, any order). *)
Theorem C13_value_error_refuted :
  duration_parse [] = Err IndexError /\ duration_parse (py "-") = Err IndexError /\
  duration_parse (py "P5") = Err IndexError.
Proof. repeat split; vm_compute; reflexivity. Qed.
Print Assumptions C13_value_error_refuted.
Theorem C13_strict_refuted :
  duration_parse (py "P1M") = Ok (60 * US_SEC) /\ duration_parse (py "PT") = Ok 0 /\
  duration_parse (py "P1S1W") = Ok (604801 * US_SEC) /\ duration_parse (py "PT1D") = Ok US_DAY.
Proof. repeat split; vm_compute; reflexivity. Qed.
Print Assumptions C13_strict_refuted.

(** C14. Offsets below 100 hours survive (fractions are cut off). *)
Theorem C14_offset_roundtrip : forall us, Z.abs us < 360000 * US_SEC ->
  utcoffset_parse (utcoffset_serialize us) = Ok (Z.quot us US_SEC * US_SEC).
Proof. exact offset_roundtrip. Qed.
Print Assumptions C14_offset_roundtrip.
(** C14. The text has the sign, hours, minutes and seconds of the offset. *)
Theorem C14_written_form : forall us, Z.abs us < 360000 * US_SEC ->
  OffsetValue (utcoffset_serialize us) (Z.quot us US_SEC).
Proof. exact offset_serialize_value. Qed.
Print Assumptions C14_written_form.
Theorem C14_parse_exact : forall s us,
  utcoffset_parse s = Ok us <-> exists v, OffsetValue s v /\ us = v * US_SEC.
Proof. exact offset_parse_exact. Qed.
Print Assumptions C14_parse_exact.
Theorem C14_parse_errors : forall s e, utcoffset_parse s = Err e -> e = ValueError.
Proof. exact offset_parse_error. Qed.
Print Assumptions C14_parse_errors.
(** C14. The bound is sharp: no longer offset survives. *)
Theorem C14_bound_sharp : forall us, 360000 * US_SEC <= Z.abs us -> forall v,
  utcoffset_parse (utcoffset_serialize us) = Ok v -> v <> us.
Proof. exact offset_100h. Qed.
Print Assumptions C14_bound_sharp.
Example C14_example : utcoffset_serialize (-12345 * US_SEC) = py "-032545" /\
  utcoffset_parse (py "-032545") = Ok (-12345 * US_SEC) /\ utcoffset_serialize (7200 * US_SEC) = py "+0200".
Proof. repeat split; vm_compute; reflexivity. Qed.
Example C14_example_long : utcoffset_serialize (3600000 * US_SEC) = py "+100000" /\
  utcoffset_parse (py "+100000") = Ok (36000 * US_SEC).
Proof. split; vm_compute; reflexivity. Qed.

(** C40. *)
Theorem C40_bool_roundtrip : forall b, bool_parse (bool_serialize b) = Ok b.
Proof. exact bool_roundtrip. Qed.
Print Assumptions C40_bool_roundtrip.
(** C40. The words accepted, in any letter case. *)
Theorem C40_bool_exact : forall s b, bool_parse s = Ok b <->
  exists w, In w (if b then true_words else false_words) /\ same_letters s w.
Proof. exact bool_parse_exact. Qed.
Print Assumptions C40_bool_exact.
Theorem C40_bool_errors : forall s e, bool_parse s = Err e -> e = ValueError.
Proof. exact bool_parse_error. Qed.
Print Assumptions C40_bool_errors.
Example C40_example : bool_parse (py "fALse") = Ok false /\ bool_parse (py "maybe") = Err ValueError.
Proof. split; vm_compute; reflexivity. Qed.
(** C40, finding: TRUE and FALSE are not the only words accepted. *)
Theorem C40_only_true_false_refuted :
  bool_parse (py "1") = Ok true /\ bool_parse (py "off") = Ok false.
Proof. split; vm_compute; reflexivity. Qed.
Print Assumptions C40_only_true_false_refuted.
Theorem C40_int_roundtrip : forall n, int_parse (int_serialize n) = Ok n.
Proof. exact int_roundtrip. Qed.
Print Assumptions C40_int_roundtrip.
(** C40. Written integers are a minus sign or nothing and digits; all such (also with
    plus sign and leading zeros) are read with their value. *)
Theorem C40_int_written : forall n, IntLit (int_serialize n) n.
Proof. exact int_serialize_lit. Qed.
Print Assumptions C40_int_written.
Theorem C40_int_read : forall s v, IntLit s v -> int_parse s = Ok v.
Proof. exact intlit_parse. Qed.
Print Assumptions C40_int_read.
Theorem C40_int_errors : forall s e, int_parse s = Err e -> e = ValueError.
Proof. exact int_parse_error. Qed.
Print Assumptions C40_int_errors.
Example C40_example_int : int_serialize (-120) = py "-120" /\ int_parse (py "+0007") = Ok 7 /\
  int_parse (py "1__0") = Err ValueError.
Proof. repeat split; vm_compute; reflexivity. Qed.

(** C40. Exactly which texts are read as integers, and as which. *)
Theorem C40_int_exact : forall s v, int_parse s = Ok v <-> IntText s v.
Proof. exact int_exact. Qed.
Print Assumptions C40_int_exact.
Example C40_example_exact : IntText (py " -1_000 ") (-1000) /\ ~ exists v, IntText (py "1__0") v.
Proof.
  split; [apply C40_int_exact; vm_compute; reflexivity|].
  intros (v & H). apply C40_int_exact in H. vm_compute in H. discriminate.
Qed.

(** C41. *)
Theorem C41_binary_roundtrip : forall bs, Forall byte bs ->
  binary_parse (binary_serialize bs) = Ok bs.
Proof. exact binary_roundtrip. Qed.
Print Assumptions C41_binary_roundtrip.
(** C41. The written form is the RFC 4648 encoding and nothing else. *)
Theorem C41_binary_encoding : forall bs s, Forall byte bs ->
  (Base64 bs s <-> s = binary_serialize bs).
Proof. exact binary_serialize_exact. Qed.
Print Assumptions C41_binary_encoding.
(** C41. Only alphabet characters and at most two padding signs at the end. *)
Theorem C41_binary_alphabet : forall bs, Forall byte bs ->
  exists body p, binary_serialize bs = body ++ repeat 61%N p /\ (p <= 2)%nat /\
    (forall c, In c body -> In c alphabet) /\ length (binary_serialize bs) = (4 * ((length bs + 2) / 3))%nat.
Proof. exact (fun bs H => base64_shape _ _ (binary_base64 bs H)). Qed.
Print Assumptions C41_binary_alphabet.
(** C41. ASCII characters outside the alphabet are ignored in reading. *)
Theorem C41_binary_ignores : forall bs s, Forall byte bs -> (forall c, In c s -> (c < 128)%N) ->
  filter relevant s = binary_serialize bs -> binary_parse s = Ok bs.
Proof. exact binary_parse_ignores. Qed.
Print Assumptions C41_binary_ignores.
(** C41. Any text gives bytes or ValueError. *)
Theorem C41_binary_total : forall s,
  match binary_parse s with Ok bs => Forall byte bs | Err e => e = ValueError end.
Proof. exact binary_parse_total. Qed.
Print Assumptions C41_binary_total.
Example C41_example : binary_serialize [255; 0; 16; 7]%N = py "/wAQBw==" /\
  binary_parse (py "/wA QBw==") = Ok [255; 0; 16; 7]%N /\ binary_parse (py "QUI") = Err ValueError.
Proof. repeat split; vm_compute; reflexivity. Qed.
(** C41. Exactly which texts are read, and as which bytes. *)
Theorem C41_binary_exact : forall s bs, binary_parse s = Ok bs <-> b64_reads s bs.
Proof. exact binary_exact. Qed.
Print Assumptions C41_binary_exact.
Example C41_example_exact : b64_reads (py "QU=JC") [65; 66; 66]%N /\ b64_reads (py "QUI=QUJC") [65; 66]%N /\
  ~ exists bs, b64_reads (py "QUJCQ") bs.
Proof.
  split; [|split]; [apply C41_binary_exact; vm_compute; reflexivity..|].
  intros (v & H). apply C41_binary_exact in H. vm_compute in H. discriminate.
Qed.
