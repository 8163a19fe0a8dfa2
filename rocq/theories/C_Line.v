(** * C04-C06: parameter values and content lines *)
From Verif Require Import M_Base M_Line S_Line P_Line.

(** C04. Encoding then decoding removes carriage returns and nothing else. *)
Theorem C04_param_roundtrip : forall s,
  unescape_param (escape_param s) = Ok (filter (fun c => negb (c =? 13)) s).
Proof. exact unescape_escape_param. Qed.
Print Assumptions C04_param_roundtrip.

(** C04. The original comes back exactly iff it has no CR (13). *)
Theorem C04_param_roundtrip_iff : forall s,
  unescape_param (escape_param s) = Ok s <-> ~ In 13 s.
Proof. exact param_roundtrip_iff. Qed.
Print Assumptions C04_param_roundtrip_iff.

(** C04. The encoded form has no double quote, LF or CR. *)
Theorem C04_param_encoded_safe : forall s, none_of [34; 10; 13] (escape_param s).
Proof. exact escape_param_safe. Qed.
Print Assumptions C04_param_encoded_safe.

(** C04. Decoding accepts exactly RFC 6868 caret encoding. *)
Theorem C04_param_decode_sound : forall w v, unescape_param w = Ok v -> Caret w v.
Proof. exact unescape_param_sound. Qed.
Print Assumptions C04_param_decode_sound.
Theorem C04_param_decode_complete : forall w v, Caret w v -> unescape_param w = Ok v.
Proof. exact unescape_param_complete. Qed.
Print Assumptions C04_param_decode_complete.
Theorem C04_param_decode_error : forall w e, unescape_param w = Err e -> e = ParseError.
Proof. exact unescape_param_err. Qed.
Print Assumptions C04_param_decode_error.

(** C04, finding: "encoding is lossless for every string" is false. *)
Theorem C04_param_lossless_refuted : exists s, unescape_param (escape_param s) <> Ok s.
Proof. exists [97; 13; 98]. vm_compute. discriminate. Qed.
Print Assumptions C04_param_lossless_refuted.

Example C04_example :
  escape_param (py "a^n'b" ++ [34; 10]) = py "a^^n'b^'^n"
  /\ unescape_param (py "a^^n'b^'^n") = Ok (py "a^n'b" ++ [34; 10])
  /\ unescape_param (py "^x") = Err ParseError.
Proof. repeat split. Qed.

(** C05. Writing and parsing a well-formed content line gives an equal line. *)
Theorem C05_line_roundtrip : forall cl,
  wf_line cl ->
  exists cl', parse_line (serialize_unwrapped cl false) = Ok cl' /\ line_eq cl' cl.
Proof. exact line_roundtrip. Qed.
Print Assumptions C05_line_roundtrip.

Example C05_example_wf :
  wf_line (mk_line (py "ATTENDEE")
    [(py "CN", [PRaw (py "a:b,c;d")]); (py "X", [PRaw []; PQuoted []; PRaw (py "^'" ++ [34; 10])])]
    (py "mailto:x;y=z")).
Proof.
  repeat split; cbn;
  try (intros c Hc Hin; cbn in *; intuition (subst; discriminate)).
  - repeat constructor; cbn; intuition discriminate.
  - destruct H as [[= <- <-]|[[= <- <-]|[]]];
      intros c Hc Hin; cbn in *; intuition (subst; discriminate).
  - destruct H as [[= <- <-]|[[= <- <-]|[]]]; easy.
  - destruct H as [[= <- <-]|[[= <- <-]|[]]]; intros v Hv Hin; cbn in Hv;
      repeat destruct Hv as [<-|Hv]; try easy; cbn in Hin; intuition discriminate.
  - destruct H as [[= <- <-]|[[= <- <-]|[]]]; easy.
Qed.
Example C05_example :
  serialize_unwrapped (mk_line (py "A") [(py "P", [PRaw (py "x,y"); PRaw (py "z")])] (py "v")) false
  = py "A;P=" ++ [34] ++ py "x,y" ++ [34] ++ py ",z:v".
Proof. reflexivity. Qed.

(** C05, finding: without the condition on the last value the library cannot read
    its own output ([ContentLine("A", {"P": [""]}, "v")]). *)
Theorem C05_empty_param_value_refuted : exists cl,
  cl_params cl = [(py "P", [PRaw []])] /\
  parse_line (serialize_unwrapped cl false) = Err ParseError.
Proof. exists (mk_line (py "A") [(py "P", [PRaw []])] (py "v")). split; reflexivity. Qed.
Print Assumptions C05_empty_param_value_refuted.

(** C06. The parser always terminates with a line or a ParseError. *)
Theorem C06_parse_total : forall line,
  (exists cl, parse_line line = Ok cl) \/ parse_line line = Err ParseError.
Proof. exact parse_line_total. Qed.
Print Assumptions C06_parse_total.

(** C06. What is accepted, and with which result: exactly the grammar [GLine]. *)
Theorem C06_parse_exact : forall line cl,
  parse_line line = Ok cl <->
  exists name ps, GLine line name ps (cl_value cl) /\
    cl_name cl = upper name /\ cl_params cl = assign_all ps.
Proof. exact parse_line_exact. Qed.
Print Assumptions C06_parse_exact.

Example C06_example :
  parse_line (py "a;P=1,2;Q=" ++ [34] ++ py ":;" ++ [34] ++ py ":x:y")
  = Ok (mk_line (py "A") [(py "P", [PRaw (py "1"); PRaw (py "2")]); (py "Q", [PQuoted (py ":;")])] (py "x:y"))
  /\ parse_line (py "NO COLON") = Err ParseError
  /\ parse_line (py "A;B:c") = Err ParseError.
Proof. repeat split. Qed.

(** C06, finding: a repeated parameter name silently drops the earlier values. *)
Theorem C06_repeated_param_dropped_refuted :
  parse_line (py "A;P=1;P=2:x") = Ok (mk_line (py "A") [(py "P", [PRaw (py "2")])] (py "x")).
Proof. reflexivity. Qed.
Print Assumptions C06_repeated_param_dropped_refuted.
