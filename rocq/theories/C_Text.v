(** * C01-C03: TEXT values *)
From Verif Require Import M_Base M_Text S_Text P_Text.

(** C01. Writing any string as TEXT and reading it back gives the string. *)
Theorem C01_text_roundtrip : forall s, text_parse (text_serialize s) = Ok s.
Proof. exact text_roundtrip. Qed.
Print Assumptions C01_text_roundtrip.

(** C01. Different strings have different written forms. *)
Theorem C01_text_injective : forall a b, text_serialize a = text_serialize b -> a = b.
Proof. exact text_serialize_inj. Qed.
Print Assumptions C01_text_injective.

Example C01_example :
  text_serialize (py "a;b,c\n" ++ [10; 13]) = py "a\;b\,c\\n\n\r"
  /\ text_parse (py "a\;b\,c\\n\n\r") = Ok (py "a;b,c\n" ++ [10; 13]).
Proof. split; reflexivity. Qed.

(** C02. No line break in a written TEXT value. *)
Theorem C02_text_no_line_break : forall s, ~ In 10 (text_serialize s) /\ ~ In 13 (text_serialize s).
Proof. exact text_serialize_no_break. Qed.
Print Assumptions C02_text_no_line_break.

(** C02. Every ';' (59) and ',' (44) in a written TEXT value is escaped, i.e.
    preceded by an odd number of backslashes. *)
Theorem C02_text_separators_escaped : forall s c, c = 59 \/ c = 44 -> all_escaped c (text_serialize s).
Proof. exact text_serialize_escaped. Qed.
Print Assumptions C02_text_separators_escaped.

(** C02. The language that is read, and its meaning, is exactly [TextEsc]. *)
Theorem C02_text_parse_exact : forall w v, text_parse w = Ok v <-> TextEsc w v.
Proof. exact text_parse_spec. Qed.
Print Assumptions C02_text_parse_exact.

(** C02. Everything else is rejected with ValueError. *)
Theorem C02_text_parse_error : forall w e, text_parse w = Err e -> e = ValueError.
Proof. exact text_parse_err. Qed.
Print Assumptions C02_text_parse_error.

Example C02_example_accept : TextEsc (py "a\,\N") [97; 44; 10].
Proof. apply TE_plain; [cbn; intuition discriminate|]. apply TE_comma, TE_lf; [now right|constructor]. Qed.
Example C02_example_reject : text_parse (py "a,b") = Err ValueError /\ text_parse (py "a\") = Err ValueError
  /\ text_parse (py "a\x") = Err ValueError.
Proof. repeat split. Qed.

(** C03. Join then split gives the same list (for a non-empty list). *)
Theorem C03_text_list_roundtrip : forall vs,
  vs <> [] ->
  split_value_list (join_value_list (map text_serialize vs)) = (map text_serialize vs, None).
Proof. exact text_list_roundtrip. Qed.
Print Assumptions C03_text_list_roundtrip.

(** C03. Splitting loses no characters. *)
Theorem C03_text_split_lossless : forall s l,
  split_value_list s = (l, None) -> join_value_list l = s.
Proof. exact split_join. Qed.
Print Assumptions C03_text_split_lossless.

(** C03. In a line-feed free value (which is all a parsed line can hold) the
    pieces contain no unescaped comma and do not end inside an escape, and
    splitting fails exactly if the value ends inside an escape. *)
Theorem C03_text_split_exact : forall s l e,
  ~ In 10 s -> split_value_list s = (l, e) ->
  (forall w, In w l -> all_escaped 44 w /\ ~ ends_in_escape w) /\ (e <> None <-> ends_in_escape s).
Proof. exact split_pieces. Qed.
Print Assumptions C03_text_split_exact.

(** C03. Only ValueError is raised. *)
Theorem C03_text_split_error : forall s l e, split_value_list s = (l, Some e) -> e = ValueError.
Proof. exact split_err. Qed.
Print Assumptions C03_text_split_error.

Example C03_example :
  split_value_list (py "a\,b,c\\,,d") = ([py "a\,b"; py "c\\"; []; py "d"], None)
  /\ split_value_list (py "a,b\") = ([py "a"], Some ValueError).
Proof. split; reflexivity. Qed.
