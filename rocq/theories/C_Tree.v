(** * C10-C11: component trees *)
From Verif Require Import M_Base M_Line S_Line P_Line M_Fold S_Fold P_Fold M_Tree S_Tree P_Tree.

(** C10. Writing a tree (any width, any word splitter, with or without final line
    break) and reading the text gives exactly one item: the same tree. *)
Theorem C10_tree_roundtrip : forall hy resplit W it nl,
  splitter resplit -> width_ok W -> wf_item ok_line it ->
  exists txt it', item_serialize hy resplit W it nl = Ok txt /\
    string_to_containers txt = ([it'], None) /\ item_eq it' it.
Proof. exact tree_roundtrip. Qed.
Print Assumptions C10_tree_roundtrip.

(** C10. The same for any sequence of trees written one after the other. *)
Theorem C10_forest_roundtrip : forall hy resplit W its,
  splitter resplit -> width_ok W -> Forall (wf_item ok_line) its ->
  exists txt its', concat_res (map (fun i => item_serialize hy resplit W i true) its) = Ok txt /\
    string_to_containers txt = (its', None) /\ Forall2 item_eq its' its.
Proof. exact forest_roundtrip. Qed.
Print Assumptions C10_forest_roundtrip.

Definition C10_tree :=
  ICont (py "VCALENDAR")
    [ILine (mk_line (py "VERSION") [] (py "2.0"));
     ICont (py "VEVENT") [ICont (py "VALARM") []; ILine (mk_line (py "X") [(py "P", [PRaw (py "a;b")])] (py "v"))]].
Example C10_example_wf : wf_item ok_line C10_tree.
Proof.
  assert (HL : forall n ps v, wf_line (mk_line n ps v) -> foldable (mk_line n ps v) ->
    n <> py "BEGIN" -> n <> py "END" -> ok_line (mk_line n ps v)).
  { intros n ps v H1 H2 H3 H4. split; [exact H1|]. split; [exact H2|]. now split. }
  cbn [wf_item C10_tree]. repeat split; try easy;
    try (intros c Hc Hin; cbn in *; intuition (subst; discriminate)).
  - constructor.
  - intros (c & t & [= <- _] & [H|H]); discriminate.
  - repeat constructor. cbn. tauto.
  - destruct H as [[= <- <-]|[]]. intros c Hc Hin; cbn in *; intuition (subst; discriminate).
  - destruct H as [[= <- <-]|[]]. easy.
  - destruct H as [[= <- <-]|[]]. intros v [<-|[]] Hin. cbn in Hin. intuition discriminate.
  - destruct H as [[= <- <-]|[]]. easy.
  - intros (c & t & [= <- _] & [H|H]); discriminate.
  - intros k vs [[= <- <-]|[]] c Hc Hin. cbn in *; intuition (subst; discriminate).
Qed.
Example C10_example : exists txt,
  item_serialize true (fun t => [t]) (Some 5%nat) C10_tree false = Ok txt /\
  string_to_containers txt =
   ([ICont (py "VCALENDAR")
      [ILine (mk_line (py "VERSION") [] (py "2.0"));
       ICont (py "VEVENT") [ICont (py "VALARM") []; ILine (mk_line (py "X") [(py "P", [PQuoted (py "a;b")])] (py "v"))]]], None).
Proof. eexists. split; vm_compute; reflexivity. Qed.

(** C10, finding: a content line named BEGIN inside a tree is written without
    complaint but changes the structure that is read back. *)
Theorem C10_begin_line_refuted : exists it txt,
  it = ICont (py "VEVENT") [ILine (mk_line (py "BEGIN") [] (py "X")); ILine (mk_line (py "END") [] (py "X"))] /\
  item_serialize true (fun t => [t]) (Some 75%nat) it false = Ok txt /\
  string_to_containers txt = ([ICont (py "VEVENT") [ICont (py "X") []]], None).
Proof. eexists. eexists. split; [reflexivity|]. split; vm_compute; reflexivity. Qed.
Print Assumptions C10_begin_line_refuted.

(** C11. Parsing succeeds with result [its] iff the lines are properly nested with
    contents [its] (END lines outside any BEGIN being plain lines). *)
Theorem C11_exact : forall ls its,
  contentlines_to_containers (ls, None) = (its, None) <-> Forest ls its.
Proof. exact containers_exact. Qed.
Print Assumptions C11_exact.

(** C11. It fails iff a nesting error (missing END, mismatching END, unnamed BEGIN)
    follows a well nested prefix; the items of that prefix are delivered first. *)
Theorem C11_error_iff : forall ls its x,
  contentlines_to_containers (ls, None) = (its, Some x) <->
  exists pre b rest, ls = pre ++ b :: rest /\ Forest pre its /\ is_begin b /\
    Bad_inside ParseError (cl_value b) rest x.
Proof. exact containers_error_iff. Qed.
Print Assumptions C11_error_iff.

(** C11. On success nothing is lost, duplicated or reordered: flattening the result
    gives the input lines, up to letter case of container names and parameters
    given on BEGIN/END lines. *)
Theorem C11_nothing_lost : forall ls its,
  contentlines_to_containers (ls, None) = (its, None) ->
  Forall2 same_line ls (flat_map flatten its).
Proof. exact containers_nothing_lost. Qed.
Print Assumptions C11_nothing_lost.

Definition L n v := mk_line (py n) [] (py v).
Arguments L _%string_scope _%string_scope.
Example C11_example_ok :
  contentlines_to_containers ([L "BEGIN" "a"; L "X" "1"; L "BEGIN" "B"; L "END" "b"; L "END" "A"], None)
  = ([ICont (py "A") [ILine (L "X" "1"); ICont (py "B") []]], None).
Proof. reflexivity. Qed.
Example C11_example_bad :
  contentlines_to_containers ([L "X" "0"; L "BEGIN" "A"; L "BEGIN" "B"; L "END" "A"; L "END" "B"], None)
    = ([ILine (L "X" "0")], Some ParseError)
  /\ contentlines_to_containers ([L "BEGIN" "A"; L "X" "1"], None) = ([], Some ParseError)
  /\ contentlines_to_containers ([L "BEGIN" ""; L "END" ""], None) = ([], Some ValueError).
Proof. repeat split. Qed.

(** C11, findings: a stray END at top level is not an error, and parameters of a
    BEGIN line are dropped. *)
Theorem C11_stray_end_refuted :
  contentlines_to_containers ([L "END" "VEVENT"], None) = ([ILine (L "END" "VEVENT")], None).
Proof. reflexivity. Qed.
Print Assumptions C11_stray_end_refuted.
Theorem C11_begin_params_refuted : exists ls its,
  contentlines_to_containers (ls, None) = (its, None) /\ flat_map flatten its <> ls.
Proof.
  exists [mk_line (py "BEGIN") [(py "X", [PRaw (py "1")])] (py "A"); L "END" "A"]. eexists.
  split; [reflexivity|]. discriminate.
Qed.
Print Assumptions C11_begin_params_refuted.
