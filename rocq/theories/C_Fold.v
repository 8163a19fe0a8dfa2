(** * C07-C09: folding and unfolding

    [hy] and [resplit] are the parts of [textwrap] left open by the model (whether
    long words are cut after hyphens, where words may be separated): the theorems
    hold for every choice that does not lose characters. *)
From Verif Require Import M_Base M_Line S_Line P_Line M_Fold S_Fold P_Fold.

(** C07. Folding at any width >= 1 (or not at all), with or without the final line
    break, then unfolding, gives exactly one logical line: the unfolded text. *)
Theorem C07_fold_unfold : forall hy resplit W cl nl,
  splitter resplit -> (match W with Some W => (1 <= W)%nat | None => True end) -> foldable cl ->
  exists txt, line_serialize hy resplit W cl nl = Ok txt /\
    gsnd (unfold_lines (string_to_lines txt)) = ([serialize_unwrapped cl false], None).
Proof. exact line_fold_unfold. Qed.
Print Assumptions C07_fold_unfold.

(** C07. The same for the incremental writer used by containers. *)
Theorem C07_fold_unfold_iter : forall hy resplit W cl nl,
  splitter resplit -> (match W with Some W => (1 <= W)%nat | None => True end) -> foldable cl ->
  exists parts, line_serialize_iter hy resplit W cl nl = Ok parts /\
    gsnd (unfold_lines (string_to_lines (concat parts))) = ([serialize_unwrapped cl false], None).
Proof. exact line_fold_unfold_iter. Qed.
Print Assumptions C07_fold_unfold_iter.

Definition C07_line := mk_line (py "SUMMARY") [(py "LANGUAGE", [PRaw (py "en")])] (py "lorem ipsum - dolor").
Example C07_example_hyp : foldable C07_line /\ splitter (fun t => [t]) /\ splitter (map (fun c => [c])).
Proof.
  split; [|split; [intros t; apply app_nil_r|]].
  - repeat split; cbn; try (intros c Hc Hin; cbn in *; intuition (subst; discriminate)).
    + intros (c & t & [= <- _] & [H|H]); discriminate.
    + intros k vs [[= <- <-]|[]] c Hc Hin. cbn in *; intuition (subst; discriminate).
  - intros t. induction t as [|c t IH]; [easy|]. cbn. f_equal. exact IH.
Qed.
Example C07_example :
  line_serialize true (fun t => [t]) (Some 10%nat) C07_line false
  = Ok (py "SUMMARY;LA" ++ [13;10] ++ py " NGUAGE=en" ++ [13;10] ++ py " :lorem ip" ++ [13;10]
        ++ py " sum -" ++ [13;10] ++ py "  dolor").
Proof. reflexivity. Qed.

(** C07, finding: a line break inside a value is not undone: the text after it
    is read as another line. *)
Theorem C07_raw_line_break_refuted : exists cl, ~ foldable cl /\
  exists txt, line_serialize true (fun t => [t]) (Some 75%nat) cl true = Ok txt /\
    gsnd (unfold_lines (string_to_lines txt)) = ([py "DESCRIPTION:a"; py "ATTENDEE:b"], None).
Proof.
  exists (mk_line (py "DESCRIPTION") [] (py "a" ++ [10] ++ py "ATTENDEE:b")). split.
  - intros (_ & _ & H & _). apply (H 10); cbn; tauto.
  - eexists. split; vm_compute; reflexivity.
Qed.
Print Assumptions C07_raw_line_break_refuted.

(** C08. With a width of at least 2 no physical line is longer than the width (in
    code points, without the line break), and none is empty. *)
Theorem C08_width : forall hy resplit W text,
  splitter resplit -> (2 <= W)%nat -> text <> [] ->
  exists phys, wrap hy resplit W text = Ok phys /\
    forall l, In l phys -> (1 <= length l <= W)%nat.
Proof. exact wrap_width. Qed.
Print Assumptions C08_width.

(** C08. The first physical line carries no indent; each further one starts with
    exactly one space followed by at least one character of the text. *)
Theorem C08_continuations : forall hy resplit W text,
  splitter resplit -> (2 <= W)%nat -> text <> [] ->
  exists p ps, wrap hy resplit W text = Ok (p :: map (cons 32) ps) /\
    concat (p :: ps) = text /\ p <> [] /\ (forall q, In q ps -> q <> []).
Proof. exact wrap_continuations. Qed.
Print Assumptions C08_continuations.

(** C08. A width of 0 is rejected. *)
Theorem C08_zero_width : forall hy resplit text, wrap hy resplit 0 text = Err ValueError.
Proof. reflexivity. Qed.
Print Assumptions C08_zero_width.

Example C08_example : wrap true (fun t => [t]) 5 (py "abcdefghi")
  = Ok [py "abcde"; py " fghi"].
Proof. reflexivity. Qed.

(** C08, finding: width 1 gives lines of length 2. *)
Theorem C08_width_one_refuted : exists text phys,
  text <> [] /\ wrap true (fun t => [t]) 1 text = Ok phys /\ exists l, In l phys /\ length l = 2%nat.
Proof.
  exists (py "A:b"). eexists. split; [easy|]. split; [vm_compute; reflexivity|].
  eexists. split; [right; left; reflexivity|reflexivity].
Qed.
Print Assumptions C08_width_one_refuted.

(** C08, finding: RFC 5545 limits lines to 75 octets; the width counts code points,
    so non-ASCII lines at the default width 75 exceed 75 octets. *)
Theorem C08_octets_refuted : exists text phys,
  wrap true (fun t => [t]) 75 text = Ok phys /\ exists l, In l phys /\ 75 < octets l.
Proof.
  exists (py "X:" ++ repeat 228 60). eexists. split; [vm_compute; reflexivity|].
  eexists. split; [left; reflexivity|]. vm_compute. reflexivity.
Qed.
Print Assumptions C08_octets_refuted.

(** C09. Any folding of any logical lines, at arbitrary places, with space or tab,
    with empty lines anywhere, is read as these logical lines, each with the number
    of its first physical line. *)
Theorem C09_foreign_folding_lines : forall k ts lss,
  Forall2 FoldOf ts lss ->
  unfold_lines (repeat [] k ++ concat lss) = (numbered k ts lss, None).
Proof. exact unfold_lines_fold. Qed.
Print Assumptions C09_foreign_folding_lines.

(** C09. ... and with any mix of CRLF, LF and CR line ends. *)
Theorem C09_foreign_folding_text : forall k ts lss txt,
  Forall2 FoldOf ts lss -> Rendered (repeat [] k ++ concat lss) txt ->
  gsnd (unfold_lines (string_to_lines txt)) = (ts, None).
Proof. exact foreign_folding. Qed.
Print Assumptions C09_foreign_folding_text.

(** C09. The only error: the first non-empty line starts with a blank. *)
Theorem C09_error_iff : forall txt,
  snd (unfold_lines (string_to_lines txt)) =
  match filter nonempty (string_to_lines txt) with
  | (c :: _) :: _ => if is_blank c then Some ParseError else None
  | _ => None
  end.
Proof. exact unfold_string_error. Qed.
Print Assumptions C09_error_iff.

Example C09_example_fold : FoldOf (py "ABC") [py "A"; []; 9 :: py "B"; 32 :: py "C"].
Proof.
  change (FoldOf (([65] ++ [66]) ++ [67]) ((([[65]] ++ [[]]) ++ [9 :: [66]]) ++ [32 :: [67]])).
  assert (N : forall c, c <> 13 -> c <> 10 -> no_break [c]) by (intros; now apply no_break_single).
  apply Fold_cont; [apply Fold_cont; [apply Fold_empty, Fold_start| |]| |];
    try (apply N; easy); try (now left); try (now right).
  split; [easy|]. split; [apply N; easy|]. intros (c & t & [= <- _] & [H|H]); discriminate.
Qed.
Example C09_example_text :
  unfold_lines (string_to_lines (py "A" ++ [13; 10; 13] ++ [9] ++ py "B" ++ [10; 32] ++ py "C" ++ [13] ++ py "D"))
  = ([(0%nat, py "ABC"); (4%nat, py "D")], None)
  /\ unfold_lines (string_to_lines (10 :: 32 :: py "x")) = ([], Some ParseError).
Proof. split; reflexivity. Qed.
