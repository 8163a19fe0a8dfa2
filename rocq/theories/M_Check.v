(** * The patterns of content lines and the check of parsed lines
    (src/ics/contentline/container.py:74-84, 114-129, parser.py:140-151, 224-233)

    [Patterns.LINE], [PARAM], [PVALS] are not used anywhere in the code (and could not be
    compiled: the group [pval] occurs twice); S_Check has the grammar they stand for. *)
From Verif Require Import M_Base M_Line.
Open Scope N_scope.

(** [Patterns] (container.py:114-122): the characters of the classes *)
Definition is_control (c : char) : bool := (c <=? 8) || (10 <=? c) && (c <=? 31) || (c =? 127).
Definition QSAFE (c : char) : bool := negb (is_control c || (c =? c_dquote)).
Definition SAFE (c : char) : bool :=
  negb (is_control c || (c =? c_dquote) || (c =? c_comma) || (c =? c_colon) || (c =? c_semi)).
Definition VALUE (c : char) : bool := negb (is_control c).
Definition IDENT (c : char) : bool :=
  (97 <=? c) && (c <=? 122) || (65 <=? c) && (c <=? 90) || (48 <=? c) && (c <=? 57) || (c =? 45).

(** [re.match] with the pattern [[...]{least,}]: characters of the class at the beginning *)
Fixpoint run (cls : char -> bool) (s : str) : nat :=
  match s with c :: s' => if cls c then S (run cls s') else O | [] => O end.
Definition re_match (cls : char -> bool) (least : nat) (s : str) : bool := Nat.leb least (run cls s).

(** [assert] *)
Definition assert_that (c : bool) : res unit := if c then Ok tt else Err AssertionError.
(** [check_parsed_line] (parser.py:224-233) *)
Definition check_val (v : pval) : bool :=
  match v with PQuoted s => re_match QSAFE 0 s | PRaw s => re_match SAFE 0 s end.
Definition check_parsed_line (cl : content_line) : res unit :=
  do _ <- assert_that (re_match IDENT 1 (cl_name cl));
  do _ <- assert_that (forallb (fun kv => re_match IDENT 1 (fst kv) && forallb check_val (snd kv)) (cl_params cl));
  assert_that (re_match VALUE 0 (cl_name cl)).
(** [parse] with [always_check] (parser.py:134-151) *)
Definition parse_checked (always_check : bool) (line : str) : res content_line :=
  do cl <- parse_line line;
  do _ <- (if always_check then check_parsed_line cl else Ok tt);
  Ok cl.

(** [QuotedParamValue.maybe_unquote] (container.py:75-84) *)
Definition maybe_unquote (txt : str) : res pval :=
  match txt with
  | [] => Ok (PRaw txt)
  | c :: t =>
      if c =? c_dquote then
        do _ <- assert_that (Nat.leb 2 (length txt));
        do _ <- assert_that (last txt 0 =? c_dquote);
        Ok (PQuoted (removelast t))
      else Ok (PRaw txt)
  end.
