(** * Model of content lines: caret encoding, writing and parsing one line

    src/ics/contentline/container.py:74-205, src/ics/contentline/parser.py:113-222.
    Not modelled: [line_nr] (excluded from equality by [eq=False]), the text of
    error messages, warnings. [check_parsed_line] (only run if [always_check], which is
    False, parser.py:123) is in M_Check. *)
From Verif Require Import M_Base.

(** [escape_param] (container.py:87-90). *)
Definition escape_param_char (c : char) : str :=
  if c =? c_dquote then [c_caret; c_squote]
  else if c =? c_caret then [c_caret; c_caret]
  else if c =? c_lf then [c_caret; c_n]
  else if c =? c_cr then []
  else [c].
Definition escape_param (s : str) : str := translate escape_param_char s.

(** [unescape_param] (container.py:93-111): [re.sub] with the pattern
    caret followed by [(.?)]; the dot does not match LF, so a caret before LF
    is handled like a caret at the end. *)
Fixpoint unescape_param (s : str) : res str :=
  match s with
  | [] => Ok []
  | c :: s' =>
      if c =? c_caret then
        match s' with
        | [] => Err ParseError
        | g :: s'' =>
            if g =? c_lf then Err ParseError
            else if g =? c_n then (do r <- unescape_param s''; Ok (c_lf :: r))
            else if g =? c_caret then (do r <- unescape_param s''; Ok (c_caret :: r))
            else if g =? c_squote then (do r <- unescape_param s''; Ok (c_dquote :: r))
            else Err ParseError
        end
      else (do r <- unescape_param s'; Ok (c :: r))
  end.

(** Parameter values: plain [str] or [QuotedParamValue] (container.py:74-84). *)
Inductive pval := PRaw (s : str) | PQuoted (s : str).
Definition pval_str (p : pval) : str := match p with PRaw s | PQuoted s => s end.

Definition params := dict (list pval).

(** [ContentLine] (container.py:132-149). *)
Record content_line := mk_line { cl_name : str; cl_params : params; cl_value : str }.
(** The constructor upper-cases the name (container.py:144). *)
Definition ContentLine (name : str) (ps : params) (value : str) : content_line :=
  mk_line (upper name) ps value.

(** [re.search("[:;,]", pval)] (container.py:180). *)
Definition needs_quote (s : str) : bool :=
  existsb (fun c => (c =? c_colon) || (c =? c_semi) || (c =? c_comma)) s.

(** One parameter value (container.py:180-188). *)
Definition serialize_pval (p : pval) : str :=
  match p with
  | PQuoted s => [c_dquote] ++ escape_param s ++ [c_dquote]
  | PRaw s => if needs_quote s then [c_dquote] ++ escape_param s ++ [c_dquote]
              else escape_param s
  end.

(** [for nr, pval in enumerate(...)] (container.py:177-188) *)
Definition serialize_pvals (vs : list pval) : str := join [c_comma] (map serialize_pval vs).

(** The parameters (container.py:173-188). *)
Definition serialize_params (ps : params) : str :=
  flat_map (fun kv => [c_semi] ++ fst kv ++ [c_eq] ++ serialize_pvals (snd kv)) ps.

(** [_serialize_iter_unwrapped] / [_serialize_unwrapped] (container.py:168-192). *)
Definition serialize_unwrapped (cl : content_line) (newline : bool) : str :=
  cl_name cl ++ serialize_params (cl_params cl) ++ [c_colon] ++ cl_value cl
  ++ (if newline then [c_cr; c_lf] else []).

(** ** ContentLineParser (parser.py:113-222)

    The parser object's fields become arguments: [line], the remaining
    positions of the [finditer("[:;]")] iterator ([delims]), the position of the
    current delimiter ([delim]) and [param_value_start] ([vs]). *)
Definition is_delim (c : char) : bool := (c =? c_colon) || (c =? c_semi).

(** [re.finditer("[:;]", line)] (parser.py:137): all delimiter positions. *)
Fixpoint delims_from (i : nat) (s : str) : list nat :=
  match s with
  | [] => []
  | c :: s' => if is_delim c then i :: delims_from (S i) s' else delims_from (S i) s'
  end.

(** [next_delim] (parser.py:128-132): new current delimiter, remaining ones. *)
Definition next_delim (delims : list nat) : res (nat * list nat) :=
  match delims with
  | [] => Err ParseError
  | d :: ds => Ok (d, ds)
  end.

(** [while self.delim.start() < self.param_value_start: self.next_delim()]
    (parser.py:193-194) *)
Fixpoint skip_delims (delim : nat) (delims : list nat) (vs : nat) : res (nat * list nat) :=
  if Nat.ltb delim vs then
    match delims with
    | [] => Err ParseError
    | d :: ds => skip_delims d ds vs
    end
  else Ok (delim, delims).

(** Result of reading one parameter value: the value, the current delimiter, the
    remaining delimiters, the new [param_value_start] and whether another value
    follows. *)
Definition val_step := (pval * nat * list nat * nat * bool)%type.

(** [parse_quoted_param_val] (parser.py:177-208). *)
Definition parse_quoted (line : str) (delim : nat) (delims : list nat) (vs0 : nat)
  : res val_step :=
  let vs := S vs0 in
  match index_from c_dquote line vs with
  | None => Err ParseError
  | Some stop =>
      do v <- unescape_param (slice line vs stop);
      let vs := S stop in
      do (delim, delims) <- skip_delims delim delims vs;
      if Nat.eqb delim vs then Ok (PQuoted v, delim, delims, vs, false)
      else match nth_error line vs with
           | None => Err IndexError
           | Some c =>
               if c =? c_comma then Ok (PQuoted v, delim, delims, S vs, true)
               else Err ParseError
           end
  end.

(** [parse_raw_param_val] (parser.py:210-222). *)
Definition parse_raw (line : str) (delim : nat) (delims : list nat) (vs : nat)
  : res val_step :=
  match index_between c_comma line vs delim with
  | None =>
      do v <- unescape_param (slice line vs delim);
      Ok (PRaw v, delim, delims, vs, false)
  | Some comma =>
      do v <- unescape_param (slice line vs comma);
      Ok (PRaw v, delim, delims, S comma, true)
  end.

(** The loop of [parse_param] (parser.py:164-175); [acc] is [param_values]. *)
Fixpoint param_values (fuel : nat) (line : str) (delim : nat) (delims : list nat)
  (vs : nat) (acc : list pval) : res (list pval * nat * list nat) :=
  match fuel with
  | O => Err OutOfFuel
  | S f =>
      if Nat.leb delim vs then Err ParseError
      else match nth_error line vs with
           | None => Err IndexError
           | Some c =>
               do (v, delim, delims, vs, more) <-
                 (if c =? c_dquote then parse_quoted line delim delims vs
                  else parse_raw line delim delims vs);
               if more then param_values f line delim delims vs (acc ++ [v])
               else Ok (acc ++ [v], delim, delims)
           end
  end.

(** [parse_param] (parser.py:153-175). The list stored in the dict at line 161 is
    filled while the loop runs; since an exception discards the line, storing the
    finished list gives the same result. *)
Definition parse_param (line : str) (delim : nat) (delims : list nat) (ps : params)
  : res (nat * list nat * params) :=
  match index_from c_eq line (S delim) with
  | None => Err ParseError
  | Some pd =>
      let pname := slice line (S delim) pd in
      do (delim, delims) <- next_delim delims;
      do (vals, delim, delims) <- param_values (S (length line)) line delim delims (S pd) [];
      Ok (delim, delims, dict_set pname vals ps)
  end.

(** The loop of [parse] (parser.py:142-151). *)
Fixpoint parse_loop (fuel : nat) (line : str) (delim : nat) (delims : list nat)
  (ps : params) : res (params * str) :=
  match fuel with
  | O => Err OutOfFuel
  | S f =>
      match nth_error line delim with
      | None => Err IndexError
      | Some c =>
          if c =? c_colon then Ok (ps, skipn (S delim) line)
          else if c =? c_semi then
            do (delim, delims, ps) <- parse_param line delim delims ps;
            parse_loop f line delim delims ps
          else Err AssertionError
      end
  end.

(** [ContentLineParser.parse] (parser.py:134-151). *)
Definition parse_line (line : str) : res content_line :=
  do (delim, delims) <- next_delim (delims_from 0 line);
  do (ps, value) <- parse_loop (S (length line)) line delim delims [];
  Ok (ContentLine (firstn delim line) ps value).
