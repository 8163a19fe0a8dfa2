(** * Model of [TextConverter] (src/ics/valuetype/text.py:41-125)

    and [next_after_str_escape] (src/ics/utils.py:145-151). Warnings are not
    modelled. *)
From Verif Require Import M_Base.

(** [next_after_str_escape] (utils.py:145-151): the next element of an iterator,
    or ValueError at its end. The remaining iterator is returned too. *)
Definition next_after_str_escape {A} (it : list A) : res (A * list A) :=
  match it with
  | [] => Err ValueError
  | x :: it' => Ok (x, it')
  end.

(** The translation table of [escape_text] (text.py:89-98). *)
Definition escape_text_char (c : char) : str :=
  if c =? c_bslash then [c_bslash; c_bslash]
  else if c =? c_semi then [c_bslash; c_semi]
  else if c =? c_comma then [c_bslash; c_comma]
  else if c =? c_lf then [c_bslash; c_n]
  else if c =? c_cr then [c_bslash; c_r]
  else [c].
Definition escape_text (s : str) : str := translate escape_text_char s.

(** The escape alternatives of [unescape_text_iter] (text.py:110-121). *)
Definition unescape_char (c2 : char) : res char :=
  if c2 =? c_semi then Ok c_semi
  else if c2 =? c_comma then Ok c_comma
  else if (c2 =? c_n) || (c2 =? c_N) then Ok c_lf
  else if (c2 =? c_r) || (c2 =? c_R) then Ok c_cr
  else if c2 =? c_bslash then Ok c_bslash
  else Err ValueError.

(** [unescape_text] / [unescape_text_iter] (text.py:100-125). *)
Fixpoint unescape_text (s : str) : res str :=
  match s with
  | [] => Ok []
  | c1 :: it =>
      if c1 =? c_bslash then
        match it with                       (* next_after_str_escape *)
        | [] => Err ValueError
        | c2 :: it' =>
            do c <- unescape_char c2;
            do r <- unescape_text it';
            Ok (c :: r)
        end
      else if mem c1 [c_semi; c_comma; c_lf; c_cr] then Err ValueError
      else
        do r <- unescape_text it;
        Ok (c1 :: r)
  end.

(** [TextConverter.serialize] (text.py:58-64) and [parse] (text.py:50-56). *)
Definition text_serialize (s : str) : str := escape_text s.
Definition text_parse (s : str) : res str := unescape_text s.

(** Length of the match of [re.search(r"\\+$", val)] (text.py:70): the run of
    backslashes at the very end, or just before one final newline ([$] also
    matches there). *)
Fixpoint leading_bslashes (s : str) : nat :=
  match s with
  | c :: s' => if c =? c_bslash then S (leading_bslashes s') else 0%nat
  | [] => 0%nat
  end.
Definition trailing_bslashes (val : str) : nat :=
  match rev val with
  | c :: r => if c =? c_lf then leading_bslashes r else leading_bslashes (c :: r)
  | [] => 0%nat
  end.

(** [split_value_list] (text.py:66-76): [val] is the segment under
    construction, [it] the segments not yet taken from the iterator. *)
Fixpoint split_merge (val : str) (it : list str) : gen str :=
  if Nat.odd (trailing_bslashes val) then
    match it with
    | [] => gfail ValueError                      (* next_after_str_escape *)
    | v :: it' => split_merge (val ++ [c_comma] ++ v) it'
    end
  else
    match it with
    | [] => gcons val gnil
    | v :: it' => gcons val (split_merge v it')
    end.
Definition split_value_list (values : str) : gen str :=
  match split_on c_comma values with
  | [] => gnil                                    (* unreachable *)
  | val :: it => split_merge val it
  end.

(** [join_value_list] (text.py:78-86), without the warning. *)
Definition join_value_list (values : list str) : str := join [c_comma] values.
