(** * Model of folding and unfolding

    Writing: [ContentLine.serialize]/[serialize_iter] (container.py:151-166) with
    the [TextWrapper] configured in container.py:19-29 (algorithm of CPython 3.11
    Lib/textwrap.py: [_split] 157-179, [_handle_long_word] 197-236,
    [_wrap_chunks] 238-340; initial_indent "", subsequent_indent " ",
    drop_whitespace False, max_lines None, break_long_words True).
    Reading: [string_to_lines], [unfold_lines] (parser.py:29-64).

    The regular expression that picks word boundaries is not modelled: it is an
    arbitrary function [resplit] cutting a text into pieces.  The flag [hy] says
    whether long words are preferably cut after a hyphen (Python >= 3.10) or not. *)
From Verif Require Import M_Base M_Line.

Section Wrap.
  Variable hy : bool.                       (* hyphen rule of _handle_long_word *)
  Variable resplit : str -> list str.       (* wordsep_re.split *)

  (** [_split] (textwrap.py:173-178): empty pieces are dropped. *)
  Definition split_chunks (text : str) : list str :=
    filter (fun c => match c with [] => false | _ => true end) (resplit text).

  (** The inner [while chunks] loop (textwrap.py:283-293): move chunks to the
      current line while they fit. Returns current line, its length, the rest. *)
  Fixpoint take_fitting (width : nat) (cur_line : list str) (cur_len : nat)
    (chunks : list str) : list str * nat * list str :=
    match chunks with
    | [] => (cur_line, cur_len, [])
    | ch :: rest =>
        if Nat.leb (cur_len + length ch) width
        then take_fitting width (cur_line ++ [ch]) (cur_len + length ch) rest
        else (cur_line, cur_len, chunks)
    end.

  (** [chunk.rfind('-', 0, n)] *)
  Definition rfind_dash (chunk : str) (n : nat) : option nat :=
    match find_char c_dash (rev (firstn n chunk)) with
    | Some k => Some (length (firstn n chunk) - 1 - k)%nat
    | None => None
    end.

  (** [_handle_long_word] (textwrap.py:197-221): where to cut the chunk. *)
  Definition long_word_end (chunk : str) (cur_len width : nat) : nat :=
    let space_left := if Nat.ltb width 1 then 1%nat else (width - cur_len)%nat in
    if hy && Nat.ltb space_left (length chunk) then
      match rfind_dash chunk space_left with
      | Some h =>
          if Nat.ltb 0 h && existsb (fun c => negb (c =? c_dash)) (firstn h chunk)
          then S h else space_left
      | None => space_left
      end
    else space_left.

  (** The outer loop of [_wrap_chunks] (textwrap.py:265-340); [first] is true while
      no line has been produced. *)
  Fixpoint wrap_loop (fuel : nat) (W : nat) (first : bool) (chunks : list str)
    : res (list str) :=
    match fuel with
    | O => Err OutOfFuel
    | S f =>
        match chunks with
        | [] => Ok []
        | _ =>
            let indent := if first then [] else [c_space] in
            let width := (W - length indent)%nat in
            let '(cur_line, cur_len, chunks) := take_fitting width [] 0%nat chunks in
            let '(cur_line, chunks) :=
              match chunks with
              | ch :: rest =>
                  if Nat.ltb width (length ch) then
                    let e := long_word_end ch cur_len width in
                    (cur_line ++ [firstn e ch], skipn e ch :: rest)
                  else (cur_line, chunks)
              | [] => (cur_line, chunks)
              end in
            match cur_line with
            | [] => wrap_loop f W first chunks
            | _ =>
                do lines <- wrap_loop f W false chunks;
                Ok ((indent ++ concat cur_line) :: lines)
            end
        end
    end.

  Definition wrap_fuel (chunks : list str) : nat :=
    S (fold_right (fun c n => S (length c) + n)%nat 0%nat chunks).

  (** [TextWrapper.wrap]; a width <= 0 is a ValueError (textwrap.py:256-257). *)
  Definition wrap (W : nat) (text : str) : res (list str) :=
    if Nat.leb W 0 then Err ValueError
    else wrap_loop (wrap_fuel (split_chunks text)) W true (split_chunks text).

  (** [ContentLine.serialize] (container.py:151-154); [None] is [wrap=None]. *)
  Definition line_serialize (W : option nat) (cl : content_line) (newline : bool) : res str :=
    match W with
    | None => Ok (serialize_unwrapped cl newline)
    | Some W => rmap (join [c_cr; c_lf]) (wrap W (serialize_unwrapped cl newline))
    end.

  (** [ContentLine.serialize_iter] (container.py:156-166), concatenated. The
      result of [lines.pop()] on an empty list is IndexError. *)
  Definition line_serialize_iter (W : option nat) (cl : content_line) (newline : bool)
    : res (list str) :=
    match W with
    | None => Ok [serialize_unwrapped cl newline]
    | Some W =>
        do ls <- wrap W (serialize_unwrapped cl false);
        let elems := flat_map (fun l => [l; [c_cr; c_lf]]) ls in
        if newline then Ok elems
        else match elems with [] => Err IndexError | _ => Ok (removelast elems) end
    end.
End Wrap.

(** [string_to_lines] (parser.py:29-32): [re.split] at CRLF, LF or CR. *)
Fixpoint string_to_lines (s : str) : list str :=
  match s with
  | [] => [[]]
  | c :: s' =>
      if c =? c_cr then
        match s' with
        | c2 :: s'' => if c2 =? c_lf then [] :: string_to_lines s'' else [] :: string_to_lines s'
        | [] => [] :: string_to_lines s'
        end
      else if c =? c_lf then [] :: string_to_lines s'
      else match string_to_lines s' with
           | [] => [[c]]                     (* unreachable *)
           | w :: ws => (c :: w) :: ws
           end
  end.

Definition is_break (c : char) : bool := (c =? c_cr) || (c =? c_lf).
Definition is_blank (c : char) : bool := (c =? c_space) || (c =? c_tab).

(** [line.rstrip("\r\n")] (parser.py:38) *)
Fixpoint lstrip_breaks (s : str) : str :=
  match s with
  | c :: s' => if is_break c then lstrip_breaks s' else s
  | [] => []
  end.
Definition rstrip_breaks (s : str) : str := rev (lstrip_breaks (rev s)).

(** [unfold_lines] (parser.py:34-64). [cur] is [(current_nr, "".join(current_lines))],
    [None] while [current_lines] is empty. *)
Fixpoint unfold_from (line_nr : nat) (cur : option (nat * str)) (lines : list str)
  : gen (nat * str) :=
  match lines with
  | [] => match cur with None => gnil | Some p => gcons p gnil end
  | l :: lines' =>
      let line := rstrip_breaks l in
      match line with
      | [] => unfold_from (S line_nr) cur lines'
      | c :: rest =>
          if existsb is_break line then gfail ParseError
          else match cur with
               | None =>
                   if is_blank c then gfail ParseError
                   else unfold_from (S line_nr) (Some (line_nr, line)) lines'
               | Some (nr, acc) =>
                   if is_blank c then unfold_from (S line_nr) (Some (nr, acc ++ rest)) lines'
                   else gcons (nr, acc) (unfold_from (S line_nr) (Some (line_nr, line)) lines')
               end
      end
  end.
Definition unfold_lines (lines : list str) : gen (nat * str) := unfold_from 0 None lines.
