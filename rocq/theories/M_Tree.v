(** * Model of containers: writing a component tree and reading it back

    src/ics/contentline/container.py:216-258, src/ics/contentline/parser.py:18-111.
    Not modelled: warnings about lower-case names (parser.py:82-83, 93-94),
    [line_nr], Python's recursion limit. *)
From Verif Require Import M_Base M_Line M_Fold.

(** [ContainerItem = Union[ContentLine, Container]] *)
Inductive item :=
  | ILine (cl : content_line)
  | ICont (name : str) (items : list item).

(** [Container.__init__] (container.py:227-232): the name is upper-cased and must
    not be empty (utils.py:167-169). *)
Definition Container (name : str) (items : list item) : res item :=
  match upper name with
  | [] => Err ValueError
  | n => Ok (ICont n items)
  end.

(** ["".join(g)] over a list of parts each of which may fail. *)
Fixpoint concat_res (l : list (res str)) : res str :=
  match l with
  | [] => Ok []
  | r :: l' => do a <- r; do b <- concat_res l'; Ok (a ++ b)
  end.

(** [Container.serialize] / [serialize_iter] (container.py:246-258), concatenated.
    The BEGIN and END lines are not folded. *)
Section Serialize.
  Variable hy : bool.
  Variable resplit : str -> list str.
  Variable W : option nat.
  Fixpoint item_serialize (it : item) (newline : bool) : res str :=
    match it with
    | ILine cl => rmap (@concat N) (line_serialize_iter hy resplit W cl newline)
    | ICont name items =>
        do body <- concat_res (map (fun i => item_serialize i true) items);
        Ok (py "BEGIN:" ++ name ++ [c_cr; c_lf] ++ body
            ++ py "END:" ++ name ++ (if newline then [c_cr; c_lf] else []))
    end.
End Serialize.

(** [lines_to_contentlines] (parser.py:101-111) on a generator of logical lines. *)
Fixpoint parse_lines (ls : list (nat * str)) (e : option exn) : gen content_line :=
  match ls with
  | [] => ([], e)
  | (_, l) :: ls' =>
      match parse_line l with
      | Ok cl => gcons cl (parse_lines ls' e)
      | Err x => gfail x
      end
  end.
Definition lines_to_contentlines (g : gen (nat * str)) : gen content_line :=
  parse_lines (fst g) (snd g).

(** [contentlines_to_container] (parser.py:78-99). The shared iterator is the pair
    of remaining lines and the exception [e] its generator ends with; the result
    carries the lines not consumed. [acc] is [items]. *)
Fixpoint to_container (fuel : nat) (name : str) (acc : list item)
  (ls : list content_line) (e : option exn) : res (item * list content_line) :=
  match fuel with
  | O => Err OutOfFuel
  | S f =>
      match ls with
      | [] => match e with Some x => Err x | None => Err ParseError end
      | l :: ls' =>
          if str_eqb (cl_name l) (py "BEGIN") then
            do (it, ls'') <- to_container f (cl_value l) [] ls' e;
            to_container f name (acc ++ [it]) ls'' e
          else if str_eqb (cl_name l) (py "END") then
            if str_eqb (upper (cl_value l)) (upper name) then
              do c <- Container name acc; Ok (c, ls')
            else Err ParseError
          else to_container f name (acc ++ [ILine l]) ls' e
      end
  end.

(** [contentlines_to_containers] (parser.py:66-76). *)
Fixpoint to_containers (fuel : nat) (ls : list content_line) (e : option exn) : gen item :=
  match fuel with
  | O => gfail OutOfFuel
  | S f =>
      match ls with
      | [] => ([], e)
      | l :: ls' =>
          if str_eqb (cl_name l) (py "BEGIN") then
            match to_container (S (length ls')) (cl_value l) [] ls' e with
            | Ok (it, ls'') => gcons it (to_containers f ls'' e)
            | Err x => gfail x
            end
          else gcons (ILine l) (to_containers f ls' e)
      end
  end.
Definition contentlines_to_containers (g : gen content_line) : gen item :=
  to_containers (S (length (fst g))) (fst g) (snd g).

(** [lines_to_containers], [string_to_containers] (parser.py:19-27). *)
Definition lines_to_containers (lines : list str) : gen item :=
  contentlines_to_containers (lines_to_contentlines (unfold_lines lines)).
Definition string_to_containers (txt : str) : gen item :=
  lines_to_containers (string_to_lines txt).
