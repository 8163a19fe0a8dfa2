(** * Specification for opening calendars *)
From Verif Require Import M_Base M_Line S_Line M_Fold M_Tree S_Tree.

(** The text consists of well-formed content lines [ls]. *)
Definition text_lines (txt : str) (ls : list content_line) : Prop :=
  lines_to_contentlines (unfold_lines (string_to_lines txt)) = (ls, None).

(** It holds the containers [cs] (name and contents) and nothing else. *)
Definition holds (txt : str) (cs : list (str * list item)) : Prop :=
  exists ls, text_lines txt ls /\ Forest ls (map (fun c => ICont (fst c) (snd c)) cs).
