(** * Specification of folding (RFC 5545 section 3.1) *)
From Verif Require Import M_Base M_Line S_Line.

Definition no_break (s : str) : Prop := none_of [13; 10] s.
Definition blank (c : char) : Prop := c = 32 \/ c = 9.
Definition starts_blank (s : str) : Prop := exists c t, s = c :: t /\ blank c.

(** A text that can be the start of a logical line. *)
Definition logical (s : str) : Prop := s <> [] /\ no_break s /\ ~ starts_blank s.

(** [FoldOf t ls]: the physical lines [ls] are a folding of the logical line [t],
    possibly with empty lines in between. *)
Inductive FoldOf : str -> list str -> Prop :=
  | Fold_start t : logical t -> FoldOf t [t]
  | Fold_cont t ls b p :
      FoldOf t ls -> blank b -> no_break p -> FoldOf (t ++ p) (ls ++ [b :: p])
  | Fold_empty t ls : FoldOf t ls -> FoldOf t (ls ++ [[]]).

(** Line ends. *)
Definition eol (e : str) : Prop := e = [13; 10] \/ e = [10] \/ e = [13].

(** [Rendered ls txt]: [txt] is the lines [ls], each ended by some line end, the
    last one possibly without. *)
Inductive Rendered : list str -> str -> Prop :=
  | R_last l : no_break l -> Rendered [l] l
  | R_end l e : no_break l -> eol e -> Rendered [l] (l ++ e)
  | R_more l e ls txt :
      no_break l -> eol e -> Rendered ls txt -> Rendered (l :: ls) (l ++ e ++ txt).

(** Numbering: the index of the first physical line of each logical line. *)
Fixpoint numbered (n : nat) (ts : list str) (lss : list (list str)) : list (nat * str) :=
  match ts, lss with
  | t :: ts', ls :: lss' => (n, t) :: numbered (n + length ls) ts' lss'
  | _, _ => []
  end.

(** Octets of the UTF-8 encoding of a code point / string. *)
Definition utf8_len (c : char) : N :=
  if c <? 128 then 1 else if c <? 2048 then 2 else if c <? 65536 then 3 else 4.
Definition octets (s : str) : N := fold_right (fun c n => utf8_len c + n) 0 s.

(** A word splitter loses no characters. *)
Definition splitter (resplit : str -> list str) : Prop := forall t, concat (resplit t) = t.

(** Contents only (line numbers dropped). *)
Definition gsnd (g : gen (nat * str)) : gen str := (map snd (fst g), snd g).

Definition nonempty (c : str) := match c with [] => false | _ => true end.

(** Content lines that fold safely: no raw line break outside parameter values (those
    are escaped), and no leading blank. *)
Definition foldable (cl : content_line) : Prop :=
  no_break (cl_name cl) /\ ~ starts_blank (cl_name cl) /\ no_break (cl_value cl) /\
  (forall k vs, In (k, vs) (cl_params cl) -> no_break k).
