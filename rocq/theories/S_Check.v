(** * Specification: the declared grammar of content lines (RFC 5545 3.1) *)
From Verif Require Import M_Base M_Line.
From Verif Require Import S_Line.
Open Scope N_scope.

(** Controls: everything below the blank but HTAB, and DEL. *)
Definition control (c : N) : Prop := c < 32 /\ c <> 9 \/ c = 127.
Definition clean (s : list N) : Prop := forall c, In c s -> ~ control c.
(** Letters, digits and the hyphen. *)
Definition name_char (c : N) : Prop := In c (py "ABCDEFGHIJKLMNOPQRSTUVWXYZabcdefghijklmnopqrstuvwxyz0123456789-").
Definition identifier (s : list N) : Prop := s <> [] /\ forall c, In c s -> name_char c.
Definition starts_with_name_char (s : list N) : Prop := exists c t, s = c :: t /\ name_char c.

(** A parameter value as it is written, and the value it stands for. *)
Inductive wire_value : list N -> pval -> Prop :=
  | W_raw w v : clean w -> none_of [34; 44; 58; 59] w -> Caret w v -> wire_value w (PRaw v)
  | W_quoted w v : clean w -> none_of [34] w -> Caret w v -> wire_value (34 :: w ++ [34]) (PQuoted v).
(** The values of a parameter, with commas between them. *)
Inductive wire_values : list N -> list pval -> Prop :=
  | W_one w v : wire_value w v -> wire_values w [v]
  | W_more w v t vs : wire_value w v -> wire_values t vs -> wire_values (w ++ 44 :: t) (v :: vs).
Inductive wire_params : list N -> list (list N * list pval) -> Prop :=
  | W_none : wire_params [] []
  | W_param k t vs rest ps : identifier k -> wire_values t vs -> wire_params rest ps ->
      wire_params (59 :: k ++ 61 :: t ++ rest) ((k, vs) :: ps).
(** A line of the declared grammar. *)
Definition declared (line name : list N) (ps : list (list N * list pval)) (value : list N) : Prop :=
  exists pt, line = name ++ pt ++ 58 :: value /\ identifier name /\ wire_params pt ps /\ clean value.

(** The last value of no parameter is empty without quotes. *)
Definition ends_filled (ps : list (list N * list pval)) : Prop := forall k vs, In (k, vs) ps -> last vs (PRaw []) <> PRaw [].
(** A line that can be written in the declared grammar: controls only as line breaks in
    parameter values, where they are encoded. *)
Definition clean_line (cl : content_line) : Prop :=
  identifier (cl_name cl) /\ clean (cl_value cl) /\
  forall k vs, In (k, vs) (cl_params cl) -> identifier k /\ vs <> [] /\
    forall v, In v vs -> forall c, In c (pval_str v) -> control c -> c = 10.
