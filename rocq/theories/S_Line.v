(** * Specification of content lines (RFC 5545 3.1, RFC 6868)

    A grammar, independent of the index-based parser of the model. *)
From Verif Require Import M_Base M_Line.

(** [Caret w v]: the caret-encoded text [w] denotes [v] (RFC 6868). *)
Inductive Caret : str -> str -> Prop :=
  | Caret_nil : Caret [] []
  | Caret_plain c w v : c <> 94 -> Caret w v -> Caret (c :: w) (c :: v)
  | Caret_caret w v : Caret w v -> Caret (94 :: 94 :: w) (94 :: v)
  | Caret_n w v : Caret w v -> Caret (94 :: 110 :: w) (10 :: v)
  | Caret_quote w v : Caret w v -> Caret (94 :: 39 :: w) (34 :: v).

Definition none_of (cs : list char) (s : str) : Prop := forall c, In c cs -> ~ In c s.

(** The text continues with ':' (58) or ';' (59). *)
Definition at_delim (s : str) : Prop := exists c t, s = c :: t /\ (c = 58 \/ c = 59).

Definition not_quoted (s : str) : Prop := forall t, s <> 34 :: t.

(** [GVals t vs rest]: text [t] starts with the comma separated values [vs] and
    goes on with [rest], which starts with a delimiter. *)
Inductive GVals : str -> list pval -> str -> Prop :=
  | GV_raw_last r v rest :
      r <> [] -> not_quoted r -> none_of [44; 58; 59] r -> Caret r v -> at_delim rest ->
      GVals (r ++ rest) [PRaw v] rest
  | GV_raw_more r v t vs rest :
      not_quoted r -> none_of [44; 58; 59] r -> Caret r v -> GVals t vs rest ->
      GVals (r ++ 44 :: t) (PRaw v :: vs) rest
  | GV_quoted_last q v rest :
      none_of [34] q -> Caret q v -> at_delim rest ->
      GVals (34 :: q ++ 34 :: rest) [PQuoted v] rest
  | GV_quoted_more q v t vs rest :
      none_of [34] q -> Caret q v -> GVals t vs rest ->
      GVals (34 :: q ++ 34 :: 44 :: t) (PQuoted v :: vs) rest.

(** [GRest t ps v]: [t] is a sequence of parameters [ps], then ':' and value [v]. *)
Inductive GRest : str -> list (str * list pval) -> str -> Prop :=
  | GR_value v : GRest (58 :: v) [] v
  | GR_param pname t vals rest ps v :
      none_of [61; 58; 59] pname -> GVals t vals rest -> GRest rest ps v ->
      GRest (59 :: pname ++ 61 :: t) ((pname, vals) :: ps) v.

(** A line: its name (everything before the first delimiter), the parameters in
    textual order (possibly with repeated names), the value. *)
Definition GLine (line name : str) (ps : list (str * list pval)) (value : str) : Prop :=
  exists rest, line = name ++ rest /\ none_of [58; 59] name /\ GRest rest ps value.

(** The dictionary built from a sequence of assignments: the last one wins. *)
Definition assign_all (ps : list (str * list pval)) : params := dict_update [] ps.

(** ** Which content lines can be written faithfully *)
Definition wf_pvals (vs : list pval) : Prop :=
  vs <> [] /\
  (forall v, In v vs -> ~ In 13 (pval_str v)) /\
  (last vs (PRaw []) <> PRaw []).

Definition wf_line (cl : content_line) : Prop :=
  none_of [58; 59] (cl_name cl) /\
  upper (cl_name cl) = cl_name cl /\
  NoDup (map fst (cl_params cl)) /\
  (forall k vs, In (k, vs) (cl_params cl) -> none_of [61; 58; 59] k /\ wf_pvals vs).

(** Python equality of content lines does not distinguish a quoted from an
    unquoted parameter value ([UserString.__eq__]). *)
Definition line_eq (a b : content_line) : Prop :=
  cl_name a = cl_name b /\ cl_value a = cl_value b /\
  map (fun kv => (fst kv, map pval_str (snd kv))) (cl_params a) =
  map (fun kv => (fst kv, map pval_str (snd kv))) (cl_params b).
