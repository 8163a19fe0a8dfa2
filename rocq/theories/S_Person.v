(** * Specification: a person's attributes as independent fields *)
From Verif Require Import S_Codec.
From Verif Require Import M_Base M_Line M_Tree M_Comp M_Person.

(** What is in a field after a history, given what was there before. *)
Fixpoint field_after (a : list N) (before : res pyv) (h : list pop) : res pyv :=
  match h with
  | [] => before
  | OSet b v :: h' => field_after a (if str_eqb a (pp_attr b) then Ok v else before) h'
  | ODel b :: h' => field_after a (if str_eqb a (pp_attr b) then Ok (pp_default b) else before) h'
  | OEmail _ :: h' => field_after a before h'
  end.
Fixpoint email_after (e : email) (h : list pop) : email :=
  match h with [] => e | OEmail e' :: h' => email_after e' h' | _ :: h' => email_after e h' end.

(** Values of the type an attribute is declared with; an address is one that its text
    stands for. *)
Definition right_one (X : ext) (c : pconv) (v : pyv) : Prop :=
  match c, v with
  | PText, PyStr _ => True
  | PBool, PyBool _ => True
  | PUri, PyUrl u => x_urlparse X (x_geturl X u) = Ok u
  | _, _ => False
  end.
Definition right_value (X : ext) (a : pprop) (v : pyv) : Prop :=
  if pp_multi a then exists l, v = PyList l /\ Forall (right_one X (pp_conv a)) l
  else right_one X (pp_conv a) v.
(** Histories of assignments of such values, deletions and changes of the address. *)
Definition right_op (X : ext) (r : role) (o : pop) : Prop :=
  match o with
  | OSet a v => In a (props r) /\ right_value X a v
  | ODel a => In a (props r)
  | OEmail _ => True
  end.

(** What one parameter value stands for, and what an attribute is by its parameter. *)
Definition stands (X : ext) (c : pconv) (v : pval) (x : pyv) : Prop :=
  match c with
  | PText => x = PyStr (pval_str v)
  | PBool => exists b w, x = PyBool b /\ In w (if b : bool then true_words else false_words) /\ same_letters (pval_str v) w
  | PUri => (exists s u, v = PRaw s /\ x = PyUrl u /\ x_urlparse X s = Ok u) \/ v = PQuoted [] /\ x = PyBytesUrl
  end.
Definition field_is (X : ext) (a : pprop) (o : option (list pval)) (x : pyv) : Prop :=
  match o with
  | None => x = pp_default a
  | Some vs =>
      if pp_multi a then exists l, x = PyList l /\ Forall2 (stands X (pp_conv a)) vs l
      else vs = [] /\ x = pp_default a \/ exists v, vs = [v] /\ stands X (pp_conv a) v x
  end.
(** Parameters and values that have a written form (see C05). *)
From Verif Require Import S_Line.
Definition writable_extra (x : xp) : Prop :=
  NoDup (keys x) /\ forall k vs, In (k, vs) x -> none_of [61; 58; 59] k /\ wf_pvals vs.
Definition plain (s : list N) : Prop := s <> [] /\ ~ In 13%N s.
Definition writable_one (X : ext) (v : pyv) : Prop :=
  match v with PyStr s => plain s | PyUrl u => plain (x_geturl X u) | _ => True end.
Definition writable_op (X : ext) (o : pop) : Prop :=
  match o with
  | OSet _ (PyList l) => l <> [] /\ Forall (writable_one X) l
  | OSet _ v => writable_one X v
  | _ => True
  end.
(** Parameter values that are written without quotes. *)
Definition unquoted (v : pval) : Prop := exists s, v = PRaw s /\ none_of [44; 58; 59] s.
