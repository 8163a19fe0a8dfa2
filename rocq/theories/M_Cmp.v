(** * Normalisation, interval predicates and ordering (src/ics/timespan.py, event.py) *)
From Verif Require Import M_Base M_Codec M_Cal M_Time M_Span.
Open Scope Z_scope.

(** [NormalizationAction] (timespan.py:44-47); [True] and CONVERT behave alike, because
    the code asks [is NormalizationAction.REPLACE]. *)
Inductive action := AIgnore | AReplace | AConvert.
(** [Normalization] (timespan.py:50-58). A callable replacement is called at every use;
    [tzlocal] is the replacement [Some TzLocal]. *)
Record normalization := mk_norm {
  nm_repl : option tz; nm_floating : action; nm_tz : action }.

Section Cmp.
Variable E : env.

(** [Normalization.normalize] (timespan.py:77-132) on a datetime. *)
Definition nm_action (N : normalization) (floating : bool) : action :=
  if floating then nm_floating N else nm_tz N.
Definition normalize_dt (N : normalization) (d : datetime) : res datetime :=
  match nm_action N (naive d) with
  | AIgnore => Ok d
  | AReplace => Ok (dt_replace_tz d (nm_repl N))
  | AConvert => dt_astimezone E d (nm_repl N)
  end.
(** ... and on a Timespan. *)
Definition normalize_span (N : normalization) (t : timespan) : res timespan :=
  match nm_action N (is_floating t) with
  | AIgnore => Ok t
  | AReplace => ts_replace_timezone E t (nm_repl N)
  | AConvert => ts_convert_timezone E t (nm_repl N)
  end.

(** [CMP_DATETIME_NONE_DEFAULT], [CMP_NORMALIZATION] (timespan.py:135-139). *)
Definition CMP_DEFAULT : datetime := mk_dt (mk_wall 1900 1 1 0 0 0 0) false None.
Definition CMP_NORM : normalization := mk_norm (Some TzLocal) AConvert AIgnore.

(** [timespan_tuple] (timespan.py:450-459) with CMP_NORMALIZATION: begin and effective
    end. The one of TodoTimespan (606-611) is an ordinary tuple in reverse order, without
    the attributes [begin] and [end]. *)
Record tup := mk_tup { tp_named : bool; tp_1 : option datetime; tp_2 : option datetime }.
Definition or_default (d : option datetime) (o : option datetime) : option datetime :=
  match o with Some x => Some x | None => d end.
Definition span_tuple (dflt : option datetime) (t : timespan) : res tup :=
  do b <- opt_res (normalize_dt CMP_NORM) (or_default dflt (ts_begin t));
  do e0 <- eff_end E t;
  do e <- opt_res (normalize_dt CMP_NORM) (or_default dflt e0);
  Ok (match ts_kind t with KTodo => mk_tup false e b | _ => mk_tup true b e end).
Definition t_begin (p : tup) : res datetime :=
  if tp_named p then match tp_1 p with Some d => Ok d | None => Err TypeError end else Err AttributeError.
Definition t_end (p : tup) : res datetime :=
  if tp_named p then match tp_2 p with Some d => Ok d | None => Err TypeError end else Err AttributeError.

(** [__require_tuple_components] (timespan.py:471-476). *)
Definition require (r1 r2 r3 r4 : bool) (p q : tup) : res unit :=
  guard (r1 && is_none (tp_1 p) || r2 && is_none (tp_2 p) ||
         r3 && is_none (tp_1 q) || r4 && is_none (tp_2 q)) ValueError.

(** [a <= b < c] with attribute accesses in order of evaluation. *)
Definition within (a b c : res datetime) : res bool :=
  do a <- a; do b <- b; do x <- dt_le E a b;
  if x then do c <- c; dt_lt E b c else Ok false.
Definition or_res (a b : res bool) : res bool := do x <- a; if x then Ok true else b.
Definition and_res (a b : res bool) : res bool := do x <- a; if x then b else Ok false.
Definition le_res (a b : res datetime) : res bool := do a <- a; do b <- b; dt_le E a b.
Definition lt_res (a b : res datetime) : res bool := do a <- a; do b <- b; dt_lt E a b.

Definition two (s o : timespan) (k : tup -> tup -> res bool) : res bool :=
  do p <- span_tuple None s; do q <- span_tuple None o; k p q.
(** [starts_within] .. [is_included_in] (timespan.py:478-554). *)
Definition starts_within (s o : timespan) : res bool := two s o (fun p q =>
  do _ <- require true false true true p q; within (t_begin q) (t_begin p) (t_end q)).
Definition ends_within (s o : timespan) : res bool := two s o (fun p q =>
  do _ <- require false true true true p q; within (t_begin q) (t_end p) (t_end q)).
Definition intersects (s o : timespan) : res bool := two s o (fun p q =>
  do _ <- require true true true true p q;
  or_res (within (t_begin q) (t_begin p) (t_end q))
   (or_res (within (t_begin q) (t_end p) (t_end q))
     (or_res (within (t_begin p) (t_begin q) (t_end p))
       (within (t_begin p) (t_end q) (t_end p))))).
Definition includes (s o : timespan) : res bool := two s o (fun p q =>
  do _ <- require true true true true p q;
  and_res (le_res (t_begin p) (t_begin q)) (lt_res (t_end q) (t_end p))).
Definition includes_dt (s : timespan) (d : datetime) : res bool :=
  do p <- span_tuple None s;
  do d <- normalize_dt CMP_NORM d;
  do _ <- guard (is_none (tp_1 p) || is_none (tp_2 p)) ValueError;
  within (t_begin p) (Ok d) (t_end p).
Definition is_included_in (s o : timespan) : res bool := two s o (fun p q =>
  do _ <- require true true true true p q;
  and_res (le_res (t_begin q) (t_begin p)) (lt_res (t_end p) (t_end q))).

(** Comparison of tuples: the first items that are not [==] decide. *)
Inductive cmpop := CLt | CLe | CGt | CGe.
Definition op_of (o : cmpop) (c : comparison) : bool :=
  match o, c with
  | CLt, Lt | CLe, Lt | CLe, Eq | CGt, Gt | CGe, Gt | CGe, Eq => true
  | _, _ => false
  end.
Definition dt_op (o : cmpop) (a b : datetime) : res bool := rmap (op_of o) (dt_cmp E a b).
Definition cmp2 (o : cmpop) (k : bool) (a1 a2 b1 b2 : datetime) : res bool :=
  if negb (dt_eqb E a1 b1) then dt_op o a1 b1
  else if negb (dt_eqb E a2 b2) then dt_op o a2 b2 else Ok k.
(** [cmp_tuple] and [__lt__] ... of Timespan (timespan.py:461-469, 556-578). *)
Definition cmp_tuple (t : timespan) : res (datetime * datetime) :=
  do p <- span_tuple (Some CMP_DEFAULT) t;
  match tp_1 p, tp_2 p with Some a, Some b => Ok (a, b) | _, _ => Err TypeError end.
Definition span_op (o : cmpop) (s t : timespan) : res bool :=
  do (a1, a2) <- cmp_tuple s; do (b1, b2) <- cmp_tuple t;
  cmp2 o (op_of o Eq) a1 a2 b1 b2.

(** String comparison (by code points). *)
Fixpoint str_cmp (a b : str) : comparison :=
  match a, b with
  | [], [] => Eq
  | [], _ => Lt
  | _, [] => Gt
  | x :: a', y :: b' => match N.compare x y with Eq => str_cmp a' b' | c => c end
  end.
(** Ordering of entries (event.py:196-233): span, then [summary or ""]. An entry is its
    span, its summary and the rest of its data (told apart by a number). *)
Record entry := mk_entry { en_span : timespan; en_summary : option str; en_rest : N }.
Definition en_name (e : entry) : str := match en_summary e with Some s => s | None => [] end.
Definition entry_op (o : cmpop) (x y : entry) : res bool :=
  do (a1, a2) <- cmp_tuple (en_span x); do (b1, b2) <- cmp_tuple (en_span y);
  cmp2 o (op_of o (str_cmp (en_name x) (en_name y))) a1 a2 b1 b2.

(** Equality of spans and of entries as generated by attrs ([eq=True]). *)
Definition opt_z_eqb (a b : option Z) : bool :=
  match a, b with Some x, Some y => x =? y | None, None => true | _, _ => false end.
Definition kind_same (a b : kind) : bool :=
  match a, b with KBase, KBase | KEvent, KEvent | KTodo, KTodo => true | _, _ => false end.
Definition span_eqb (s t : timespan) : bool :=
  kind_same (ts_kind s) (ts_kind t) && opt_dt_eqb E (ts_begin s) (ts_begin t) &&
  opt_dt_eqb E (ts_end s) (ts_end t) && opt_z_eqb (ts_dur s) (ts_dur t) && prec_eqb (ts_prec s) (ts_prec t).
Definition opt_str_eqb (a b : option str) : bool :=
  match a, b with Some x, Some y => str_eqb x y | None, None => true | _, _ => false end.
Definition entry_eqb (x y : entry) : bool :=
  span_eqb (en_span x) (en_span y) && opt_str_eqb (en_summary x) (en_summary y) && N.eqb (en_rest x) (en_rest y).

End Cmp.
