(** * Model of what a failing [populate] leaves behind

    src/ics/component.py:49-55, src/ics/converter/component.py:130-160,
    src/ics/converter/value.py:49-115, src/ics/converter/types/timespan.py:33-102,
    src/ics/converter/types/various.py:101-108, src/ics/converter/types/calendar.py:25-38.

    M_Comp returns only the exception of a reading that fails. Here every function returns
    the state in which it stops, and the exception if there is one. Sub-components are new
    objects; those whose reading fails are lost with the exception. The context of a call
    is not used after it (the caller gives none). *)
From Verif Require Import M_Base M_Text M_Line M_Codec M_Cal M_Time M_Span M_Dt M_Tree M_Comp M_Merge.

(** The state afterwards, and a result or an exception. *)
Definition out (S A : Type) : Type := S * res A.

Section Fail.
Variable X : ext.
Variable M : Type.
Local Notation lst := (lst M).

(** Nothing is stored before the exception of [r]. *)
Definition first {A B} (st : lst) (r : res A) (k : A -> out lst B) : out lst B :=
  match r with Ok a => k a | Err e => (st, Err e) end.

(** value.py:76-90: the parameters are stored before the value, which is checked when it
    is assigned. *)
Definition single_out (a : aconv) (convs : list vconv) (s : setter) (cl : content_line) (st : lst) : out lst bool :=
  if Nat.ltb 0 (count (a_attr a) st) then (st, Err ValueError)
  else
    first st (prepare_params convs (cl_params cl)) (fun '(ps, c) =>
    first st (vparse X c (cl_value cl) ps (l_zones st)) (fun '(v, ps', zs) =>
    let comp1 := store_params (a_key a) ps' (l_comp st) in
    let n := dict_set (a_attr a) (S (count (a_attr a) st)) (l_count st) in
    match apply_set X s v with
    | Err e => (mk_lst comp1 n (l_span st) zs, Err e)
    | Ok v' => (mk_lst (set_attrs (dict_set (a_attr a) (AOne v') (c_attrs comp1)) comp1) n (l_span st) zs, Ok true)
    end)).

(** value.py:62-75: the values are taken one by one from the generator (text.py:66-76),
    which may raise [o] after the last of them; the mark of the last value is changed only
    when all have been taken. *)
Fixpoint values_out (a : aconv) (c : vconv) (vals : list str) (o : option exn) (ps : xp) (st : lst) : out lst bool :=
  match vals with
  | [] => (st, match o with Some e => Err e | None => Ok true end)
  | s :: vals' =>
      first st (vparse X c s ps (l_zones st)) (fun '(v, ps', zs) =>
      let ps1 := dict_set MERGE (raw [py "TRUE"]) ps' in
      let stored := match vals', o with [], None => dict_set MERGE (raw [py "FALSE"]) ps' | _, _ => ps1 end in
      match append_params (a_key a) stored (l_comp st) with
      | Err e => (st, Err e)
      | Ok comp1 =>
          match append_value (a_attr a) v comp1 with
          | Err e => (mk_lst comp1 (l_count st) (l_span st) zs, Err e)
          | Ok comp2 => values_out a c vals' o ps1
              (mk_lst comp2 (dict_set (a_attr a) (S (count (a_attr a) st)) (l_count st)) (l_span st) zs)
          end
      end)
  end.
Definition multi_out (a : aconv) (convs : list vconv) (cl : content_line) (st : lst) : out lst bool :=
  first st (prepare_params convs (cl_params cl)) (fun '(ps, c) =>
  let '(vals, o) := match c with Text => split_value_list (cl_value cl) | _ => (split_on c_comma (cl_value cl), None) end in
  values_out a c vals o ps st).

(** timespan.py:33-78: the parameters of DURATION are stored before its value is read,
    those of the other lines after it; the times are only in the context. *)
Definition span_out (cl : content_line) (st : lst) : out lst bool :=
  match populate_span X cl st with
  | Ok st' => (st', Ok true)
  | Err e =>
      (if existsb (str_eqb (cl_name cl)) (sc_seen (l_span st)) then st
       else if str_eqb (cl_name cl) (py "DURATION") then
         mk_lst (store_params (py "DURATION") (cl_params cl) (l_comp st)) (l_count st) (l_span st) (l_zones st)
       else st, Err e)
  end.

Variable load_m : mkind -> str -> list item -> zones -> res (M * zones).
(** [conv.populate(instance, line, context)]; the others store nothing before they fail
    (various.py:101-108, component.py:163-184, calendar.py:71-75). *)
Definition conv_out (a : aconv) (it : item) (st : lst) : out lst bool :=
  match a_kind a, it with
  | KVal convs false _ s, ILine cl => single_out a convs s cl st
  | KVal convs true _ _, ILine cl => multi_out a convs cl st
  | KSpan _, ILine cl => span_out cl st
  | _, _ => match populate_conv X M load_m a it st with Ok (st', b) => (st', Ok b) | Err e => (st, Err e) end
  end.
Fixpoint convs_out (l : list aconv) (it : item) (st : lst) (consumed : bool) : out lst bool :=
  match l with
  | [] => (st, Ok consumed)
  | a :: l' =>
      match conv_out a it st with
      | (st', Ok b) => convs_out l' it st' (consumed || b)
      | (st', Err e) => (st', Err e)
      end
  end.
(** component.py:148-156 *)
Definition item_out (it : item) (st : lst) : out lst unit :=
  match convs_out (lookup (c_cls (l_comp st)) (item_name it)) it st false with
  | (st', Err e) => (st', Err e)
  | (st', Ok true) => (st', Ok tt)
  | (st', Ok false) =>
      let c := l_comp st' in
      (mk_lst (set_extra (c_extra c ++ [it]) c) (l_count st') (l_span st') (l_zones st'), Ok tt)
  end.
Fixpoint items_out (its : list item) (st : lst) : out lst unit :=
  match its with
  | [] => (st, Ok tt)
  | it :: its' =>
      match item_out it st with
      | (st', Ok tt) => items_out its' st'
      | (st', Err e) => (st', Err e)
      end
  end.
(** [hook(instance, context)] (component.py:158-159): every hook checks before it stores
    (value.py:111-115, timespan.py:80-102). *)
Fixpoint hooks_out (l : list aconv) (st : lst) : out lst unit :=
  match l with
  | [] => (st, Ok tt)
  | a :: l' =>
      match post_conv X M a st with
      | Ok st' => hooks_out l' st'
      | Err e => (st, Err e)
      end
  end.
(** [populate_instance] (component.py:130-160): the component afterwards. *)
Definition instance_out (c : comp M) (name : str) (its : list item) (zs : zones) : out (comp M) unit :=
  if str_eqb name (NAME (c_cls c)) then
    match items_out its (mk_lst c [] sc0 zs) with
    | (st, Err e) => (l_comp st, Err e)
    | (st, Ok tt) => let '(st', r) := hooks_out (converters (c_cls c)) st in (l_comp st', r)
    end
  else (c, Err ValueError).
End Fail.

(** [event.populate(container)], [todo.populate(container)] *)
Definition entry_out (X : ext) (x : entry) (n : str) (its : list item) : out entry unit :=
  instance_out X alarm (entry_member X) x n its [].
(** [alarm.populate(container)] *)
Definition alarm_out (X : ext) (x : alarm) (n : str) (its : list item) : out alarm unit :=
  instance_out X Empty_set no_member x n its [].
(** [calendar.populate(container)]: the zones are read first (calendar.py:25-38). *)
Definition calendar_out (X : ext) (c : calendar) (n : str) (its : list item) : out calendar unit :=
  if str_eqb n (py "VCALENDAR") then
    match load_zones X its [] with
    | Err e => (c, Err e)
    | Ok zs => instance_out X entry (calendar_member X) c n its zs
    end
  else (c, Err ValueError).
