(** * Model of constructing, assigning and cloning components

    src/ics/component.py:23-34, 96-99; src/ics/types.py:112-140; the attributes of
    src/ics/event.py:56-70, 252-270, src/ics/todo.py:22-31, src/ics/icalendar.py:18-38 and
    src/ics/alarm.py. Values are those of [M_Comp]; arguments of other shapes (dicts,
    tuples, iterators) are not modelled. *)
From Verif Require Import M_Base M_Line M_Tree M_Time M_Span M_Comp.

Section Clone.
Variable X : ext.

(** Converter and validator of one attribute, run by the generated [__init__] and by
    every assignment. [converter=list] rejects None; EmailAlarm's lists (alarm.py:93-96)
    have no converter. [in_], [instance_of], [validate_not_none]: ValueError or
    TypeError. *)
Definition init_attr (c : cls) (a : aconv) (v : attr) : res attr :=
  match a_kind a, v with
  | KVal _ true _ _, ANone => if cls_eqb c CEmail then Ok ANone else Err TypeError
  | KVal _ true _ _, AOne _ => Err TypeError           (* not modelled: list(value) *)
  | KVal _ true _ _, AMany l => Ok (AMany l)
  | KVal _ false required _, ANone =>
      if required then Err TypeError
      else if str_eqb (a_attr a) (py "dtstamp") then Err ValueError
      else Ok ANone
  | KVal _ false _ s, AOne w => rmap AOne (apply_set X s w)
  | KVal _ false _ s, AMany l => match s with SPlain => Ok (AMany l) | _ => Err TypeError end
  | KSpan k, AOne w => rmap AOne (apply_set X (SSpan k) w)
  | KSpan _, _ => Err TypeError
  | _, _ => Err TypeError                              (* not an attribute *)
  end.

(** The generated [__init__], with every attribute given. The order of converters and
    validators only matters for which exception is seen. *)
Fixpoint init_attrs (c : cls) (fs : list aconv) (args : str -> attr) : res (dict attr) :=
  match fs with
  | [] => Ok []
  | a :: fs' =>
      do v <- init_attr c a (args (a_attr a));
      do r <- init_attrs c fs' args;
      Ok ((a_attr a, v) :: r)
  end.
(** [extra] and [extra_params] are not arguments: they start empty (component.py:18-30). *)
Definition construct {M} (c : cls) (args : str -> attr) (mems : str -> list M) : res (comp M) :=
  do attrs <- init_attrs c (filter has_attr (class_fields c)) args;
  Ok (mk_comp c attrs (map (fun a => (a_attr a, mems (a_attr a))) (filter has_members (class_fields c)))
        (NAME c) [] []).
(** [setattr(component, name, value)] for an attribute of the class. *)
Definition assign {M} (a : aconv) (v : attr) (x : comp M) : res (comp M) :=
  do v' <- init_attr (c_cls x) a v;
  Ok (set_attrs (dict_set (a_attr a) v' (c_attrs x)) x).

(** [Component.clone] (component.py:96-99): [attr.evolve] reads every attribute that is
    an argument of the constructor and calls the class with all of them. *)
Definition clone {M} (x : comp M) : res (comp M) :=
  construct (c_cls x) (fun a => get_attr a x) (fun a => get_mem a x).
End Clone.

(** ** Which lists a clone shares
    The list attributes of an object (attachments, attendees, categories, alarms, events,
    todos) are references to list objects; [heap] has the contents of every list. Their
    elements are shared: the copy is shallow. *)
Section Lists.
Variable A : Type.
Definition heap := list (list A).
(** The constructor of the clone gets the list of the original; [converter=list] makes a
    new one (event.py:69-70, 267-270; icalendar.py:29-34), EmailAlarm keeps it
    (alarm.py:93-96). *)
Fixpoint clone_lists (c : cls) (refs : dict nat) (h : heap) : dict nat * heap :=
  match refs with
  | [] => ([], h)
  | (k, i) :: r =>
      if cls_eqb c CEmail then let '(r', h') := clone_lists c r h in ((k, i) :: r', h')
      else let '(r', h') := clone_lists c r (h ++ [nth i h []]) in ((k, length h) :: r', h')
  end.
(** Any change to the list a reference points to. *)
Fixpoint write (i : nat) (l : list A) (h : heap) : heap :=
  match h, i with
  | [], _ => []
  | _ :: h', O => l :: h'
  | x :: h', S i' => x :: write i' l h'
  end.
Definition contents (h : heap) (i : nat) : list A := nth i h [].
End Lists.
Arguments clone_lists {A}. Arguments write {A}. Arguments contents {A}.
