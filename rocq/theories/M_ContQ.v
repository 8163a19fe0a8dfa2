(** * Model of the list queries of a Container

    src/ics/contentline/container.py:206-212, 291-297, 309-319. The list operations that
    change a container are in M_Cont. Not modelled: [__iter__] and [__reversed__] of a
    container that is changed while it is iterated over, [MutableSequence.__iadd__]
    (which is [extend]) and [Sequence.__getitem__] with an object that has [__index__]. *)
From Verif Require Import M_Base M_Line M_Tree M_Cont.
Open Scope Z_scope.

(** What a query gives back: one object, a tuple of objects or a new container. *)
Inductive answer := AObj (o : obj) | ATuple (l : list obj) | ACont (name : str) (l : list obj).

(** [self.data[i]] for positions inside the list. *)
Fixpoint pick {A} (l : list A) (ps : list nat) : list A :=
  match ps with
  | [] => []
  | p :: ps' => match nth_error l p with Some x => x :: pick l ps' | None => pick l ps' end
  end.

(** [tuple(cl for cl in self.data if cl.name == i)] (container.py:293) *)
Fixpoint with_name (n : str) (l : list obj) : res (list obj) :=
  match l with
  | [] => Ok []
  | o :: l' =>
      do m <- obj_name o;
      do r <- with_name n l';
      Ok (if str_eqb m n then o :: r else r)
  end.

(** [Container.__getitem__] (container.py:291-297). A slice is made a new container by
    [attr.evolve]: converters and validators of container.py:227-232 run again. *)
Definition getitem (name : str) (l : list obj) (s : subscript) : res answer :=
  match s with
  | SName n => rmap ATuple (with_name n l)
  | SSlice a b c =>
      do (start, step, count) <- slice_parts (zlen l) a b c;
      let r := pick l (slice_positions start step count) in
      match name with
      | [] => Err ValueError                     (* validate_truthy, utils.py:167-169 *)
      | _ => do _ <- check_items r; Ok (ACont (upper name) r)
      end
  | SInt i =>
      do p <- position (zlen l) i;
      match nth_error l p with Some x => Ok (AObj x) | None => Err IndexError end
  | SBad => Err TypeError
  end.

Section Queries.
(** [==] of Python objects. *)
Variable same : obj -> obj -> bool.

(** [__contains__], [count], [index] (container.py:309-315, CPython listobject.c). *)
Definition contains (o : obj) (l : list obj) : bool := existsb (fun x => same x o) l.
Fixpoint count (o : obj) (l : list obj) : Z :=
  match l with [] => 0 | x :: l' => (if same x o then 1 else 0) + count o l' end.
Definition floor0 (n i : Z) : Z := if i <? 0 then Z.max 0 (i + n) else i.
Fixpoint find_from (o : obj) (i start stop : Z) (l : list obj) : res Z :=
  match l with
  | [] => Err ValueError
  | x :: l' => if (start <=? i) && (i <? stop) && same x o then Ok i else find_from o (i + 1) start stop l'
  end.
Definition index (o : obj) (start stop : option Z) (l : list obj) : res Z :=
  let n := zlen l in
  find_from o 0 (match start with Some s => floor0 n s | None => 0 end)
    (match stop with Some s => floor0 n s | None => n end) l.
End Queries.

(** [__len__], [__iter__] and [__reversed__] (container.py:310-312). *)
Definition len (l : list obj) : Z := zlen l.
Definition iterate (l : list obj) : list obj := l.
Definition iterate_back (l : list obj) : list obj := rev l.

(** [Container.pop] (container.py:317): what it returns; what it leaves is [step]. *)
Definition pop_value (l : list obj) (i : Z) : res obj :=
  do p <- position (zlen l) i;
  match nth_error l p with Some x => Ok x | None => Err IndexError end.
