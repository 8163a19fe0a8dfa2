(** * Model of the list operations of a Container and of cloning containers

    src/ics/contentline/container.py:132-149, 198-319.
    Not modelled: [line_nr], arguments that iterate over the container they are given
    to, assignments to [.data] or [.name] (these are not list operations). *)
From Verif Require Import M_Base M_Line M_Tree.
Open Scope Z_scope.

(** What a caller may hand in: an item or any other object. *)
Inductive obj := OItem (it : item) | OOther (n : N).

(** An iterable argument: the objects it yields and the exception that ends it, or an
    object that cannot be iterated. *)
Inductive iter_arg := ItGen (g : gen obj) | ItBad.

(** Subscripts: an int, a slice, a str or anything else. *)
Inductive subscript := SInt (i : Z) | SSlice (a b c : option Z) | SName (n : str) | SBad.

(** [Container.check_items] (container.py:270-278) *)
Definition is_item (o : obj) : bool := match o with OItem _ => true | OOther _ => false end.
Definition check_items (l : list obj) : res unit :=
  if forallb is_item l then Ok tt else Err TypeError.

Definition zlen {A} (l : list A) : Z := Z.of_nat (length l).

(** Position meant by an int subscript in a list of length [n] (CPython listobject.c). *)
Definition position (n i : Z) : res nat :=
  let j := if i <? 0 then i + n else i in
  if (0 <=? j) && (j <? n) then Ok (Z.to_nat j) else Err IndexError.

(** [PySlice_Unpack] and [PySlice_AdjustIndices] (CPython sliceobject.c): start, step
    and the number of positions. *)
Definition clamp (n step x : Z) : Z :=
  if x <? 0 then
    let y := x + n in if y <? 0 then (if step <? 0 then -1 else 0) else y
  else if n <=? x then (if step <? 0 then n - 1 else n) else x.
Definition slice_parts (n : Z) (a b c : option Z) : res (Z * Z * Z) :=
  let step := match c with Some s => s | None => 1 end in
  if step =? 0 then Err ValueError
  else
    let start := match a with Some x => clamp n step x | None => if step <? 0 then n - 1 else 0 end in
    let stop := match b with Some x => clamp n step x | None => if step <? 0 then -1 else n end in
    let count := if step <? 0 then (if stop <? start then (start - stop - 1) / (- step) + 1 else 0)
                 else (if start <? stop then (stop - start - 1) / step + 1 else 0) in
    Ok (start, step, count).
Definition slice_positions (start step count : Z) : list nat :=
  map (fun i => Z.to_nat (start + Z.of_nat i * step)) (seq 0 (Z.to_nat count)).

Fixpoint set_nth {A} (i : nat) (x : A) (l : list A) : list A :=
  match l, i with
  | [], _ => []
  | _ :: l', O => x :: l'
  | y :: l', S i' => y :: set_nth i' x l'
  end.
Fixpoint del_positions {A} (i : nat) (ps : list nat) (l : list A) : list A :=
  match l with
  | [] => []
  | x :: l' => if existsb (Nat.eqb i) ps then del_positions (S i) ps l' else x :: del_positions (S i) ps l'
  end.
Definition set_positions {A} (ps : list nat) (xs l : list A) : list A :=
  fold_left (fun acc px => set_nth (fst px) (snd px) acc) (combine ps xs) l.

(** [self.data.__setitem__(slice, value)] (CPython list_ass_subscript). *)
Definition set_slice (l : list obj) (a b c : option Z) (v : iter_arg) : list obj * res unit :=
  match slice_parts (zlen l) a b c with
  | Err e => (l, Err e)
  | Ok (start, step, count) =>
      match v with
      | ItBad => (l, Err TypeError)
      | ItGen (_, Some e) => (l, Err e)
      | ItGen (xs, None) =>
          if step =? 1 then
            (firstn (Z.to_nat start) l ++ xs ++ skipn (Z.to_nat start + Z.to_nat count) l, Ok tt)
          else if zlen xs =? count then (set_positions (slice_positions start step count) xs l, Ok tt)
          else (l, Err ValueError)
      end
  end.

(** [attr.validate(self)]: the validator of [data] (container.py:231) on the list as it is now *)
Definition validated (r : list obj * res unit) : list obj * res unit :=
  match r with
  | (l, Ok _) => (l, check_items l)
  | (l, Err e) => (l, Err e)
  end.

Inductive op :=
  | OpAppend (o : obj)
  | OpInsert (i : option Z) (o : obj)       (* None: the index is not an int *)
  | OpExtend (v : iter_arg)
  | OpSetItem (i : Z) (o : obj)
  | OpSetSlice (a b c : option Z) (v : iter_arg)
  | OpSetBad                                (* subscript neither int nor slice *)
  | OpDel (s : subscript)
  | OpPop (i : option Z)
  | OpRemove (o : obj)
  | OpReverse
  | OpClear.

Section Ops.
(** [==] of Python objects, used by [list.remove]. *)
Variable same : obj -> obj -> bool.

Fixpoint remove_first (o : obj) (l : list obj) : option (list obj) :=
  match l with
  | [] => None
  | x :: l' => if same x o then Some l' else option_map (cons x) (remove_first o l')
  end.

(** [[cl for cl in self.data if cl.name != i]] (container.py:301); other objects have
    no [name]. *)
Definition obj_name (o : obj) : res str :=
  match o with
  | OItem (ILine cl) => Ok (cl_name cl)
  | OItem (ICont n _) => Ok n
  | OOther _ => Err AttributeError
  end.
Fixpoint without_name (n : str) (l : list obj) : res (list obj) :=
  match l with
  | [] => Ok []
  | o :: l' =>
      do m <- obj_name o;
      do r <- without_name n l';
      Ok (if str_eqb m n then r else o :: r)
  end.

(** [list.insert]: the index is cut to the length of the list. *)
Definition insert_at (i : Z) (o : obj) (l : list obj) : list obj :=
  let j := if i <? 0 then Z.max 0 (i + zlen l) else Z.min i (zlen l) in
  firstn (Z.to_nat j) l ++ o :: skipn (Z.to_nat j) l.

(** One operation (container.py:280-319): the list afterwards and the outcome. *)
Definition step (l : list obj) (o : op) : list obj * res unit :=
  match o with
  | OpAppend x =>
      match check_items [x] with Err e => (l, Err e) | Ok _ => (l ++ [x], Ok tt) end
  | OpInsert i x =>
      match check_items [x] with
      | Err e => (l, Err e)
      | Ok _ => match i with None => (l, Err TypeError) | Some i => (insert_at i x l, Ok tt) end
      end
  | OpExtend ItBad => (l, Err TypeError)
  | OpExtend (ItGen (xs, e)) =>
      match e with
      | Some e => (l ++ xs, Err e)               (* list.extend keeps what it got *)
      | None => validated (l ++ xs, Ok tt)
      end
  | OpSetItem i x =>
      match position (zlen l) i with
      | Err e => (l, Err e)
      | Ok p => validated (set_nth p x l, Ok tt)
      end
  | OpSetSlice a b c v => validated (set_slice l a b c v)
  | OpSetBad => (l, Err TypeError)
  | OpDel (SName n) =>
      match without_name n l with Err e => (l, Err e) | Ok l' => (l', Ok tt) end
  | OpDel (SInt i) =>
      match position (zlen l) i with
      | Err e => (l, Err e)
      | Ok p => (del_positions 0 [p] l, Ok tt)
      end
  | OpDel (SSlice a b c) =>
      match slice_parts (zlen l) a b c with
      | Err e => (l, Err e)
      | Ok (start, step, count) => (del_positions 0 (slice_positions start step count) l, Ok tt)
      end
  | OpDel SBad => (l, Err TypeError)
  | OpPop None => (l, Err TypeError)
  | OpPop (Some i) =>
      match position (zlen l) i with
      | Err e => (l, Err e)
      | Ok p => (del_positions 0 [p] l, Ok tt)
      end
  | OpRemove x =>
      match remove_first x l with None => (l, Err ValueError) | Some l' => (l', Ok tt) end
  | OpReverse => (rev l, Ok tt)
  | OpClear => ([], Ok tt)
  end.

(** A history: the caller catches every exception and goes on. *)
Definition run (l : list obj) (h : list op) : list obj := fold_left (fun l o => fst (step l o)) h l.

End Ops.

(** ** Cloning, with object identities

    Every mutable object carries its identity: content lines, their parameter dict and
    the list of values of each parameter; containers and their [data] list. Parameter
    values are immutable ([QuotedParamValue] is treated as such). *)
Inductive litem :=
  | LLine (id did : N) (name : str) (ps : list (str * (N * list pval))) (value : str)
  | LCont (id did : N) (name : str) (items : list litem).

Open Scope N_scope.

(** [copy_extra_params] (types.py:171-186): a new dict with a new list per entry. *)
Fixpoint copy_params (n : N) (ps : list (str * (N * list pval))) : list (str * (N * list pval)) * N :=
  match ps with
  | [] => ([], n)
  | (k, (_, vs)) :: ps' =>
      let '(r, m) := copy_params (n + 1) ps' in ((k, (n, vs)) :: r, m)
  end.

(** [ContentLine.clone] (container.py:200-202) and [Container.clone] without arguments
    (260-266), as called on the items of a deep clone: [n] is the next free identity. *)
Definition clone_item (n : N) (it : litem) : litem * N :=
  match it with
  | LLine _ _ name ps value =>
      let '(ps', m) := copy_params (n + 2) ps in (LLine n (n + 1) (upper name) ps' value, m)
  | LCont _ _ name items => (LCont n (n + 1) (upper name) items, n + 2)
  end.
Fixpoint clone_items (n : N) (l : list litem) : list litem * N :=
  match l with
  | [] => ([], n)
  | it :: l' => let '(it', m) := clone_item n it in
                let '(r, k) := clone_items m l' in (it' :: r, k)
  end.

(** [Container.clone(deep=...)] (container.py:260-266). *)
Definition clone_container (deep : bool) (n : N) (name : str) (items : list litem) : litem :=
  LCont n (n + 1) (upper name) (if deep then fst (clone_items (n + 2) items) else items).
