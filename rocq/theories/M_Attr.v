(** * Model of attribute assignment with run-time validation

    src/ics/types.py:112-140 (RuntimeAttrValidation), with the parts of attrs it relies
    on: [attr.fields_dict] and the generated [__init__]. Not modelled: multiple
    inheritance, classes that define [__attr_fields__] or [__setattr__] themselves
    (frozen and slotted classes of the library), deletion of attributes. *)
From Verif Require Import M_Base.

Section Attr.
(** Values of attributes. *)
Variable V : Type.

(** [attr.ib]: converter and validator; a validator may look at the class of the
    instance (event.py:93-96). [None]-converters are the identity. *)
Record field := mk_field { f_conv : V -> res V; f_valid : N -> V -> res unit }.

(** A class: its identity, the attributes declared by itself, its base class. *)
Inductive klass := Klass (id : N) (own : dict field) (base : option klass).
Definition k_id (c : klass) : N := match c with Klass id _ _ => id end.

(** [attr.fields_dict(cls)]: attributes of the bases, overridden by the own ones. *)
Fixpoint fields_dict (c : klass) : dict field :=
  match c with
  | Klass _ own base => dict_update (match base with Some b => fields_dict b | None => [] end) own
  end.

(** The class attribute [__attr_fields__] of each class that has one itself. *)
Definition caches := list (N * dict field).
Definition cached (id : N) (k : caches) : option (dict field) :=
  option_map snd (find (fun e => N.eqb (fst e) id) k).

(** [getattr(cls, "__attr_fields__", None)]: the class and then its bases are searched. *)
Fixpoint find_fields (c : klass) (k : caches) : option (dict field) :=
  match c with
  | Klass id _ base =>
      match cached id k with
      | Some f => Some f
      | None => match base with Some b => find_fields b k | None => None end
      end
  end.

(** An object: its class and its attributes ([__post_init__] is set, types.py:123-124). *)
Record inst := mk_inst { i_cls : klass; i_attrs : dict V }.

(** Lookup of the fields (types.py:127-130): a missing or empty dict is (re)computed and
    stored on the class. *)
Definition use_fields (c : klass) (k : caches) : dict field * caches :=
  match find_fields c k with
  | Some (f :: r) => (f :: r, k)
  | _ => (fields_dict c, (k_id c, fields_dict c) :: k)
  end.

(** Converter and validator (types.py:131-139). *)
Definition checked (fs : dict field) (c : klass) (key : str) (v : V) : res V :=
  match dict_get key fs with
  | None => Ok v
  | Some f => do v' <- f_conv f v; do _ <- f_valid f (k_id c) v'; Ok v'
  end.

(** The generated [__init__]: all converters, then all validators. *)
Fixpoint init_conv (fs : dict field) (vals : str -> V) : res (dict V) :=
  match fs with
  | [] => Ok []
  | (n, f) :: fs' => do v <- f_conv f (vals n); do r <- init_conv fs' vals; Ok ((n, v) :: r)
  end.
Fixpoint init_valid (fs : dict field) (id : N) (attrs : dict V) : res unit :=
  match fs with
  | [] => Ok tt
  | (n, f) :: fs' =>
      do _ <- match dict_get n attrs with Some v => f_valid f id v | None => Err AttributeError end;
      init_valid fs' id attrs
  end.
Definition construct (c : klass) (vals : str -> V) : res inst :=
  do attrs <- init_conv (fields_dict c) vals;
  do _ <- init_valid (fields_dict c) (k_id c) attrs;
  Ok (mk_inst c attrs).

Record world := mk_world { w_cache : caches; w_objs : list inst }.

Inductive action :=
  | New (c : klass) (vals : str -> V)
  | Assign (i : nat) (key : str) (v : V).

Fixpoint replace_at {A} (i : nat) (x : A) (l : list A) : list A :=
  match l, i with
  | [], _ => []
  | _ :: l', O => x :: l'
  | y :: l', S i' => y :: replace_at i' x l'
  end.

(** One action; exceptions are caught by the caller. *)
Definition act (w : world) (a : action) : world * res unit :=
  match a with
  | New c vals =>
      match construct c vals with
      | Ok o => (mk_world (w_cache w) (w_objs w ++ [o]), Ok tt)
      | Err e => (w, Err e)
      end
  | Assign i key v =>
      match nth_error (w_objs w) i with
      | None => (w, Err IndexError)
      | Some o =>
          let (fs, k) := use_fields (i_cls o) (w_cache w) in
          match checked fs (i_cls o) key v with
          | Ok v' => (mk_world k (replace_at i (mk_inst (i_cls o) (dict_set key v' (i_attrs o))) (w_objs w)), Ok tt)
          | Err e => (mk_world k (w_objs w), Err e)
          end
      end
  end.
Definition play (w : world) (h : list action) : world := fold_left (fun w a => fst (act w a)) h w.
Definition start : world := mk_world [] [].
End Attr.
Arguments mk_field {V}. Arguments f_conv {V}. Arguments f_valid {V}.
Arguments Klass {V}. Arguments k_id {V}. Arguments fields_dict {V}. Arguments find_fields {V}.
Arguments mk_inst {V}. Arguments i_cls {V}. Arguments i_attrs {V}.
Arguments use_fields {V}. Arguments checked {V}. Arguments construct {V}. Arguments init_conv {V}. Arguments init_valid {V}.
Arguments mk_world {V}. Arguments w_cache {V}. Arguments w_objs {V}.
Arguments New {V}. Arguments Assign {V}. Arguments act {V}. Arguments play {V}. Arguments start {V}.
