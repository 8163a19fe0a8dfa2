(** * Specification for assignment validation *)
From Verif Require Import M_Base M_Attr.

Section Attr.
Variable V : Type.
Notation klass := (klass V).

(** The field an attribute has according to the class statement: the declaration in the
    class itself, else the one in the nearest base class. *)
Fixpoint declared (c : klass) (key : str) : option (field V) :=
  match c with
  | Klass _ own base =>
      match find (fun e => str_eqb key (fst e)) (rev own) with
      | Some e => Some (snd e)
      | None => match base with Some b => declared b key | None => None end
      end
  end.

(** What an assignment must do, whatever happened before. *)
Definition ought (c : klass) (key : str) (v : V) : res V :=
  match declared c key with
  | None => Ok v
  | Some f => match f_conv f v with
              | Err e => Err e
              | Ok v' => match f_valid f (k_id c) v' with Ok _ => Ok v' | Err e => Err e end
              end
  end.

(** A value that went through converter and validator of the attribute. *)
Definition accepted (c : klass) (key : str) (v : V) : Prop :=
  match declared c key with
  | None => True
  | Some f => (exists v0, f_conv f v0 = Ok v) /\ f_valid f (k_id c) v = Ok tt
  end.
Definition valid_inst (o : inst V) : Prop :=
  forall key v, dict_get key (i_attrs o) = Some v -> accepted (i_cls o) key v.
Definition complete_inst (o : inst V) : Prop :=
  forall key, declared (i_cls o) key <> None -> dict_get key (i_attrs o) <> None.

(** [d] is a proper base class of [c]. *)
Fixpoint base_of (d c : klass) : Prop :=
  match c with
  | Klass _ _ None => False
  | Klass _ _ (Some b) => d = b \/ base_of d b
  end.
(** Classes that do not get in each other's way: identities are unique, and a class and
    a base class of it are only both used if they have the same attributes (or the base
    class has none). *)
Definition unrelated (K : klass -> Prop) : Prop :=
  (forall c d, K c -> K d -> k_id c = k_id d -> c = d) /\
  (forall c d b, K c -> K d -> base_of b c -> k_id b = k_id d -> b = d) /\
  (forall c d, K c -> K d -> base_of d c -> (forall key, declared d key = None) \/ forall key, declared d key = declared c key).
Definition uses (K : klass -> Prop) (h : list (action V)) : Prop :=
  forall c vals, In (New c vals) h -> K c.
End Attr.
Arguments declared {V}. Arguments ought {V}. Arguments accepted {V}. Arguments valid_inst {V}. Arguments complete_inst {V}.
Arguments base_of {V}. Arguments unrelated {V}. Arguments uses {V}.
