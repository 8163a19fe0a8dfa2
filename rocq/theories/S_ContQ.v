(** * Specification of the list operations and queries of a container

    In the words of the Python documentation of sequences. *)
From Verif Require Import M_Base M_Line M_Tree M_Cont.
Open Scope Z_scope.

Definition size {A} (l : list A) : Z := Z.of_nat (length l).
(** The item at position [k]. *)
Definition at_pos {A} (l : list A) (k : Z) (x : A) : Prop := 0 <= k /\ nth_error l (Z.to_nat k) = Some x.

(** The subscript [i] means position [k] of [n]: counted from the front or from the back. *)
Definition means (n i k : Z) : Prop := 0 <= k < n /\ (i = k \/ i = k - n).
(** Replacing or removing what is at position [k]. *)
Definition replaced {A} (l : list A) (k : Z) (x : A) (l' : list A) : Prop :=
  exists a y b, l = a ++ y :: b /\ size a = k /\ l' = a ++ x :: b.
Definition removed {A} (l : list A) (k : Z) (y : A) (l' : list A) : Prop :=
  exists a b, l = a ++ y :: b /\ size a = k /\ l' = a ++ b.

(** The number nearest to [x] between [lo] and [hi]. *)
Definition between (lo hi x : Z) : Z := Z.max lo (Z.min hi x).
(** A negative number counts from the end. *)
Definition from_end (n x : Z) : Z := if x <? 0 then n + x else x.

(** The bounds of the slice [a:b:s] of [n] items, for either direction. *)
Definition slice_start (n : Z) (a : option Z) (s : Z) : Z :=
  if 0 <? s then match a with Some x => between 0 n (from_end n x) | None => 0 end
  else match a with Some x => between (-1) (n - 1) (from_end n x) | None => n - 1 end.
Definition slice_stop (n : Z) (b : option Z) (s : Z) : Z :=
  if 0 <? s then match b with Some x => between 0 n (from_end n x) | None => n end
  else match b with Some x => between (-1) (n - 1) (from_end n x) | None => -1 end.
(** The positions in it: start, start + s, ... until the stop is reached. *)
Definition selected (n : Z) (a b : option Z) (s k : Z) : Prop :=
  exists j, 0 <= j /\ k = slice_start n a s + j * s /\
    if 0 <? s then k < slice_stop n b s else slice_stop n b s < k.
Definition stride (c : option Z) : Z := match c with Some s => s | None => 1 end.

(** [ps] lists the positions for which [Q] holds, each once, upwards or downwards. *)
Fixpoint steps (up : bool) (ps : list Z) : Prop :=
  match ps with
  | [] => True
  | p :: ps' => Forall (fun q => if up then p < q else q < p) ps' /\ steps up ps'
  end.
Definition lists (up : bool) (Q : Z -> Prop) (ps : list Z) : Prop := steps up ps /\ forall k, In k ps <-> Q k.
(** [r] are the items of [l] at the positions [ps]. *)
Definition items_at {A} (l : list A) (ps : list Z) (r : list A) : Prop := Forall2 (at_pos l) ps r.

Definition obj_named (n : list N) (o : obj) : Prop :=
  match o with
  | OItem (ILine cl) => cl_name cl = n
  | OItem (ICont m _) => m = n
  | OOther _ => False
  end.

(** The list as changed is checked afterwards: a foreign object in it is a TypeError. *)
Definition outcome (l : list obj) : res unit :=
  if existsb (fun o => match o with OItem _ => false | OOther _ => true end) l then Err TypeError else Ok tt.
(** The bounds of [index]. *)
Definition low (n : Z) (s : option Z) : Z := match s with Some s => Z.max 0 (from_end n s) | None => 0 end.
Definition high (n : Z) (s : option Z) : Z := match s with Some s => Z.max 0 (from_end n s) | None => n end.
