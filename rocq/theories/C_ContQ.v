(** * C72: a container behaves as the list of its items *)
From Verif Require Import M_Base M_Line M_Tree M_Cont S_Cont M_ContQ S_ContQ P_ContQ P_ContQ2.
From Coq Require Import Lia.
Open Scope Z_scope.

(** ** Int subscripts: counted from the front or the back; reading, assigning, deleting
    and popping speak of the same item. *)
Theorem C72_get : forall nm l i k, means (size l) i k ->
  exists x, at_pos l k x /\ getitem nm l (SInt i) = Ok (AObj x) /\ pop_value l i = Ok x.
Proof. exact get_int. Qed.
Print Assumptions C72_get.
Theorem C72_set : forall same l i k x, means (size l) i k ->
  exists l', replaced l k x l' /\ step same l (OpSetItem i x) = (l', outcome l').
Proof. exact set_int'. Qed.
Print Assumptions C72_set.
Theorem C72_delete : forall same l i k, means (size l) i k -> exists y l', removed l k y l' /\
  step same l (OpDel (SInt i)) = (l', Ok tt) /\ step same l (OpPop (Some i)) = (l', Ok tt) /\ pop_value l i = Ok y.
Proof. exact del_int. Qed.
Print Assumptions C72_delete.
Theorem C72_no_such_item : forall same nm l i x, ~ (exists k, means (size l) i k) ->
  getitem nm l (SInt i) = Err IndexError /\ pop_value l i = Err IndexError /\
  step same l (OpSetItem i x) = (l, Err IndexError) /\ step same l (OpDel (SInt i)) = (l, Err IndexError) /\
  step same l (OpPop (Some i)) = (l, Err IndexError).
Proof. exact no_int. Qed.
Print Assumptions C72_no_such_item.

(** ** Adding items: insert clips its index. *)
Theorem C72_insert : forall same l i it, exists a b, l = a ++ b /\
  size a = between 0 (size l) (from_end (size l) i) /\
  step same l (OpInsert (Some i) (OItem it)) = (a ++ OItem it :: b, Ok tt).
Proof. exact insert_spec. Qed.
Print Assumptions C72_insert.
Theorem C72_append : forall same l it xs, only_items xs -> only_items l ->
  step same l (OpAppend (OItem it)) = (l ++ [OItem it], Ok tt) /\
  step same l (OpExtend (ItGen (xs, None))) = (l ++ xs, Ok tt) /\
  step same l OpClear = ([], Ok tt).
Proof. exact ends_spec. Qed.
Print Assumptions C72_append.
(** Finding: [extend] with an iterable that fails on the way keeps what it got so far. *)
Theorem C72_extend_atomic_refuted : forall same l it xs e, exists l',
  step same l (OpExtend (ItGen (OItem it :: xs, Some e))) = (l', Err e) /\ l' = l ++ OItem it :: xs /\ l' <> l.
Proof. exact extend_broken. Qed.
Print Assumptions C72_extend_atomic_refuted.
(** Reversed, in place or in iteration. *)
Theorem C72_reverse : forall same l, exists r, step same l OpReverse = (r, Ok tt) /\ iterate_back l = r /\
  forall k x, at_pos r k x <-> 0 <= k /\ at_pos l (size l - 1 - k) x.
Proof. exact (fun same l => ex_intro _ (rev l) (conj eq_refl (conj eq_refl (rev_at l)))). Qed.
Print Assumptions C72_reverse.

(** ** Slices [a:b:c]. Reading one gives a new container with the selected items, in the
    direction of the step; deleting one keeps all the others in their order. *)
Theorem C72_get_slice : forall nm l a b c, stride c <> 0 -> nm <> [] -> only_items l -> exists ps r,
  lists (0 <? stride c) (selected (size l) a b (stride c)) ps /\ items_at l ps r /\
  getitem nm l (SSlice a b c) = Ok (ACont (upper nm) r).
Proof. exact get_slice. Qed.
Print Assumptions C72_get_slice.
(** A container whose name was emptied cannot be sliced. *)
Theorem C72_get_slice_nameless : forall l a b c, stride c <> 0 -> getitem [] l (SSlice a b c) = Err ValueError.
Proof. exact get_slice_nameless. Qed.
Print Assumptions C72_get_slice_nameless.
Theorem C72_delete_slice : forall same l a b c, stride c <> 0 -> exists ps l',
  lists true (fun k => 0 <= k < size l /\ ~ selected (size l) a b (stride c) k) ps /\ items_at l ps l' /\
  step same l (OpDel (SSlice a b c)) = (l', Ok tt).
Proof. exact del_slice. Qed.
Print Assumptions C72_delete_slice.
(** Assigning to one with step 1 replaces that segment by any number of items... *)
Theorem C72_set_segment : forall same l a b xs c, stride c = 1 -> exists x y z, l = x ++ y ++ z /\
  size x = slice_start (size l) a 1 /\
  size y = Z.max 0 (slice_stop (size l) b 1 - slice_start (size l) a 1) /\
  step same l (OpSetSlice a b c (ItGen (xs, None))) = (x ++ xs ++ z, outcome (x ++ xs ++ z)).
Proof. exact set_segment. Qed.
Print Assumptions C72_set_segment.
(** ... and with any other step exactly as many items as are selected. *)
Theorem C72_set_slice : forall same l a b xs c, stride c <> 0 -> stride c <> 1 -> exists ps,
  lists (0 <? stride c) (selected (size l) a b (stride c)) ps /\
  (size xs <> size ps -> step same l (OpSetSlice a b c (ItGen (xs, None))) = (l, Err ValueError)) /\
  (size xs = size ps -> exists l', step same l (OpSetSlice a b c (ItGen (xs, None))) = (l', outcome l') /\
     size l' = size l /\ items_at l' ps xs /\
     forall k x, 0 <= k < size l -> ~ selected (size l) a b (stride c) k -> at_pos l' k x <-> at_pos l k x).
Proof. exact set_strided. Qed.
Print Assumptions C72_set_slice.
Theorem C72_step_zero : forall same nm l a b c v, stride c = 0 ->
  getitem nm l (SSlice a b c) = Err ValueError /\ step same l (OpDel (SSlice a b c)) = (l, Err ValueError) /\
  step same l (OpSetSlice a b c v) = (l, Err ValueError).
Proof. exact slice_refused. Qed.
Print Assumptions C72_step_zero.

(** ** Names: the items with exactly that name, in order; names are compared as given,
    the subscript is not made upper case. *)
Theorem C72_get_name : forall nm l n, only_items l -> exists ps r,
  lists true (fun k => exists o, at_pos l k o /\ obj_named n o) ps /\ items_at l ps r /\
  getitem nm l (SName n) = Ok (ATuple r).
Proof. exact get_name. Qed.
Print Assumptions C72_get_name.
Theorem C72_delete_name : forall same l n, only_items l -> exists ps l',
  lists true (fun k => exists o, at_pos l k o /\ ~ obj_named n o) ps /\ items_at l ps l' /\
  step same l (OpDel (SName n)) = (l', Ok tt).
Proof. exact del_name. Qed.
Print Assumptions C72_delete_name.
Theorem C72_name_poisoned : forall same nm l n, ~ only_items l ->
  getitem nm l (SName n) = Err AttributeError /\ step same l (OpDel (SName n)) = (l, Err AttributeError).
Proof. exact name_refused. Qed.
Print Assumptions C72_name_poisoned.

(** ** By equality ([same] is any). *)
Theorem C72_remove : forall same l x,
  (exists a y b, l = a ++ y :: b /\ same y x = true /\ Forall (fun z => same z x = false) a /\
     step same l (OpRemove x) = (a ++ b, Ok tt)) \/
  (Forall (fun z => same z x = false) l /\ step same l (OpRemove x) = (l, Err ValueError)).
Proof. exact remove_spec. Qed.
Print Assumptions C72_remove.
Theorem C72_contains : forall same l x, contains same x l = true <-> exists k y, at_pos l k y /\ same y x = true.
Proof. exact contains_spec. Qed.
Print Assumptions C72_contains.
Theorem C72_count : forall same l x, exists ps,
  lists true (fun k => exists y, at_pos l k y /\ same y x = true) ps /\ count same x l = size ps.
Proof. exact count_spec. Qed.
Print Assumptions C72_count.
Theorem C72_index : forall same l x a b,
  (exists k y, at_pos l k y /\ same y x = true /\ low (size l) a <= k < high (size l) b /\ index same x a b l = Ok k /\
     forall j z, at_pos l j z -> low (size l) a <= j < k -> same z x = false) \/
  ((forall j z, at_pos l j z -> low (size l) a <= j < high (size l) b -> same z x = false) /\
   index same x a b l = Err ValueError).
Proof. exact index_spec. Qed.
Print Assumptions C72_index.

Definition cq_l (s : list N) := OItem (ILine (mk_line s [] (py "v"))).
Definition cq_list := [cq_l (py "A"); cq_l (py "B"); OItem (ICont (py "A") []); cq_l (py "C")].
Definition cq_same (a b : obj) : bool :=
  match a, b with OItem (ILine x), OItem (ILine y) => str_eqb (cl_name x) (cl_name y) | _, _ => false end.
Example C72_example : only_items cq_list /\ size cq_list = 4 /\
  means 4 (-1) 3 /\ means 4 2 2 /\ ~ (exists k, means 4 4 k) /\ ~ (exists k, means 4 (-5) k) /\
  getitem (py "X") cq_list (SInt (-1)) = Ok (AObj (cq_l (py "C"))) /\
  getitem (py "x") cq_list (SSlice None None (Some (-2))) = Ok (ACont (py "X") [cq_l (py "C"); cq_l (py "B")]) /\
  getitem (py "X") cq_list (SName (py "A")) = Ok (ATuple [cq_l (py "A"); OItem (ICont (py "A") [])]) /\
  getitem (py "X") cq_list (SName (py "a")) = Ok (ATuple []) /\
  step cq_same cq_list (OpInsert (Some (-9)) (cq_l (py "D"))) = (cq_l (py "D") :: cq_list, Ok tt) /\
  step cq_same cq_list (OpSetSlice (Some 1) (Some (-1)) None (ItGen ([], None))) = ([cq_l (py "A"); cq_l (py "C")], Ok tt) /\
  step cq_same cq_list (OpSetSlice None None (Some 2) (ItGen ([cq_l (py "D")], None))) = (cq_list, Err ValueError) /\
  step cq_same cq_list (OpRemove (cq_l (py "C"))) = (firstn 3 cq_list, Ok tt) /\
  index cq_same (cq_l (py "C")) (Some (-1)) None cq_list = Ok 3 /\
  index cq_same (cq_l (py "A")) (Some 1) None cq_list = Err ValueError.
Proof.
  split; [intros o Ho; cbn in Ho; intuition (subst; eexists; reflexivity)|]. split; [reflexivity|].
  unfold means. split; [lia|]. split; [lia|]. split; [intros [k H]; lia|]. split; [intros [k H]; lia|].
  repeat match goal with |- _ /\ _ => split end; vm_compute; reflexivity.
Qed.
