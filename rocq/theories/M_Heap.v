(** * CPython's heapq (Lib/heapq.py 3.11: heappop 137-145, heapify 170-179, _siftdown
      207-219, _siftup 260-278)

    The C accelerator performs the same comparisons on the same items. A heap is a list;
    the comparison [lt] may raise. Indices and fuel are natural numbers. *)
From Verif Require Import M_Base.
Open Scope nat_scope.

Section Heap.
Context {A : Type}.
Variable lt : A -> A -> res bool.

(** [heap[i]], [heap[i] = x]. *)
Definition get (l : list A) (i : nat) : res A :=
  match nth_error l i with Some a => Ok a | None => Err IndexError end.
Fixpoint upd (l : list A) (i : nat) (x : A) : list A :=
  match l, i with
  | [], _ => []
  | _ :: l', O => x :: l'
  | a :: l', S i' => a :: upd l' i' x
  end.

(** [_siftdown(heap, startpos, pos)] with [newitem = heap[pos]]. *)
Fixpoint siftdown (fuel : nat) (heap : list A) (startpos pos : nat) (newitem : A) : res (list A) :=
  match fuel with
  | O => Err OutOfFuel
  | S f =>
      if Nat.ltb startpos pos then
        let parentpos := (pos - 1) / 2 in
        do parent <- get heap parentpos;
        do b <- lt newitem parent;
        if b then siftdown f (upd heap pos parent) startpos parentpos newitem
        else Ok (upd heap pos newitem)
      else Ok (upd heap pos newitem)
  end.
(** The loop of [_siftup]: the heap and the position where it ends. *)
Fixpoint siftup_loop (fuel : nat) (heap : list A) (pos : nat) : res (list A * nat) :=
  match fuel with
  | O => Err OutOfFuel
  | S f =>
      let childpos := 2 * pos + 1 in
      if Nat.ltb childpos (length heap) then
        let rightpos := childpos + 1 in
        do c <- (if Nat.ltb rightpos (length heap) then
                   do x <- get heap childpos; do y <- get heap rightpos;
                   do b <- lt x y; Ok (if b then childpos else rightpos)
                 else Ok childpos);
        do x <- get heap c;
        siftup_loop f (upd heap pos x) c
      else Ok (heap, pos)
  end.
Definition siftup (heap : list A) (pos : nat) : res (list A) :=
  do newitem <- get heap pos;
  do (heap', pos') <- siftup_loop (S (length heap)) heap pos;
  siftdown (S (length heap)) (upd heap' pos' newitem) pos pos' newitem.

(** [heapify]: [for i in reversed(range(n//2)): _siftup(x, i)] *)
Fixpoint heapify_from (i : nat) (heap : list A) : res (list A) :=
  match i with
  | O => Ok heap
  | S i' => do heap' <- siftup heap i'; heapify_from i' heap'
  end.
Definition heapify (heap : list A) : res (list A) := heapify_from (length heap / 2) heap.

(** [heappop] *)
Definition heappop (heap : list A) : res (A * list A) :=
  match rev heap with
  | [] => Err IndexError
  | lastelt :: r =>
      match rev r with
      | [] => Ok (lastelt, [])
      | (returnitem :: _) as rest =>
          do heap' <- siftup (upd rest 0 lastelt) 0; Ok (returnitem, heap')
      end
  end.
(** [while heap: yield heappop(heap)] *)
Fixpoint drain (fuel : nat) (heap : list A) : gen A :=
  match fuel with
  | O => gfail OutOfFuel
  | S f =>
      match heap with
      | [] => gnil
      | _ => match heappop heap with
             | Ok (x, heap') => gcons x (drain f heap')
             | Err e => gfail e
             end
      end
  end.
(** [heapify(heap); while heap: yield heappop(heap)] *)
Definition heap_iter (items : list A) : gen A :=
  match heapify items with
  | Ok heap => drain (S (length items)) heap
  | Err e => gfail e
  end.
End Heap.
