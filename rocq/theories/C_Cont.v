(** * C35 (containers) and C36: clones and list operations of containers *)
From Verif Require Import M_Base M_Line M_Tree M_Cont S_Cont P_Cont.
Open Scope Z_scope.

(** ** C36. Over every history in which [extend], item and slice assignment are given
    items only (all other operations being given anything), with every exception caught,
    a container only holds items. [same] is any notion of equality for [remove]. *)
Theorem C36_history : forall same h l, only_items l -> Forall clean_op h -> only_items (run same l h).
Proof. exact (fun same h l => run_clean_items same h l). Qed.
Print Assumptions C36_history.
(** The same for arbitrary arguments, as long as each [extend] and assignment returned
    normally. *)
Theorem C36_history_ok : forall same h l, only_items l ->
  (forall h1 o h2, h = h1 ++ o :: h2 -> checks_first o \/ snd (step same (run same l h1) o) = Ok tt) ->
  only_items (run same l h).
Proof. exact (fun same h l => run_ok_items same h l). Qed.
Print Assumptions C36_history_ok.
(** Any operation that returns normally keeps the invariant, and [extend] and the
    assignments establish it. *)
Theorem C36_ok : forall same l o l', step same l o = (l', Ok tt) -> only_items l \/ ~ checks_first o -> only_items l'.
Proof. exact (fun same l o l' H HC => match HC with or_introl HL => step_ok_items same l o l' HL H | or_intror HN => step_checked same l o l' HN H end). Qed.
Print Assumptions C36_ok.
(** Append, insert, deletion, pop, remove, reverse and clear: any exception leaves the
    container unchanged, whatever the arguments. *)
Theorem C36_rejected : forall same l o l' e, checks_first o -> step same l o = (l', Err e) -> l' = l.
Proof. exact step_careful. Qed.
Print Assumptions C36_rejected.
(** So does any exception of [extend] and the assignments, if they are given items. *)
Theorem C36_rejected_clean : forall same l o l' e, only_items l -> clean_op o -> ends_op o ->
  step same l o = (l', Err e) -> l' = l.
Proof. exact step_clean_err. Qed.
Print Assumptions C36_rejected_clean.

(** Findings: [extend] and assignments check only after changing the list. The rejected
    operation leaves the foreign object in the container... *)
Theorem C36_extend_refuted : forall same l xs, only_items l -> ~ only_items xs ->
  exists l', step same l (OpExtend (ItGen (xs, None))) = (l', Err TypeError) /\ l' <> l /\ ~ only_items l'.
Proof. exact extend_bad_changes. Qed.
Print Assumptions C36_extend_refuted.
Theorem C36_setitem_refuted : forall same l p n, position (zlen l) p <> Err IndexError ->
  exists l', step same l (OpSetItem p (OOther n)) = (l', Err TypeError) /\ ~ only_items l'.
Proof. exact setitem_bad. Qed.
Print Assumptions C36_setitem_refuted.
Theorem C36_setslice_refuted : forall same it, exists l',
  step same [OItem it] (OpSetSlice None None None (ItGen ([OOther 7], None))) = (l', Err TypeError) /\
  l' = [OOther 7].
Proof. intros same it. eexists. split; reflexivity. Qed.
Print Assumptions C36_setslice_refuted.
(** ... and from then on every [extend], even with items or with nothing, is rejected. *)
Theorem C36_poisoned_refuted : forall same l xs, ~ only_items l ->
  step same l (OpExtend (ItGen (xs, None))) = (l ++ xs, Err TypeError).
Proof. exact poisoned. Qed.
Print Assumptions C36_poisoned_refuted.

Definition C36_line (s : list N) := OItem (ILine (mk_line s [] (py "v"))).
Definition C36_same (a b : obj) : bool := match a, b with OOther n, OOther m => N.eqb n m | OItem _, OItem _ => true | _, _ => false end.
Example C36_example :
  let a := C36_line (py "A") in let b := C36_line (py "B") in let c := C36_line (py "C") in
  let h := [OpAppend a; OpAppend (OOther 1); OpInsert (Some (-5)) b; OpExtend (ItGen ([c; a], None));
            OpSetSlice None None (Some (-2)) (ItGen ([a; b], None)); OpDel (SName (py "C"));
            OpPop (Some 9); OpSetItem (-1) c; OpReverse] in
  Forall clean_op h /\ only_items [] /\ run C36_same [] h = [c; b; b] /\
  (forall h1 o h2, h = h1 ++ o :: h2 -> checks_first o \/ snd (step C36_same (run C36_same [] h1) o) = Ok tt).
Proof.
  cbv zeta. split; [|split; [|split]].
  - repeat constructor; cbn; try (intros o Ho; cbn in Ho; intuition (subst; eexists; reflexivity)).
    eexists. reflexivity.
  - intros o [].
  - vm_compute. reflexivity.
  - intros h1 o h2 E.
    do 9 (destruct h1 as [|? h1]; [injection E; intros; subst; first [left; exact I|right; vm_compute; reflexivity]|
      injection E; clear E; intros E ?; subst]). destruct h1; discriminate.
Qed.
Example C36_example_bad : step C36_same [C36_line (py "A")] (OpExtend (ItGen ([OOther 3], None))) = ([C36_line (py "A"); OOther 3], Err TypeError)
  /\ step C36_same [C36_line (py "A")] (OpAppend (OOther 3)) = ([C36_line (py "A")], Err TypeError)
  /\ position (zlen [C36_line (py "A")]) 0 <> Err IndexError.
Proof. repeat split; vm_compute; congruence. Qed.

(** ** C35 (containers). A clone, deep or not, has the same content. *)
Theorem C35_container_equal : forall deep n i d name items, upper name = name -> upper_names items ->
  content (clone_container deep n name items) = content (LCont i d name items).
Proof. exact clone_equal. Qed.
Print Assumptions C35_container_equal.
(** A deep clone shares no mutable part with the original exactly if no sub-container
    has any content; [n] is a counter of identities not used so far. *)
Theorem C35_container_disjoint_iff : forall n i d name items, fresh n (LCont i d name items) -> upper_names items ->
  (disjoint (clone_container true n name items) (LCont i d name items) <-> Forall flat items).
Proof. exact clone_disjoint_iff. Qed.
Print Assumptions C35_container_disjoint_iff.
(** Finding: everything inside a sub-container is shared by a deep clone. *)
Theorem C35_container_shared_refuted : forall n i d name items it x, In it items ->
  (exists i' d' m', it = LCont i' d' m' x) -> forall y, In y x -> forall a, In a (parts y) ->
  In a (parts (clone_container true n name items)) /\ In a (parts (LCont i d name items)).
Proof. exact clone_shares. Qed.
Print Assumptions C35_container_shared_refuted.

Definition C35_line (i : N) := LLine i (i + 1) (py "SUMMARY") [(py "LANGUAGE", ((i + 2)%N, [PRaw (py "en")]))] (py "Hi").
Example C35_example :
  let cal := [C35_line 2; LCont 5 6 (py "VEVENT") [C35_line 7]] in
  fresh 10 (LCont 0 1 (py "VCALENDAR") cal) /\ upper_names cal /\ ~ Forall flat cal /\ Forall flat [C35_line 2] /\
  parts (clone_container true 10 (py "VCALENDAR") cal) = [10; 11; 12; 13; 14; 15; 16; 7; 8; 9]%N.
Proof.
  cbv zeta. split; [|split; [|split; [|split]]].
  - intros a Ha. cbn in Ha. repeat (destruct Ha as [<-|Ha]; [reflexivity|]). destruct Ha.
  - intros it [<-|[<-|[]]]; reflexivity.
  - intros H. inversion_clear H as [|? ? _ H']. inversion_clear H' as [|? ? H'' _]. cbn in H''. discriminate.
  - repeat constructor.
  - vm_compute. reflexivity.
Qed.
