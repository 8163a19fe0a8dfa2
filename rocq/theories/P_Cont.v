(** * Proofs for list operations and clones of containers *)
From Verif Require Import M_Base P_Base M_Line M_Tree M_Cont S_Cont.
From Coq Require Import Lia ZifyBool ZifyNat ZifyN.
Ltac Zify.zify_post_hook ::= Z.div_mod_to_equations.
Open Scope Z_scope.

Lemma only_items_iff l : only_items l <-> forallb is_item l = true.
Proof.
  rewrite forallb_forall. split.
  - intros H o Ho. destruct (H o Ho) as [it ->]. reflexivity.
  - intros H o Ho. specialize (H o Ho). destruct o; [eauto|discriminate].
Qed.
Lemma only_items_app a b : only_items (a ++ b) <-> only_items a /\ only_items b.
Proof.
  unfold only_items. split.
  - intros H. split; intros o Ho; apply H; apply in_or_app; tauto.
  - intros [H1 H2] o Ho. apply in_app_or in Ho. destruct Ho; auto.
Qed.
Lemma only_items_incl a b : incl a b -> only_items b -> only_items a.
Proof. intros H H' o Ho. apply H', H, Ho. Qed.
Lemma check_items_ok l : check_items l = Ok tt <-> only_items l.
Proof. unfold check_items. rewrite only_items_iff. destruct (forallb is_item l); split; congruence. Qed.
Lemma check_items_err l e : check_items l = Err e -> e = TypeError.
Proof. unfold check_items. destruct (forallb is_item l); congruence. Qed.

Lemma incl_del {A} (l : list A) : forall i ps, incl (del_positions i ps l) l.
Proof.
  induction l as [|x l IH]; intros i ps; [easy|]. cbn [del_positions].
  destruct (existsb _ ps).
  - intros y Hy. right. exact (IH _ _ y Hy).
  - intros y [<-|Hy]; [now left|]. right. exact (IH _ _ y Hy).
Qed.
Lemma in_set_nth {A} (l : list A) : forall i x y, In y (set_nth i x l) -> y = x \/ In y l.
Proof.
  induction l as [|z l IH]; intros i x y Hy; [destruct i; easy|].
  destruct i; cbn in Hy.
  - destruct Hy as [<-|Hy]; [now left|]. right. now right.
  - destruct Hy as [<-|Hy]; [right; now left|]. destruct (IH _ _ _ Hy); [now left|]. right. now right.
Qed.
Lemma in_set_positions {A} : forall (ps : list nat) (xs l : list A) y,
  In y (set_positions ps xs l) -> In y xs \/ In y l.
Proof.
  unfold set_positions. induction ps as [|p ps IH]; intros xs l y Hy; [now right|].
  destruct xs as [|x xs]; [now right|]. cbn [combine fold_left] in Hy.
  destruct (IH _ _ _ Hy) as [H|H]; [left; now right|].
  cbn [fst snd] in H. apply in_set_nth in H. destruct H as [->|H]; [left; now left|now right].
Qed.
Lemma incl_firstn {A} n (l : list A) : incl (firstn n l) l.
Proof. intros y Hy. rewrite <- (firstn_skipn n l). apply in_or_app. now left. Qed.
Lemma incl_skipn {A} n (l : list A) : incl (skipn n l) l.
Proof. intros y Hy. rewrite <- (firstn_skipn n l). apply in_or_app. now right. Qed.
Lemma incl_remove_first same o : forall l l', remove_first same o l = Some l' -> incl l' l.
Proof.
  induction l as [|x l IH]; intros l' H; [discriminate|]. cbn in H.
  destruct (same x o).
  - injection H as <-. intros y Hy. now right.
  - destruct (remove_first same o l) as [r|] eqn:R; [|discriminate]. injection H as <-.
    intros y [<-|Hy]; [now left|]. right. exact (IH r eq_refl y Hy).
Qed.
Lemma incl_without_name n : forall l l', without_name n l = Ok l' -> incl l' l.
Proof.
  induction l as [|x l IH]; intros l' H; cbn in H; [injection H as <-; easy|].
  destruct (obj_name x); [|discriminate]. cbn in H.
  destruct (without_name n l) as [r|]; [|discriminate]. cbn in H. injection H as <-.
  specialize (IH r eq_refl).
  destruct (str_eqb a n); intros y Hy; [right; auto|].
  destruct Hy as [<-|Hy]; [now left|right; auto].
Qed.

Lemma validated_ok r l : validated r = (l, Ok tt) -> only_items l.
Proof.
  destruct r as [l' [[]|e]]; cbn; intros H; [|discriminate].
  injection H as <- H. now apply check_items_ok.
Qed.
Lemma set_slice_shape l a b c v l' r : set_slice l a b c v = (l', r) ->
  (r = Ok tt /\ exists xs, v = ItGen (xs, None) /\ (forall y, In y l' -> In y xs \/ In y l)) \/
  (l' = l /\ r <> Ok tt).
Proof.
  unfold set_slice. destruct (slice_parts (zlen l) a b c) as [[[st sp] ct]|e].
  2:{ intros [= <- <-]. now right. }
  destruct v as [[xs [e|]]|]; [intros [= <- <-]; now right| |intros [= <- <-]; now right].
  destruct (sp =? 1).
  - intros [= <- <-]. left. split; [easy|]. exists xs. split; [easy|].
    intros y Hy. apply in_app_or in Hy. destruct Hy as [Hy|Hy]; [right; exact (incl_firstn _ _ y Hy)|].
    apply in_app_or in Hy. destruct Hy as [Hy|Hy]; [now left|]. right. exact (incl_skipn _ _ y Hy).
  - destruct (zlen xs =? ct).
    + intros [= <- <-]. left. split; [easy|]. exists xs. split; [easy|]. apply in_set_positions.
    + intros [= <- <-]. now right.
Qed.

Lemma in_insert_at i o l y : In y (insert_at i o l) -> y = o \/ In y l.
Proof.
  unfold insert_at. cbv zeta. set (j := Z.to_nat _). intros Hy. apply in_app_or in Hy.
  destruct Hy as [Hy|[<-|Hy]]; [right; exact (incl_firstn _ _ y Hy)|now left|right; exact (incl_skipn _ _ y Hy)].
Qed.

Section Ops.
Variable same : obj -> obj -> bool.

(** An operation that returns normally leaves only items. *)
Lemma step_ok_items l o l' : only_items l -> step same l o = (l', Ok tt) -> only_items l'.
Proof.
  intros HL. destruct o as [x|i x|v|i x|a b c v| |s|i|x| |]; cbn [step].
  - unfold check_items. cbn [forallb]. destruct (is_item x) eqn:X; cbn; [|discriminate].
    intros [= <-]. apply only_items_app. split; [easy|]. apply only_items_iff. cbn. now rewrite X.
  - unfold check_items. cbn [forallb]. destruct (is_item x) eqn:X; cbn; [|discriminate].
    destruct i as [i|]; [|discriminate]. intros [= <-] y Hy. apply in_insert_at in Hy.
    destruct Hy as [->|Hy]; [destruct x; [eauto|discriminate]|]. auto.
  - destruct v as [[xs [e|]]|]; try discriminate. intros H. now apply validated_ok in H.
  - destruct (position (zlen l) i); [|discriminate]. intros H. now apply validated_ok in H.
  - intros H. now apply validated_ok in H.
  - discriminate.
  - destruct s as [i|a b c|n|].
    + destruct (position (zlen l) i); [|discriminate]. intros [= <-]. exact (only_items_incl _ _ (incl_del _ _ _) HL).
    + destruct (slice_parts (zlen l) a b c) as [[[p q] r]|]; [|discriminate].
      intros [= <-]. exact (only_items_incl _ _ (incl_del _ _ _) HL).
    + destruct (without_name n l) as [r|] eqn:E; [|discriminate].
      intros [= <-]. exact (only_items_incl _ _ (incl_without_name _ _ _ E) HL).
    + discriminate.
  - destruct i as [i|]; [|discriminate]. destruct (position (zlen l) i); [|discriminate].
    intros [= <-]. exact (only_items_incl _ _ (incl_del _ _ _) HL).
  - destruct (remove_first same x l) as [r|] eqn:E; [|discriminate].
    intros [= <-]. exact (only_items_incl _ _ (incl_remove_first _ _ _ _ E) HL).
  - intros [= <-] y Hy. apply HL. now apply in_rev.
  - intros [= <-] y [].
Qed.
(** [extend] and assignments that return normally even do so from any list. *)
Lemma step_checked l o l' : ~ checks_first o -> step same l o = (l', Ok tt) -> only_items l'.
Proof.
  destruct o as [x|i x|v|i x|a b c v| |s|i|x| |]; cbn [step checks_first]; try easy; intros _.
  - destruct v as [[xs [e|]]|]; try discriminate. intros H. now apply validated_ok in H.
  - destruct (position (zlen l) i); [|discriminate]. intros H. now apply validated_ok in H.
  - intros H. now apply validated_ok in H.
Qed.

(** A careful operation that fails changes nothing. *)
Lemma step_careful l o l' e : checks_first o -> step same l o = (l', Err e) -> l' = l.
Proof.
  destruct o as [x|i x|v|i x|a b c v| |s|i|x| |]; cbn [step checks_first]; try easy; intros _ H.
  - destruct (check_items [x]); congruence.
  - destruct (check_items [x]); [destruct i; congruence|congruence].
  - congruence.
  - destruct s as [i|a b c|n|]; try congruence.
    + destruct (position (zlen l) i); congruence.
    + destruct (slice_parts (zlen l) a b c) as [[[p q] r]|]; congruence.
    + destruct (without_name n l); congruence.
  - destruct i as [i|]; [|congruence]. destruct (position (zlen l) i); congruence.
  - destruct (remove_first same x l); congruence.
Qed.

Lemma set_nth_items i x l : (exists it, x = OItem it) -> only_items l -> only_items (set_nth i x l).
Proof. intros HX HL y Hy. apply in_set_nth in Hy. destruct Hy as [->|Hy]; auto. Qed.

(** With items as arguments, any operation that fails changes nothing. *)
Lemma step_clean_err l o l' e : only_items l -> clean_op o -> ends_op o ->
  step same l o = (l', Err e) -> l' = l.
Proof.
  intros HL HC HE H.
  destruct o as [x|i x|v|i x|a b c v| |s|i|x| |];
    try (eapply step_careful; [|exact H]; exact I); cbn [step clean_op ends_op] in *.
  - destruct v as [[xs [e'|]]|]; [destruct HE| |congruence].
    cbn [validated] in H. assert (HA : check_items (l ++ xs) = Ok tt) by (apply check_items_ok, only_items_app; now split).
    rewrite HA in H. congruence.
  - destruct (position (zlen l) i) as [p|]; [|congruence]. cbn [validated] in H.
    assert (HA : check_items (set_nth p x l) = Ok tt) by (now apply check_items_ok, set_nth_items).
    rewrite HA in H. congruence.
  - destruct (set_slice l a b c v) as [l1 r1] eqn:E.
    destruct (set_slice_shape _ _ _ _ _ _ _ E) as [(-> & xs & -> & HI)|[-> HN]].
    + cbn [validated] in H.
      assert (HA : check_items l1 = Ok tt).
      { apply check_items_ok. intros y Hy. destruct (HI y Hy) as [Hy'|Hy']; [exact (HC y Hy')|exact (HL y Hy')]. }
      rewrite HA in H. congruence.
    + destruct r1 as [[]|e1]; [easy|]. cbn [validated] in H. congruence.
Qed.
(** ... and the list holds only items afterwards, whatever happens. *)
Lemma step_clean_items l o : only_items l -> clean_op o -> only_items (fst (step same l o)).
Proof.
  intros HL HC. destruct (step same l o) as [l' [[]|e]] eqn:E; cbn [fst].
  - exact (step_ok_items _ _ _ HL E).
  - destruct o as [x|i x|v|i x|a b c v| |s|i|x| |];
      try (assert (HX : l' = l) by (eapply step_careful; [|exact E]; exact I); rewrite HX; exact HL).
    2,3: assert (HX : l' = l) by (eapply step_clean_err; [exact HL|exact HC| |exact E]; exact I); rewrite HX; exact HL.
    destruct v as [[xs [e'|]]|].
    + cbn [step] in E. injection E as <- _. apply only_items_app. now split.
    + assert (HX : l' = l) by (eapply step_clean_err; [exact HL|exact HC| |exact E]; exact I). rewrite HX. exact HL.
    + cbn [step] in E. now injection E as <- _.
Qed.
Lemma run_clean_items h : forall l, only_items l -> Forall clean_op h -> only_items (run same l h).
Proof.
  induction h as [|o h IH]; intros l HL HH; [exact HL|]. inversion_clear HH as [|? ? H1 H2].
  cbn [run fold_left]. apply IH; [|exact H2]. now apply step_clean_items.
Qed.

(** A history in which nothing that changes the list before checking it failed. *)
Lemma run_ok_items : forall h l, only_items l ->
  (forall h1 o h2, h = h1 ++ o :: h2 -> checks_first o \/ snd (step same (run same l h1) o) = Ok tt) ->
  only_items (run same l h).
Proof.
  induction h as [|o h IH]; intros l HL HH; [exact HL|].
  change (only_items (run same (fst (step same l o)) h)). apply IH.
  - specialize (HH [] o h eq_refl). cbn [run fold_left] in HH.
    destruct (step same l o) as [l' [[]|e]] eqn:E; cbn [fst snd] in *.
    + exact (step_ok_items _ _ _ HL E).
    + destruct HH as [HH|HH]; [|discriminate]. rewrite (step_careful _ _ _ _ HH E). exact HL.
  - intros h1 o' h2 ->. exact (HH (o :: h1) o' h2 eq_refl).
Qed.

(** Once something else is inside, every [extend] is rejected and still grows the list. *)
Lemma poisoned l xs : ~ only_items l -> step same l (OpExtend (ItGen (xs, None))) = (l ++ xs, Err TypeError).
Proof.
  intros H. cbn [step validated]. destruct (check_items (l ++ xs)) as [[]|e] eqn:E.
  - apply check_items_ok, only_items_app in E. tauto.
  - now rewrite (check_items_err _ _ E).
Qed.
Lemma extend_bad l xs : only_items l -> ~ only_items xs ->
  step same l (OpExtend (ItGen (xs, None))) = (l ++ xs, Err TypeError).
Proof.
  intros H HX. cbn [step validated]. destruct (check_items (l ++ xs)) as [[]|e] eqn:E.
  - apply check_items_ok, only_items_app in E. tauto.
  - now rewrite (check_items_err _ _ E).
Qed.
Lemma extend_bad_changes l xs : only_items l -> ~ only_items xs ->
  exists l', step same l (OpExtend (ItGen (xs, None))) = (l', Err TypeError) /\ l' <> l /\ ~ only_items l'.
Proof.
  intros HL HX. exists (l ++ xs). split; [now apply extend_bad|]. split.
  - intros E. apply HX. rewrite <- (app_nil_r l) in E at 2. apply app_inv_head in E. rewrite E. intros o [].
  - intros HO. apply only_items_app in HO. tauto.
Qed.
Lemma set_nth_in {A} (x : A) : forall l i, (i < length l)%nat -> In x (set_nth i x l).
Proof.
  induction l as [|y l IH]; intros i H; [cbn in H; lia|]. destruct i; cbn; [now left|].
  right. apply IH. cbn in H. lia.
Qed.
Lemma setitem_bad l p n : position (zlen l) p <> Err IndexError ->
  exists l', step same l (OpSetItem p (OOther n)) = (l', Err TypeError) /\ ~ only_items l'.
Proof.
  intros H. cbn [step]. destruct (position (zlen l) p) as [k|e] eqn:E.
  2:{ unfold position in E. destruct (_ && _) in E; congruence. }
  assert (HI : In (OOther n) (set_nth k (OOther n) l)).
  { apply set_nth_in. unfold position, zlen in *. cbv zeta in E.
    destruct (_ && _) eqn:C in E; [|discriminate]. injection E as <-. lia. }
  exists (set_nth k (OOther n) l). cbn [validated].
  assert (HN : ~ only_items (set_nth k (OOther n) l)) by (intros HO; destruct (HO _ HI); discriminate).
  split; [|exact HN]. destruct (check_items _) as [[]|e] eqn:C.
  - apply check_items_ok in C. tauto.
  - now rewrite (check_items_err _ _ C).
Qed.
End Ops.

(** ** Clones *)
Open Scope N_scope.

Lemma upper_idem s : upper (upper s) = upper s.
Proof. unfold upper. rewrite map_map. apply map_ext. intros c. unfold upper_char. destruct ((97 <=? c) && (c <=? 122)) eqn:E; [|now rewrite E]. destruct ((97 <=? c - 32) && (c - 32 <=? 122)) eqn:E2; lia. Qed.

Lemma copy_params_spec ps : forall n ps' m, copy_params n ps = (ps', m) ->
  map (fun kv => (fst kv, snd (snd kv))) ps' = map (fun kv => (fst kv, snd (snd kv))) ps /\
  n <= m /\ (forall a, In a (map (fun kv => fst (snd kv)) ps') -> n <= a < m).
Proof.
  induction ps as [|[k [a vs]] ps IH]; intros n ps' m H; cbn in H.
  - injection H as <- <-. split; [easy|]. split; [lia|easy].
  - destruct (copy_params (n + 1) ps) as [r q] eqn:E. injection H as <- <-.
    destruct (IH _ _ _ E) as (H1 & H2 & H3). cbn. rewrite H1. split; [easy|]. split; [lia|].
    intros b [<-|Hb]; [lia|]. specialize (H3 b Hb). lia.
Qed.

Definition upper_names (l : list litem) : Prop := forall it, In it l -> upper (lname it) = lname it.

Lemma clone_item_spec it n it' m : clone_item n it = (it', m) -> upper (lname it) = lname it ->
  content it' = content it /\ n <= m /\
  (flat it -> forall a, In a (parts it') -> n <= a < m) /\
  (forall a, In a (parts it') -> n <= a < m \/ In a (parts it)).
Proof.
  destruct it as [i d nm ps v|i d nm l]; cbn [clone_item lname]; intros H HU.
  - destruct (copy_params (n + 2) ps) as [ps' k] eqn:E. injection H as <- <-.
    destruct (copy_params_spec _ _ _ _ E) as (H1 & H2 & H3). cbn [content parts]. rewrite H1, HU.
    split; [easy|]. split; [lia|].
    assert (HP : forall a, In a (n :: n + 1 :: map (fun kv => fst (snd kv)) ps') -> n <= a < k).
    { intros a [<-|[<-|Ha]]; [lia|lia|]. specialize (H3 a Ha). lia. }
    split; [intros _; exact HP|]. intros a Ha. left. auto.
  - injection H as <- <-. cbn [content parts flat]. rewrite HU. split; [easy|]. split; [lia|]. split.
    + intros -> a [<-|[<-|[]]]; lia.
    + intros a [<-|[<-|Ha]]; [left; lia|left; lia|]. right. right. now right.
Qed.
Lemma clone_items_spec l : forall n l' m, clone_items n l = (l', m) -> upper_names l ->
  map content l' = map content l /\ n <= m /\
  (Forall flat l -> forall a, In a (flat_map parts l') -> n <= a < m) /\
  (forall a, In a (flat_map parts l') -> n <= a < m \/ In a (flat_map parts l)).
Proof.
  induction l as [|it l IH]; intros n l' m H HU; cbn in H.
  - injection H as <- <-. cbn. split; [easy|]. split; [lia|]. split; [intros _ a []|intros a []].
  - destruct (clone_item n it) as [it' k] eqn:E1. destruct (clone_items k l) as [r q] eqn:E2.
    injection H as <- <-.
    destruct (clone_item_spec _ _ _ _ E1 (HU it (or_introl eq_refl))) as (A1 & A2 & A3 & A4).
    destruct (IH _ _ _ E2 (fun x Hx => HU x (or_intror Hx))) as (B1 & B2 & B3 & B4).
    cbn. rewrite A1, B1. split; [easy|]. split; [lia|]. split.
    + intros HF. inversion_clear HF as [|? ? F1 F2]. intros a Ha. apply in_app_or in Ha.
      destruct Ha as [Ha|Ha]; [specialize (A3 F1 a Ha)|specialize (B3 F2 a Ha)]; lia.
    + intros a Ha. apply in_app_or in Ha. destruct Ha as [Ha|Ha].
      * destruct (A4 a Ha); [left; lia|]. right. apply in_or_app. now left.
      * destruct (B4 a Ha); [left; lia|]. right. apply in_or_app. now right.
Qed.

Definition fresh (n : N) (it : litem) : Prop := forall a, In a (parts it) -> a < n.

Lemma clone_equal deep n i d name items : upper name = name -> upper_names items ->
  content (clone_container deep n name items) = content (LCont i d name items).
Proof.
  intros HN HU. unfold clone_container. cbn [content]. rewrite HN. f_equal.
  destruct deep; [|easy]. destruct (clone_items (n + 2) items) as [l' m] eqn:E.
  exact (proj1 (clone_items_spec _ _ _ _ E HU)).
Qed.
Lemma clone_flat n i d name items : fresh n (LCont i d name items) -> upper_names items ->
  Forall flat items -> disjoint (clone_container true n name items) (LCont i d name items).
Proof.
  intros HF HU HL p Hp Hq. unfold fresh in HF. specialize (HF p Hq).
  unfold clone_container in Hp. destruct (clone_items (n + 2) items) as [l' m] eqn:E.
  destruct (clone_items_spec _ _ _ _ E HU) as (_ & _ & H3 & _). cbn [parts fst] in Hp.
  destruct Hp as [<-|[<-|Hp]]; [lia|lia|]. specialize (H3 HL p Hp). lia.
Qed.
Lemma parts_nonempty it : exists a, In a (parts it).
Proof. destruct it; eexists; left; reflexivity. Qed.
Lemma clone_items_shares l : forall n it a, In it l -> ~ flat it ->
  In a (flat_map parts (match it with LCont _ _ _ k => k | _ => [] end)) ->
  In a (flat_map parts (fst (clone_items n l))).
Proof.
  induction l as [|x l IH]; intros n it a HI HF HA; [easy|]. cbn.
  destruct (clone_item n x) as [x' k] eqn:E1. destruct (clone_items k l) as [r q] eqn:E2. cbn.
  apply in_or_app. destruct HI as [->|HI].
  - left. destruct it as [? ? ? ? ?|? ? ? items]; [exfalso; now apply HF|].
    cbn in E1. injection E1 as <- _. cbn. now right; right.
  - right. specialize (IH k it a HI HF HA). now rewrite E2 in IH.
Qed.
Lemma clone_shares n i d name items it x : In it items ->
  (exists i' d' m', it = LCont i' d' m' x) -> forall y, In y x -> forall a, In a (parts y) ->
  In a (parts (clone_container true n name items)) /\ In a (parts (LCont i d name items)).
Proof.
  intros HI (i' & d' & m' & ->) y Hy a Ha.
  assert (HX : In a (flat_map parts x)) by (apply in_flat_map; eauto). split.
  - unfold clone_container. cbn. right. right.
    apply (clone_items_shares items (n + 2) (LCont i' d' m' x) a HI); [|exact HX].
    cbn. intros ->. destruct Hy.
  - cbn. right. right. apply in_flat_map. exists (LCont i' d' m' x). split; [easy|]. cbn. now right; right.
Qed.
Lemma clone_disjoint_iff n i d name items : fresh n (LCont i d name items) -> upper_names items ->
  (disjoint (clone_container true n name items) (LCont i d name items) <-> Forall flat items).
Proof.
  intros HF HU. split; [|now apply clone_flat]. intros HD. apply Forall_forall. intros it HI.
  destruct it as [? ? ? ? ?|i' d' m' x]; [exact I|]. cbn. destruct x as [|y x]; [easy|]. exfalso.
  destruct (parts_nonempty y) as [a Ha].
  destruct (clone_shares n i d name items _ (y :: x) HI (ex_intro _ i' (ex_intro _ d' (ex_intro _ m' eq_refl))) y (or_introl eq_refl) a Ha) as [H1 H2].
  exact (HD a H1 H2).
Qed.
