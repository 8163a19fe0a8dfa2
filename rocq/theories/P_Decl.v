(** * Proofs: converters found from declarations *)
From Verif Require Import M_Base M_Line M_Cal M_Time M_Span M_Dt M_Tree M_Comp M_Rrule M_Zone M_Vtz M_Decl S_Decl P_Base.
From Coq Require Import Lia ZifyBool ZifyNat ZifyN Permutation Sorted.
Open Scope N_scope.

(** ** Registrations *)
Definition reg_step (t : pyclass) (o : option anyconv) (r : registration) : option anyconv :=
  match r with
  | RDefault t' c => if pyclass_beq t t' then match o with Some _ => o | None => Some c end else o
  | RAssign t' c => if pyclass_beq t t' then Some c else o
  end.
Lemma beq_eq t t' : pyclass_beq t t' = true <-> t = t'.
Proof. split; [apply internal_pyclass_dec_bl|apply internal_pyclass_dec_lb]. Qed.
Lemma beq_refl t : pyclass_beq t t = true. Proof. now apply beq_eq. Qed.
Lemma registered_fold rs t : registered rs t = fold_left (reg_step t) rs None. Proof. reflexivity. Qed.
Lemma registered_snoc rs r t : registered (rs ++ [r]) t = reg_step t (registered rs t) r.
Proof. rewrite !registered_fold, fold_left_app. reflexivity. Qed.
Lemma reg_none rs t : registered rs t = None -> Forall (fun r => ~ about t r) rs.
Proof.
  induction rs as [|r rs IH] using rev_ind; [constructor|]. rewrite registered_snoc. intro H. apply Forall_app.
  unfold reg_step in H. destruct r as [t' c|t' c]; destruct (pyclass_beq t t') eqn:E.
  - destruct (registered rs t); discriminate.
  - split; [now apply IH|]. constructor; [|constructor]. cbn. intros ->. rewrite beq_refl in E. discriminate.
  - discriminate.
  - split; [now apply IH|]. constructor; [|constructor]. cbn. intros ->. rewrite beq_refl in E. discriminate.
Qed.
Lemma none_reg rs t : Forall (fun r => ~ about t r) rs -> registered rs t = None.
Proof.
  induction rs as [|r rs IH] using rev_ind; [reflexivity|]. intro F. apply Forall_app in F as [F1 F2]. inversion F2 as [|? ? A _]; subst.
  rewrite registered_snoc, (IH F1). unfold reg_step. destruct r as [t' c|t' c]; destruct (pyclass_beq t t') eqn:E; auto; apply beq_eq in E; cbn in A; easy.
Qed.
Lemma keeps_assign rs t c b : fold_left (reg_step t) rs None = Some c -> Forall (fun r => ~ assigns t r) b -> fold_left (reg_step t) b (Some c) = Some c.
Proof.
  intros _ F. induction F as [|r b A F IH]; [reflexivity|]. cbn. unfold reg_step at 2. destruct r as [t' d|t' d].
  - destruct (pyclass_beq t t'); exact IH.
  - destruct (pyclass_beq t t') eqn:E; [|exact IH]. apply beq_eq in E. subst. exfalso. apply A. now exists d.
Qed.
Lemma snoc_winner rs r t c : ~ assigns t r -> winner rs t c -> winner (rs ++ [r]) t c.
Proof.
  intros A [a b -> F|a b -> F1 F2].
  - apply W_assigned with a (b ++ [r]); [rewrite <- app_assoc; reflexivity|]. apply Forall_app. split; [easy|]. now constructor.
  - apply W_default with a (b ++ [r]); [rewrite <- app_assoc; reflexivity|easy|]. apply Forall_app. split; [easy|]. now constructor.
Qed.
Theorem registered_iff rs t c : registered rs t = Some c <-> winner rs t c.
Proof.
  split.
  - revert c. induction rs as [|r rs IH] using rev_ind; intros c H; [discriminate|]. rewrite registered_snoc in H. unfold reg_step in H.
    destruct r as [t' d|t' d]; destruct (pyclass_beq t t') eqn:E.
    + apply beq_eq in E. subst t'. destruct (registered rs t) as [d'|] eqn:R.
      * injection H as ->. apply snoc_winner; [intros [x [=]]|]. now apply IH.
      * injection H as ->. apply W_default with rs []; [reflexivity|now apply reg_none|constructor].
    + apply snoc_winner; [intros [x [=]]|]. now apply IH.
    + apply beq_eq in E. subst t'. injection H as ->. apply W_assigned with rs []; [reflexivity|constructor].
    + apply snoc_winner; [|now apply IH]. intros [x [= -> _]]. rewrite beq_refl in E. discriminate.
  - intros [a b -> F|a b -> F1 F2]; rewrite registered_fold, fold_left_app; cbn [fold_left].
    + unfold reg_step at 2. rewrite beq_refl. apply (keeps_assign [RAssign t c]); [|easy]. cbn. now rewrite beq_refl.
    + change (fold_left (reg_step t) a None) with (registered a t). rewrite (none_reg a t F1). unfold reg_step at 2. rewrite beq_refl.
      apply (keeps_assign [RAssign t c]); [|easy]. cbn. now rewrite beq_refl.
Qed.
Theorem unregistered_iff rs t : registered rs t = None <-> Forall (fun r => ~ about t r) rs.
Proof. split; [apply reg_none|apply none_reg]. Qed.

(** ** Types *)
Lemma members_filter l cs : members_of l cs -> filter not_none l = map TyClass cs.
Proof. induction 1; cbn; [easy|easy|now rewrite IHmembers_of]. Qed.
Lemma unwrap_source t m cs : source_type t m cs -> unwrap_type t = Ok (m, map TyClass cs) /\ cs <> [].
Proof.
  induction 1 as [c A B|l cs MO NE|t cs S IH]; cbn [unwrap_type].
  - destruct c; try easy.
  - rewrite (members_filter l cs MO). destruct cs as [|c cs]; [easy|]. cbn [map]. split; [reflexivity|discriminate].
  - destruct IH as [-> NE]. cbn [bind]. easy.
Qed.
Lemma unwrap_nested t m l : unwrap_type t = Ok (m, l) -> unwrap_type (TyList t) = if m then Err AssertionError else Ok (true, l).
Proof. intro H. cbn [unwrap_type]. rewrite H. reflexivity. Qed.

(** ** Names *)
Lemma name_chars s n : property_name s n -> dashes (upper s) = n.
Proof.
  unfold property_name, dashes, upper. induction 1 as [|a b s n H F IH]; [reflexivity|]. cbn [map]. f_equal; [|exact IH].
  unfold upper_char. destruct H as [[H ->]|[-> ->]]; [|reflexivity].
  destruct (97 <=? a) eqn:E1; destruct (a <=? 122) eqn:E2; try lia. cbn [andb]. destruct (N.eqb (a - 32) 95) eqn:E3; [lia|reflexivity].
Qed.
Lemma lstrip_id s : (forall s', s <> 45 :: s') -> lstrip_dash s = s.
Proof. destruct s as [|c s]; [reflexivity|]. cbn. intro H. destruct (N.eqb c 45) eqn:E; [|reflexivity]. apply N.eqb_eq in E. subst. now contradiction (H s). Qed.
Lemma strip_id s : (forall s', s <> 45 :: s') -> (forall s', s <> s' ++ [45]) -> strip_dash s = s.
Proof.
  intros A B. unfold strip_dash. rewrite (lstrip_id s A), lstrip_id; [apply rev_involutive|]. intros s' H. apply (B (rev s')).
  rewrite <- (rev_involutive s), H. reflexivity.
Qed.
Lemma name_derived s n : property_name s n -> inner_underscores s -> strip_dash (dashes (upper s)) = n.
Proof.
  intros P [A B]. rewrite (name_chars s n P). apply strip_id.
  - intros n' ->. inversion P as [|a b s0 l H F]; subst. apply (A s0). destruct H as [[H E]|[-> _]]; [lia|reflexivity].
  - intros n' ->. apply Forall2_app_inv_r in P as (l1 & l2 & _ & F & ->). inversion F as [|a b s0 l H F' E1]; subst. inversion F'; subst.
    apply (B l1). destruct H as [[H E]|[-> _]]; [lia|reflexivity].
Qed.

(** ** Converters of attributes *)
Lemma values_found cs vs : Forall2 (fun c v => value_converter c = Some v) cs vs -> value_converters (map TyClass cs) = Ok vs.
Proof. induction 1 as [|c v cs vs H F IH]; [reflexivity|]. cbn [map value_converters]. now rewrite H, IH. Qed.
Lemma values_unknown cs : (exists c, In c cs /\ value_converter c = None) -> value_converters (map TyClass cs) = Err ValueError.
Proof.
  induction cs as [|c cs IH]; intros (d & I & H); [destruct I|]. cbn [map value_converters]. destruct (value_converter c) as [v|] eqn:E; [|reflexivity].
  destruct I as [->|I]; [congruence|]. rewrite IH; [reflexivity|]. now exists d.
Qed.
Lemma taking d : taking_part d -> match d_ignore d with Some b => b | None => negb (d_init d) end = false.
Proof. intros [->|[-> ->]]; reflexivity. Qed.
Lemma not_special cs : ~ special cs -> cs <> [] ->
  match map TyClass cs with
  | [TyClass c] => match component_converter c with Some k => Some k | None => attribute_converter c end
  | _ => None
  end = None.
Proof.
  intros N NE. destruct cs as [|c [|c2 cs]]; [easy| |reflexivity]. cbn [map].
  assert (H : forall d, In d [PTimespan; PEventTimespan; PTodoTimespan; Prruleset; PBaseAlarm; PEvent; PTodo; PTimezone; PTimezoneObservance] -> c <> d).
  { intros d I ->. apply N. now exists d. }
  destruct c; try reflexivity; exfalso; (eapply H; [|reflexivity]; cbn; tauto).
Qed.
Lemma required_iff d : is_required d = true <-> required_attribute d.
Proof.
  unfold is_required, required_attribute. destruct (d_required d) as [b|]; [|destruct (d_init d), (d_default d); cbn]; intuition congruence.
Qed.
Theorem value_found d m cs vs name : taking_part d -> source_type (d_type d) m cs -> ~ special cs ->
  Forall2 (fun c v => value_converter c = Some v) cs vs ->
  (d_ics_name d = Some name /\ name <> [] \/ d_ics_name d = None /\ property_name (d_name d) name /\ inner_underscores (d_name d)) ->
  exists r, get_converter_for d = Ok (Some (mk_dconv (d_name d) [name] (match d_priority d with Some p => p | None => 0%Z end) (DValue vs m r (d_set d)))) /\
    (r = true <-> required_attribute d).
Proof.
  intros T S N F NM. exists (is_required d). split; [|apply required_iff]. unfold get_converter_for. rewrite (taking d T).
  destruct (unwrap_source _ _ _ S) as [-> NE]. cbn [bind]. rewrite (not_special cs N NE), (values_found cs vs F). cbn [bind].
  assert (E : ics_name d = name).
  { unfold ics_name. destruct NM as [[-> NN]|(-> & P & I)]; [destruct name; easy|]. now apply name_derived. }
  rewrite E. reflexivity.
Qed.
Theorem special_found d m cs : taking_part d -> source_type (d_type d) m cs -> special cs ->
  exists c k names p, cs = [c] /\ In (c, k, names, p) SPECIAL /\
    get_converter_for d = Ok (Some (mk_dconv (d_name d) names (match d_priority d with Some q => q | None => p end) k)).
Proof.
  intros T S (c & -> & I). unfold get_converter_for. rewrite (taking d T). destruct (unwrap_source _ _ _ S) as [-> NE]. cbn [bind map].
  assert (H : exists k names p, match component_converter c with Some k => Some k | None => attribute_converter c end = Some (k, names, p) /\ In (c, k, names, p) SPECIAL).
  { unfold SPECIAL, SPANS. cbn [In] in I. repeat (destruct I as [<-|I]; [cbn [component_converter attribute_converter]; do 3 eexists; split; [reflexivity|cbn [In]; tauto]|]). destruct I. }
  destruct H as (k & names & p & -> & IS). exists c, k, names, p. split; [reflexivity|]. split; [exact IS|]. reflexivity.
Qed.
Theorem unknown_class d m cs : taking_part d -> source_type (d_type d) m cs -> ~ special cs ->
  (exists c, In c cs /\ value_converter c = None) -> get_converter_for d = Err ValueError.
Proof.
  intros T S N U. unfold get_converter_for. rewrite (taking d T). destruct (unwrap_source _ _ _ S) as [-> NE]. cbn [bind].
  now rewrite (not_special cs N NE), (values_unknown cs U).
Qed.
Theorem ignored d : ~ taking_part d -> get_converter_for d = Ok None.
Proof.
  unfold taking_part, get_converter_for. destruct (d_ignore d) as [[]|] eqn:E; [reflexivity|tauto|]. destruct (d_init d); [tauto|reflexivity].
Qed.
Theorem nested_lists d t m cs : taking_part d -> d_type d = TyList t -> source_type t m cs ->
  (m = true <-> get_converter_for d = Err AssertionError).
Proof.
  intros T E S. destruct (unwrap_source _ _ _ S) as [U NE]. unfold get_converter_for. rewrite (taking d T), E, (unwrap_nested _ _ _ U). destruct m; [easy|].
  cbn [bind]. split; [discriminate|]. intro H. exfalso. revert H.
  assert (V : forall l, value_converters l <> Err AssertionError).
  { induction l as [|t' l IH]; [discriminate|]. cbn [value_converters]. destruct t'; try discriminate. destruct (value_converter c); [|discriminate].
    destruct (value_converters l) as [x|x]; cbn [bind]; [discriminate|congruence]. }
  destruct (match map TyClass cs with [TyClass c] => _ | _ => _ end) as [[[k n] p]|]; [discriminate|].
  specialize (V (map TyClass cs)). destruct (value_converters (map TyClass cs)) as [x|x]; cbn [bind]; [discriminate|congruence].
Qed.

(** ** Sorting *)
Lemma insert_perm a l : Permutation (a :: l) (insert_d a l).
Proof. induction l as [|b l IH]; cbn; [easy|]. destruct (dc_prio b <? dc_prio a)%Z; [easy|]. rewrite perm_swap. now constructor. Qed.
Lemma insert_sorted a l : StronglySorted by_priority l -> StronglySorted by_priority (insert_d a l).
Proof.
  induction 1 as [|b l S IH F]; cbn [insert_d]; [repeat constructor|]. destruct (dc_prio b <? dc_prio a)%Z eqn:E.
  - constructor; [now constructor|]. constructor; [unfold by_priority; lia|]. eapply Forall_impl; [|exact F]. unfold by_priority. intros. lia.
  - constructor; [exact IH|]. eapply Permutation_Forall; [apply insert_perm|]. constructor; [unfold by_priority; lia|exact F].
Qed.
Lemma insert_same a l p : StronglySorted by_priority l ->
  filter (fun a => (dc_prio a =? p)%Z) (insert_d a l) = filter (fun a => (dc_prio a =? p)%Z) l ++ filter (fun a => (dc_prio a =? p)%Z) [a].
Proof.
  induction 1 as [|b l S IH F]; cbn [insert_d]; [reflexivity|]. destruct (dc_prio b <? dc_prio a)%Z eqn:E.
  - cbn [filter]. destruct (dc_prio a =? p)%Z eqn:P; [|now rewrite app_nil_r].
    assert (Q : filter (fun a => (dc_prio a =? p)%Z) (b :: l) = []).
    { assert (F' : Forall (fun x => (dc_prio x =? p)%Z = false) (b :: l)).
      { constructor; [lia|]. eapply Forall_impl; [|exact F]. unfold by_priority. intros. lia. }
      clear - F'. induction F' as [|y k H0 F0 IH0]; [reflexivity|]. cbn. now rewrite H0. }
    cbn [filter] in Q. rewrite Q. reflexivity.
  - cbn [filter]. rewrite IH. cbn [filter]. destruct (dc_prio b =? p)%Z; reflexivity.
Qed.
Lemma fold_sorted l : forall acc, StronglySorted by_priority acc ->
  let r := fold_left (fun acc a => insert_d a acc) l acc in
  Permutation (acc ++ l) r /\ StronglySorted by_priority r /\
  forall p, filter (fun a => (dc_prio a =? p)%Z) r = filter (fun a => (dc_prio a =? p)%Z) acc ++ filter (fun a => (dc_prio a =? p)%Z) l.
Proof.
  induction l as [|a l IH]; intros acc S; cbn [fold_left].
  - rewrite app_nil_r. split; [reflexivity|]. split; [easy|]. intro p. now rewrite app_nil_r.
  - destruct (IH (insert_d a acc) (insert_sorted a acc S)) as (P & S' & Q). split; [|split; [exact S'|]].
    + rewrite <- P, <- insert_perm. cbn. symmetry. apply Permutation_middle.
    + intro p. rewrite Q, insert_same, <- app_assoc by easy. f_equal. cbn [filter]. destruct (dc_prio a =? p)%Z; reflexivity.
Qed.
Theorem sort_sorts l : sorted_as l (sort_d l).
Proof. unfold sort_d. destruct (fold_sorted l [] ltac:(constructor)) as (P & S & Q). repeat split; [exact P|exact S|exact Q]. Qed.
(** Nothing else satisfies this. *)
Lemma filter_all {A} (f : A -> bool) l : Forall (fun x => f x = true) l -> filter f l = l.
Proof. induction 1 as [|x l H F IH]; [reflexivity|]. cbn. now rewrite H, IH. Qed.
Lemma head_prio a l p : StronglySorted by_priority (a :: l) -> forall b, In b (a :: l) -> dc_prio b = p -> (p <= dc_prio a)%Z.
Proof. intros S b I <-. inversion S as [|? ? S' F]; subst. destruct I as [<-|I]; [lia|]. rewrite Forall_forall in F. apply (F b I). Qed.
Lemma sorted_unique l1 : forall l2, StronglySorted by_priority l1 -> StronglySorted by_priority l2 ->
  (forall p, filter (fun a => (dc_prio a =? p)%Z) l1 = filter (fun a => (dc_prio a =? p)%Z) l2) -> l1 = l2.
Proof.
  induction l1 as [|a l1 IH]; intros l2 S1 S2 H.
  - destruct l2 as [|b l2]; [reflexivity|]. specialize (H (dc_prio b)). cbn in H. now rewrite Z.eqb_refl in H.
  - destruct l2 as [|b l2]; [specialize (H (dc_prio a)); cbn in H; now rewrite Z.eqb_refl in H|].
    assert (E : dc_prio a = dc_prio b).
    { assert (IA : In a (filter (fun x => (dc_prio x =? dc_prio a)%Z) (b :: l2))).
      { rewrite <- H. apply filter_In. split; [now left|lia]. }
      assert (IB : In b (filter (fun x => (dc_prio x =? dc_prio b)%Z) (a :: l1))).
      { rewrite H. apply filter_In. split; [now left|lia]. }
      apply filter_In in IA as [IA _]. apply filter_In in IB as [IB _].
      pose proof (head_prio b l2 _ S2 a IA eq_refl). pose proof (head_prio a l1 _ S1 b IB eq_refl). lia. }
    pose proof (H (dc_prio a)) as Ha. cbn [filter] in Ha. rewrite Z.eqb_refl in Ha. rewrite <- E, Z.eqb_refl in Ha. injection Ha as -> _.
    f_equal. inversion S1; subst. inversion S2; subst. apply IH; [easy|easy|]. intro p. specialize (H p). cbn [filter] in H.
    destruct (dc_prio b =? p)%Z; [now injection H|exact H].
Qed.
Theorem sort_only l l' : sorted_as l l' -> l' = sort_d l.
Proof.
  intros (P & S & Q). destruct (sort_sorts l) as (P2 & S2 & Q2). apply sorted_unique; [easy|easy|]. intro p. now rewrite Q, Q2.
Qed.

(** ** Lookup *)
Lemma lookup_names a ns : forall d n, NoDup ns -> dict_get n (fold_left (add_lookup a) ns d) =
  if existsb (str_eqb n) ns then Some (match dict_get n d with Some l => l ++ [a] | None => [a] end) else dict_get n d.
Proof.
  induction ns as [|m ns IH]; intros d n ND; [reflexivity|]. inversion ND as [|? ? NI ND']; subst. cbn [fold_left existsb]. rewrite IH by easy. unfold add_lookup.
  destruct (str_eqb n m) eqn:E.
  - apply str_eqb_eq in E. subst m. cbn [orb]. rewrite dict_get_set_same.
    replace (existsb (str_eqb n) ns) with false; [reflexivity|]. symmetry. apply not_true_is_false. intro H. apply existsb_exists in H as (x & I & Q).
    apply str_eqb_eq in Q. now subst.
  - cbn [orb]. rewrite dict_get_set_other; [reflexivity|]. intros ->. rewrite (proj2 (str_eqb_eq n n) eq_refl) in E. discriminate.
Qed.
Lemma answering_snoc n l r a : answering n l r -> answering n (l ++ [a]) (r ++ if existsb (str_eqb n) (dc_names a) then [a] else []).
Proof.
  induction 1 as [|b l r I A IH|b l r I A IH]; cbn [app].
  - destruct (existsb (str_eqb n) (dc_names a)) eqn:E.
    + apply existsb_exists in E as (x & I & Q). apply str_eqb_eq in Q. subst. apply An_yes; [easy|constructor].
    + apply An_no; [|constructor]. intro I. apply not_true_iff_false in E. apply E, existsb_exists. exists n. split; [easy|now apply str_eqb_eq].
  - now apply An_yes.
  - now apply An_no.
Qed.
Theorem lookup_answers l n : (forall a, In a l -> NoDup (dc_names a)) ->
  exists r, answering n l r /\ dict_get n (converter_lookup l) = match r with [] => None | _ => Some r end.
Proof.
  intros ND. unfold converter_lookup. induction l as [|a l IH] using rev_ind; [exists []; split; [constructor|reflexivity]|].
  destruct IH as (r & A & E); [intros; apply ND, in_app_iff; now left|]. exists (r ++ if existsb (str_eqb n) (dc_names a) then [a] else []).
  split; [now apply answering_snoc|]. rewrite fold_left_app. cbn [fold_left]. rewrite lookup_names by (apply ND, in_app_iff; right; now left).
  destruct (existsb (str_eqb n) (dc_names a)); [rewrite E; destruct r; reflexivity|now rewrite app_nil_r].
Qed.

(** ** The tables *)
Ltac rows := repeat (apply Forall2_nil || (apply Forall2_cons; [cbv; repeat split; repeat constructor|])).
Theorem tables c : exists l, find_converters c = Ok l /\ Forall2 (same_row c) l (converters c).
Proof. destruct c; (eexists; split; [vm_compute; reflexivity|]; unfold converters; (match goal with |- Forall2 _ _ ?t => let u := eval vm_compute in t in change t with u end); rows). Qed.
Theorem observance_table : exists l, find_plain Observance_decls = Ok l /\ Forall2 same_zitem l obs_fields.
Proof. eexists. split; [vm_compute; reflexivity|]. rows. Qed.
Theorem zone_table : exists l, find_plain Timezone_decls = Ok l /\ Forall2 same_zitem l zone_fields.
Proof. eexists. split; [vm_compute; reflexivity|]. rows. Qed.
