(** * Proofs about TEXT values *)
From Verif Require Import M_Base P_Base M_Text S_Text.
From Coq Require Import Lia ZifyBool ZifyNat ZifyN.

Ltac beq :=
  repeat match goal with
  | H : context [?a =? ?b] |- _ => destruct (N.eqb_spec a b); subst
  | |- context [?a =? ?b] => destruct (N.eqb_spec a b); subst
  end.

Lemma unescape_escape_char c r :
  unescape_text (escape_text_char c ++ r) = do v <- unescape_text r; Ok (c :: v).
Proof.
  unfold escape_text_char.
  repeat match goal with
  | |- context [if ?a =? ?b then _ else _] => destruct (N.eqb_spec a b); [subst; reflexivity|]
  end.
  cbn [app unescape_text].
  destruct (N.eqb_spec c c_bslash); [easy|].
  destruct (mem c [c_semi; c_comma; c_lf; c_cr]) eqn:E; [|easy].
  apply mem_In in E. cbn in E. intuition congruence.
Qed.

Lemma text_roundtrip s : text_parse (text_serialize s) = Ok s.
Proof.
  unfold text_parse, text_serialize, escape_text, translate.
  induction s as [|c s IH]; [reflexivity|].
  cbn [flat_map]. rewrite unescape_escape_char, IH. reflexivity.
Qed.

Lemma text_serialize_inj a b : text_serialize a = text_serialize b -> a = b.
Proof.
  intros H. apply (f_equal text_parse) in H. rewrite !text_roundtrip in H. congruence.
Qed.

Lemma text_serialize_no_break s : ~ In 10 (text_serialize s) /\ ~ In 13 (text_serialize s).
Proof.
  unfold text_serialize, escape_text, translate.
  rewrite !in_flat_map. split; intros [c [_ H]]; unfold escape_text_char in H;
  repeat match type of H with
  | context [if ?a =? ?b then _ else _] => destruct (N.eqb_spec a b)
  end; cbn in H; unfold c_bslash, c_semi, c_comma, c_lf, c_cr, c_n, c_r in *;
  intuition congruence.
Qed.

(** Parity of the number of trailing backslashes, computed left to right. *)
Definition pstep (b : bool) (c : char) : bool := if c =? 92 then negb b else false.
Definition parity (b : bool) (a : str) : bool := fold_left pstep a b.

Lemma parity_app b x y : parity b (x ++ y) = parity (parity b x) y.
Proof. unfold parity. apply fold_left_app. Qed.

Lemma parity_leading a : parity false a = Nat.odd (leading_bslashes (rev a)).
Proof.
  induction a as [|c a IH] using rev_ind; [reflexivity|].
  rewrite parity_app, rev_app_distr. cbn [parity fold_left rev app leading_bslashes].
  unfold pstep. fold (parity false a). rewrite IH. change c_bslash with 92.
  destruct (c =? 92); [|easy]. rewrite Nat.odd_succ. now rewrite Nat.negb_odd.
Qed.

Lemma repeat_snoc {A} (x : A) n : repeat x n ++ [x] = x :: repeat x n.
Proof. induction n; cbn; [easy|]. now rewrite IHn. Qed.

Lemma leading_decomp s :
  s = repeat 92 (leading_bslashes s) ++ skipn (leading_bslashes s) s /\
  (forall q, skipn (leading_bslashes s) s <> 92 :: q).
Proof.
  induction s as [|c s IH]; [cbn; easy|]. cbn [leading_bslashes]. change c_bslash with 92.
  destruct (N.eqb_spec c 92) as [->|Hn].
  - cbn [repeat app skipn]. destruct IH as [H1 H2]. split; [now rewrite <- H1|easy].
  - cbn. split; [easy|]. intros q [= ->]. easy.
Qed.

Lemma leading_repeat k p : (forall q, p <> 92 :: q) -> leading_bslashes (repeat 92 k ++ p) = k.
Proof.
  intros H. induction k as [|k IH]; cbn.
  - destruct p as [|c p]; [easy|]. cbn. change c_bslash with 92.
    destruct (N.eqb_spec c 92) as [->|]; [|easy]. exfalso. now apply (H p).
  - change c_bslash with 92. cbn. now rewrite IH.
Qed.

Lemma rev_repeat' {A} (x : A) n : rev (repeat x n) = repeat x n.
Proof. induction n; cbn; [easy|]. now rewrite IHn, repeat_snoc. Qed.

Lemma ends_in_escape_parity a : ends_in_escape a <-> parity false a = true.
Proof.
  rewrite parity_leading. split.
  - intros (p & k & -> & H). rewrite rev_app_distr, rev_repeat', leading_repeat.
    + rewrite Nat.odd_add_mul_2 || idtac. apply Nat.odd_spec. exists k. lia.
    + intros q Hq. apply (H (rev q)). rewrite <- (rev_involutive p), Hq. reflexivity.
  - intros H. apply Nat.odd_spec in H as [k Hk].
    destruct (leading_decomp (rev a)) as [H1 H2]. rewrite Hk in *.
    exists (rev (skipn (2*k+1) (rev a))), k. split.
    + rewrite <- (rev_involutive a) at 1. rewrite H1 at 1.
      rewrite rev_app_distr. now rewrite rev_repeat'.
    + intros q Hq. apply (H2 (rev q)).
      rewrite <- (rev_involutive (skipn _ _)), Hq, rev_app_distr. reflexivity.
Qed.

Lemma app_eq_split (x y a b : str) (c : char) :
  x ++ y = a ++ c :: b ->
  (exists b1, x = a ++ c :: b1) \/ (exists a2, a = x ++ a2 /\ y = a2 ++ c :: b).
Proof.
  revert a; induction x as [|h x IH]; intros a H; cbn in H.
  - right. exists a. now split.
  - destruct a as [|h2 a]; cbn in H; injection H as -> H.
    + left. now exists x.
    + destruct (IH a H) as [[b1 ->]|[a2 [-> ->]]].
      * left. now exists b1.
      * right. now exists a2.
Qed.

Lemma escape_char_parity c : parity false (escape_text_char c) = false.
Proof.
  unfold escape_text_char.
  repeat match goal with
  | |- context [if ?a =? ?b then _ else _] => destruct (N.eqb_spec a b); [subst; reflexivity|]
  end.
  cbn. unfold pstep. destruct (N.eqb_spec c 92); easy.
Qed.

Lemma text_serialize_parity s : parity false (text_serialize s) = false.
Proof.
  unfold text_serialize, escape_text, translate.
  induction s as [|c s IH]; [easy|]. cbn [flat_map].
  now rewrite parity_app, escape_char_parity.
Qed.

Lemma text_serialize_escaped s c :
  c = 59 \/ c = 44 -> all_escaped c (text_serialize s).
Proof.
  intros Hc a b H. apply ends_in_escape_parity.
  unfold text_serialize, escape_text, translate in H.
  revert a H; induction s as [|d s IH]; intros a H; cbn [flat_map] in H.
  - now destruct a.
  - apply app_eq_split in H as [[b1 H]|[a2 [-> H]]].
    + unfold escape_text_char in H.
      repeat match type of H with
      | context [if ?a =? ?b then _ else _] => destruct (N.eqb_spec a b)
      end; destruct a as [|a1 [|a2' [|a3 a]]]; cbn in H; try discriminate;
      injection H; intros; subst;
      unfold c_bslash, c_semi, c_comma, c_lf, c_cr, c_n, c_r in *;
      try easy; try (destruct Hc; easy).
    + rewrite parity_app, escape_char_parity. now apply IH.
Qed.

(** Reading accepts exactly the grammar. *)
Lemma unescape_char_ok c2 c :
  unescape_char c2 = Ok c <->
  (c2 = 59 /\ c = 59) \/ (c2 = 44 /\ c = 44) \/ ((c2 = 110 \/ c2 = 78) /\ c = 10)
  \/ ((c2 = 114 \/ c2 = 82) /\ c = 13) \/ (c2 = 92 /\ c = 92).
Proof.
  unfold unescape_char, c_semi, c_comma, c_n, c_N, c_r, c_R, c_lf, c_cr, c_bslash.
  repeat match goal with
  | |- context [?a =? ?b] => destruct (N.eqb_spec a b); [subst|]; cbn [orb]
  end; split; intros H; try (injection H as <-); try discriminate; try lia;
  f_equal; lia.
Qed.

Lemma unescape_char_err c2 e : unescape_char c2 = Err e -> e = ValueError.
Proof.
  unfold unescape_char.
  repeat match goal with |- context [if ?b then _ else _] => destruct b end; congruence.
Qed.

Lemma unescape_sound s : forall v, unescape_text s = Ok v -> TextEsc s v.
Proof.
  induction s as [s IH] using list_len_ind.
  intros v H. destruct s as [|c1 it]; cbn [unescape_text] in H.
  - injection H as <-. constructor.
  - destruct (N.eqb_spec c1 c_bslash) as [->|Hn].
    + destruct it as [|c2 it']; [easy|].
      destruct (unescape_char c2) as [c|e] eqn:E; cbn in H; [|easy].
      destruct (unescape_text it') as [r|e] eqn:E2; cbn in H; [|easy]. injection H as <-.
      apply IH in E2; [|cbn; lia]. change c_bslash with 92.
      apply unescape_char_ok in E.
      destruct E as [[-> ->]|[[-> ->]|[[E ->]|[[E ->]|[-> ->]]]]]; now constructor.
    + destruct (mem c1 _) eqn:E; [easy|].
      destruct (unescape_text it) as [r|e] eqn:E2; cbn in H; [|easy]. injection H as <-.
      apply IH in E2; [|cbn; lia]. constructor; [|easy].
      apply mem_not_In in E. cbn in E |- *. intros [<-|H]; [easy|]. now apply E.
Qed.

Lemma unescape_complete s v : TextEsc s v -> unescape_text s = Ok v.
Proof.
  induction 1; try (destruct H as [->| ->]); cbn [unescape_text];
    try (rewrite IHTextEsc; reflexivity); [reflexivity|].
  destruct (N.eqb_spec c c_bslash) as [->|Hn]; [exfalso; apply H; now left|].
  destruct (mem c [c_semi; c_comma; c_lf; c_cr]) eqn:E.
  - apply mem_In in E. exfalso. apply H. now right.
  - now rewrite IHTextEsc.
Qed.

Lemma text_parse_spec w v : text_parse w = Ok v <-> TextEsc w v.
Proof. split; [apply unescape_sound|apply unescape_complete]. Qed.

Lemma text_parse_err w e : text_parse w = Err e -> e = ValueError.
Proof.
  unfold text_parse. revert e.
  induction w as [w IH] using list_len_ind.
  intros e H. destruct w as [|c1 it]; cbn [unescape_text] in H; [easy|].
  destruct (c1 =? c_bslash).
  - destruct it as [|c2 it']; [congruence|].
    destruct (unescape_char c2) eqn:E; cbn in H.
    + destruct (unescape_text it') eqn:E2; cbn in H; [easy|].
      apply IH in E2; [congruence|cbn; lia].
    + apply unescape_char_err in E. congruence.
  - destruct (mem c1 _); [congruence|].
    destruct (unescape_text it) eqn:E2; cbn in H; [easy|].
    apply IH in E2; [congruence|cbn; lia].
Qed.

(** Lists. *)
Lemma trailing_no_lf val : ~ In 10 val -> Nat.odd (trailing_bslashes val) = parity false val.
Proof.
  intros H. rewrite parity_leading. unfold trailing_bslashes.
  destruct (rev val) as [|c r] eqn:E; [reflexivity|].
  destruct (N.eqb_spec c c_lf) as [->|Hn]; [|easy].
  exfalso. apply H. apply in_rev. rewrite E. now left.
Qed.

Lemma join_snoc_comma v v2 it :
  join [c_comma] ((v ++ [c_comma] ++ v2) :: it) = join [c_comma] (v :: v2 :: it).
Proof. destruct it; cbn; rewrite <- ?app_assoc; reflexivity. Qed.

Definition ends_rejected (s : str) := Nat.odd (trailing_bslashes s) = true.

Lemma split_merge_join it : forall val l e,
  split_merge val it = (l, e) ->
  match e with
  | None => join [c_comma] l = join [c_comma] (val :: it) /\ l <> []
  | Some x => x = ValueError
  end.
Proof.
  induction it as [|v it IH]; intros val l e H; cbn [split_merge] in H.
  - destruct (Nat.odd _); injection H as <- <-; [easy|]. split; [reflexivity|easy].
  - destruct (Nat.odd _).
    + apply IH in H. destruct e; [easy|]. rewrite <- join_snoc_comma. exact H.
    + unfold gcons in H. destruct (split_merge v it) as [l' e'] eqn:E.
      cbn in H. injection H as <- <-. apply IH in E. destruct e'; [easy|].
      destruct E as [E En]. split; [|easy].
      rewrite join_cons by easy. rewrite E. reflexivity.
Qed.

Lemma split_join s l : split_value_list s = (l, None) -> join_value_list l = s.
Proof.
  unfold split_value_list, join_value_list.
  destruct (split_on c_comma s) as [|val it] eqn:E.
  - now apply split_on_nonempty in E.
  - intros H. apply split_merge_join in H as [H _].
    rewrite H, <- E. apply join_split_on.
Qed.

Lemma split_err s l e : split_value_list s = (l, Some e) -> e = ValueError.
Proof.
  unfold split_value_list. destruct (split_on c_comma s) as [|val it] eqn:E; [easy|].
  intros H. now apply split_merge_join in H.
Qed.

Lemma parity_comma b a : parity b (a ++ [c_comma]) = false.
Proof. rewrite parity_app. reflexivity. Qed.

Lemma parity_join_last b x y : parity b (x ++ c_comma :: y) = parity false y.
Proof. rewrite parity_app. reflexivity. Qed.

Lemma join_parity val it : exists z, 
  parity false (join [c_comma] (val :: it)) = parity false z /\ z = last (val :: it) [].
Proof.
  exists (last (val :: it) []). split; [|reflexivity].
  revert val; induction it as [|v it IH]; intros val; [reflexivity|].
  rewrite join_cons2. cbn [app]. rewrite parity_join_last, IH. reflexivity.
Qed.

Lemma all_escaped_app_comma v v2 :
  all_escaped 44 v -> parity false v = true -> all_escaped 44 v2 -> all_escaped 44 (v ++ [c_comma] ++ v2).
Proof.
  intros H1 Hp H2 a b H. apply ends_in_escape_parity.
  apply app_eq_split in H as [[b1 H]|[a2 [-> H]]].
  - apply ends_in_escape_parity. now apply (H1 a b1).
  - destruct a2 as [|x a2]; cbn in H.
    + now rewrite app_nil_r.
    + injection H as <- H. change c_comma with 44. rewrite parity_app.
      change (44 :: a2) with ([44] ++ a2). rewrite parity_app.
      apply H2 in H. now apply ends_in_escape_parity.
Qed.

Lemma all_escaped_no c v : ~ In c v -> all_escaped c v.
Proof. intros H a b ->. exfalso. apply H, in_or_app. right. now left. Qed.

Definition good_piece (w : str) := all_escaped 44 w /\ ~ ends_in_escape w.

(** Without line feeds, pieces are exactly the maximal comma-escaped ones, and
    failure happens exactly when the whole text ends inside an escape. *)
Lemma split_merge_pieces it : forall val l e,
  ~ In 10 val -> all_escaped 44 val ->
  (forall v, In v it -> ~ In 10 v /\ ~ In 44 v) ->
  split_merge val it = (l, e) ->
  (forall w, In w l -> good_piece w) /\
  (e <> None <-> parity false (join [c_comma] (val :: it)) = true).
Proof.
  induction it as [|v it IH]; intros val l e Hlf Hesc Hit H; cbn [split_merge] in H;
    rewrite trailing_no_lf in H by easy.
  - destruct (parity false val) eqn:E; injection H as <- <-.
    + split; [easy|]. cbn [join]. rewrite E. easy.
    + split.
      * intros w [<-|[]]. split; [easy|]. rewrite ends_in_escape_parity. congruence.
      * cbn [join]. rewrite E. easy.
  - assert (Hv : ~ In 10 v /\ ~ In 44 v) by (apply Hit; now left).
    assert (Hit' : forall v, In v it -> ~ In 10 v /\ ~ In 44 v) by (intros; apply Hit; now right).
    destruct (parity false val) eqn:E.
    + apply IH in H as [H1 H2]; [| | |easy].
      * split; [easy|]. now rewrite <- join_snoc_comma.
      * intros HI. rewrite !in_app_iff in HI. destruct HI as [HI|[[HI|[]]|HI]]; [easy| |easy].
        discriminate HI.
      * apply all_escaped_app_comma; [easy|easy|]. now apply all_escaped_no.
    + unfold gcons in H. destruct (split_merge v it) as [l' e'] eqn:E2.
      cbn in H. injection H as <- <-.
      apply IH in E2 as [H1 H2]; [|easy|now apply all_escaped_no|easy].
      split.
      * intros w [<-|Hw]; [|now apply H1]. split; [easy|]. rewrite ends_in_escape_parity. congruence.
      * rewrite join_cons2. cbn [app]. now rewrite parity_join_last.
Qed.

Lemma in_join_piece sep l x w : In w l -> In x w -> In x (join sep l).
Proof.
  induction l as [|y [|z l] IH]; intros Hw Hx; [easy| |].
  - destruct Hw as [<-|[]]. exact Hx.
  - rewrite join_cons2, !in_app_iff. destruct Hw as [<-|Hw]; [now left|]. right. right.
    now apply IH.
Qed.

Lemma split_pieces s l e :
  ~ In 10 s -> split_value_list s = (l, e) ->
  (forall w, In w l -> good_piece w) /\ (e <> None <-> ends_in_escape s).
Proof.
  intros Hlf. unfold split_value_list.
  destruct (split_on c_comma s) as [|val it] eqn:E; [now apply split_on_nonempty in E|].
  assert (Hpc : forall w, In w (val :: it) -> ~ In 10 w /\ ~ In 44 w).
  { intros w Hw. split.
    - intros Hin. apply Hlf. rewrite <- (join_split_on c_comma s), E.
      now apply in_join_piece with w.
    - apply (split_on_no_sep_in c_comma s). now rewrite E. }
  intros H. apply split_merge_pieces in H as [H1 H2].
  - split; [easy|]. rewrite ends_in_escape_parity. rewrite H2, <- E, join_split_on. easy.
  - apply Hpc. now left.
  - apply all_escaped_no, Hpc. now left.
  - intros v Hv. apply Hpc. now right.
Qed.

(** Uniqueness of a decomposition into good pieces. *)
Lemma good_piece_split_unique s l1 l2 :
  l1 <> [] -> l2 <> [] ->
  join [44] l1 = s -> join [44] l2 = s ->
  (forall w, In w l1 -> good_piece w) -> (forall w, In w l2 -> good_piece w) -> l1 = l2.
Proof.
  revert s l2; induction l1 as [|x l1 IH]; intros s l2 Hn1 Hn2 H1 H2 G1 G2; [easy|].
  destruct l2 as [|y l2]; [easy|].
  assert (Gx : good_piece x) by (apply G1; now left).
  assert (Gy : good_piece y) by (apply G2; now left).
  destruct l1 as [|x' l1], l2 as [|y' l2].
  - cbn in *. congruence.
  - cbn [join] in H1. subst x. rewrite join_cons2 in H2. cbn in H2.
    exfalso. apply Gy. eapply (proj1 Gx y). symmetry. exact H2.
  - cbn [join] in H2. subst y. rewrite join_cons2 in H1. cbn in H1.
    exfalso. apply Gx. eapply (proj1 Gy x). symmetry. exact H1.
  - rewrite join_cons2 in H1, H2. cbn [app] in H1, H2.
    assert (Hxy : x = y /\ join [44] (x' :: l1) = join [44] (y' :: l2)).
    { rewrite <- H2 in H1.
      destruct (app_eq_split _ _ _ _ _ H1) as [[b1 Hb]|[a2 [Ha Hb]]].
      - exfalso. apply Gy. now apply (proj1 Gx y b1).
      - destruct a2 as [|c a2].
        + rewrite app_nil_r in Ha. split; [easy|]. now injection Hb.
        + injection Hb as <- Hb. exfalso. apply Gx. now apply (proj1 Gy x a2). }
    destruct Hxy as [-> Hj]. f_equal.
    eapply IH; [easy|easy|reflexivity|now symmetry| |]; intros w Hw; [apply G1|apply G2]; now right.
Qed.

Lemma text_serialize_good s : good_piece (text_serialize s).
Proof.
  split; [apply text_serialize_escaped; now right|].
  rewrite ends_in_escape_parity, text_serialize_parity. easy.
Qed.

Lemma join_no c l : c <> 44 -> (forall w, In w l -> ~ In c w) -> ~ In c (join [44] l).
Proof.
  intros Hc. induction l as [|x [|y l] IH]; intros H; [easy| |].
  - apply H. now left.
  - rewrite join_cons2, !in_app_iff. intros [H1|[[H1|[]]|H1]]; [|now symmetry in H1|].
    + revert H1. apply H. now left.
    + revert H1. apply IH. intros w Hw. apply H. now right.
Qed.

Lemma join_last_parity l : l <> [] -> (forall w, In w l -> good_piece w) -> ~ ends_in_escape (join [44] l).
Proof.
  intros Hn H. destruct l as [|v it]; [easy|].
  rewrite ends_in_escape_parity. destruct (join_parity v it) as (z & E & ->).
  change [44] with [c_comma]. rewrite E.
  rewrite <- ends_in_escape_parity.
  apply H. clear. revert v; induction it as [|u it IH]; intros v; [now left|].
  right. apply IH.
Qed.

Lemma split_good_pieces l :
  l <> [] -> (forall w, In w l -> good_piece w /\ ~ In 10 w) ->
  split_value_list (join_value_list l) = (l, None).
Proof.
  intros Hn H. unfold join_value_list. change [c_comma] with [44].
  destruct (split_value_list (join [44] l)) as [l' e] eqn:E.
  assert (Hlf : ~ In 10 (join [44] l)) by (apply join_no; [easy|]; intros; now apply H).
  assert (He : e = None).
  { apply split_pieces in E as [_ E]; [|easy]. destruct e; [|easy].
    exfalso. apply (join_last_parity l); [easy| |apply E; easy]. intros. now apply H. }
  subst e.
  pose proof E as E1. apply split_pieces in E1 as [E1 _]; [|easy].
  pose proof E as E2. apply split_join in E2.
  f_equal. apply (good_piece_split_unique (join [44] l)).
  - intros ->. unfold split_value_list in E.
    destruct (split_on c_comma (join [44] l)) as [|v it] eqn:E3; [now apply split_on_nonempty in E3|].
    apply split_merge_join in E. easy.
  - easy.
  - exact E2.
  - reflexivity.
  - easy.
  - intros. now apply H.
Qed.

Lemma text_list_roundtrip vs :
  vs <> [] ->
  split_value_list (join_value_list (map text_serialize vs)) = (map text_serialize vs, None).
Proof.
  intros Hn. apply split_good_pieces.
  - now destruct vs.
  - intros w Hw. apply in_map_iff in Hw as (v & <- & _).
    split; [apply text_serialize_good|apply text_serialize_no_break].
Qed.
