(** * Lemmas about the base library *)
From Verif Require Import M_Base.
From Coq Require Import Lia ZifyBool ZifyNat ZifyN.
Ltac Zify.zify_post_hook ::= Z.div_mod_to_equations.

Global Arguments N.add : simpl never.
Global Arguments N.sub : simpl never.
Global Arguments N.mul : simpl never.
Global Arguments N.pow : simpl never.
Global Arguments N.div : simpl never.
Global Arguments N.modulo : simpl never.
Global Arguments N.of_nat : simpl never.
Global Arguments Z.add : simpl never.
Global Arguments Z.sub : simpl never.
Global Arguments Z.mul : simpl never.
Global Arguments Z.div : simpl never.
Global Arguments Z.modulo : simpl never.
Global Arguments Z.quot : simpl never.
Global Arguments Z.rem : simpl never.
Global Arguments Z.opp : simpl never.
Global Arguments Z.abs : simpl never.

Lemma str_eqb_eq a b : str_eqb a b = true <-> a = b.
Proof.
  revert b; induction a as [|x a IH]; intros [|y b]; cbn; split; intro H; try easy.
  - apply andb_true_iff in H as [H1 H2]. apply N.eqb_eq in H1. apply IH in H2. congruence.
  - injection H as -> ->. rewrite N.eqb_refl. now apply IH.
Qed.
Lemma str_eqb_refl a : str_eqb a a = true.
Proof. now apply str_eqb_eq. Qed.
Lemma str_eqb_neq a b : str_eqb a b = false <-> a <> b.
Proof.
  rewrite <- str_eqb_eq. destruct (str_eqb a b); split; congruence.
Qed.

Lemma mem_In c l : mem c l = true <-> In c l.
Proof.
  unfold mem. rewrite existsb_exists. split.
  - intros [x [H1 H2]]. apply N.eqb_eq in H2. now subst.
  - intros H. exists c. now rewrite N.eqb_refl.
Qed.
Lemma mem_not_In c l : mem c l = false <-> ~ In c l.
Proof. rewrite <- mem_In. destruct (mem c l); split; congruence. Qed.

Lemma split_on_nonempty sep s : split_on sep s <> [].
Proof.
  destruct s as [|c s]; cbn; [easy|]. destruct (c =? sep); [easy|].
  now destruct (split_on sep s).
Qed.

Lemma split_on_app_nosep sep w s :
  ~ In sep w ->
  split_on sep (w ++ s) =
  match split_on sep s with [] => [w] | x :: r => (w ++ x) :: r end.
Proof.
  induction w as [|c w IH]; intros H; cbn.
  - now destruct (split_on sep s) eqn:E; [apply split_on_nonempty in E|].
  - destruct (N.eqb_spec c sep) as [->|Hn]; [exfalso; apply H; now left|].
    rewrite IH by (intro; apply H; now right).
    now destruct (split_on sep s).
Qed.

Lemma split_on_nosep sep w : ~ In sep w -> split_on sep w = [w].
Proof.
  intros H. rewrite <- (app_nil_r w) at 1. rewrite split_on_app_nosep by easy.
  cbn. now rewrite app_nil_r.
Qed.

Lemma join_cons2 sep x y l : join sep (x :: y :: l) = x ++ sep ++ join sep (y :: l).
Proof. reflexivity. Qed.
Lemma join_cons sep x l : l <> [] -> join sep (x :: l) = x ++ sep ++ join sep l.
Proof. now destruct l. Qed.

Lemma split_on_join sep l :
  l <> [] -> (forall w, In w l -> ~ In sep w) -> split_on sep (join [sep] l) = l.
Proof.
  induction l as [|x [|y l] IH]; intros Hn H; [easy| |].
  - cbn. apply split_on_nosep. apply H. now left.
  - rewrite join_cons2. rewrite split_on_app_nosep by (apply H; now left).
    change ([sep] ++ join [sep] (y :: l)) with (sep :: join [sep] (y :: l)).
    cbn [split_on]. rewrite N.eqb_refl, app_nil_r.
    rewrite IH; [easy|easy|]. intros w Hw. apply H. now right.
Qed.

Lemma join_split_on sep s : join [sep] (split_on sep s) = s.
Proof.
  induction s as [|c s IH]; [reflexivity|]. cbn [split_on].
  destruct (N.eqb_spec c sep) as [->|Hn].
  - rewrite join_cons by apply split_on_nonempty. cbn. now rewrite IH.
  - destruct (split_on sep s) as [|w ws] eqn:E; [now apply split_on_nonempty in E|].
    destruct ws as [|w2 ws].
    + cbn in *. congruence.
    + rewrite join_cons2 in *. rewrite <- IH. reflexivity.
Qed.

Lemma split_on_no_sep_in sep s w : In w (split_on sep s) -> ~ In sep w.
Proof.
  revert w; induction s as [|c s IH]; intros w; cbn.
  - intros [<-|[]] [].
  - destruct (N.eqb_spec c sep) as [->|Hn].
    + intros [<-|H]; [easy|]. now apply IH.
    + destruct (split_on sep s) as [|x xs] eqn:E.
      * intros [<-|[]]. cbn. intros [->|[]]. easy.
      * intros [<-|H].
        -- intros [->|H]; [easy|]. apply (IH x); [now left|easy].
        -- apply IH. now right.
Qed.

(** Dictionaries. *)
Lemma dict_get_set_same {V} k (v : V) d : dict_get k (dict_set k v d) = Some v.
Proof.
  induction d as [|[k' v'] d IH]; cbn; [now rewrite str_eqb_refl|].
  destruct (str_eqb k k') eqn:E; cbn; rewrite E; easy.
Qed.
Lemma dict_get_set_other {V} k k2 (v : V) d :
  k <> k2 -> dict_get k2 (dict_set k v d) = dict_get k2 d.
Proof.
  intros Hn. induction d as [|[k' v'] d IH]; cbn.
  - destruct (str_eqb k2 k) eqn:E; [apply str_eqb_eq in E; congruence|easy].
  - destruct (str_eqb k k') eqn:E; cbn.
    + apply str_eqb_eq in E as ->. 
      destruct (str_eqb k2 k') eqn:E2; [apply str_eqb_eq in E2; congruence|easy].
    + now rewrite IH.
Qed.
Lemma dict_get_None {V} k (d : dict V) : dict_get k d = None <-> ~ In k (keys d).
Proof.
  induction d as [|[k' v'] d IH]; cbn; [easy|].
  destruct (str_eqb k k') eqn:E.
  - apply str_eqb_eq in E as ->. split; [easy|]. intros H. exfalso. apply H. now left.
  - apply str_eqb_neq in E. rewrite IH. split; intros H; [intros [<-|H2]; easy|tauto].
Qed.
Lemma dict_set_new {V} k (v : V) d : ~ In k (keys d) -> dict_set k v d = d ++ [(k, v)].
Proof.
  induction d as [|[k' v'] d IH]; intros H; cbn; [easy|].
  destruct (str_eqb k k') eqn:E.
  - apply str_eqb_eq in E as ->. exfalso. apply H. now left.
  - rewrite IH; [easy|]. intro. apply H. now right.
Qed.
Lemma dict_set_last {V} k (v v' : V) d :
  ~ In k (keys d) -> dict_set k v (d ++ [(k, v')]) = d ++ [(k, v)].
Proof.
  induction d as [|[k2 v2] d IH]; intros H; cbn; [now rewrite str_eqb_refl|].
  destruct (str_eqb k k2) eqn:E.
  - apply str_eqb_eq in E as ->. exfalso. apply H. now left.
  - rewrite IH; [easy|]. intro. apply H. now right.
Qed.

(** Decimal numbers. *)

Lemma is_digit_spec c : is_digit c = true <-> 48 <= c <= 57.
Proof. unfold is_digit. lia. Qed.

Lemma undec_app a b : undec (a ++ b) = undec a * 10 ^ N.of_nat (length b) + undec b.
Proof.
  unfold undec. rewrite fold_left_app.
  generalize (fold_left (fun a0 c : N => a0 * 10 + (c - 48)) a 0) as x.
  induction b as [|c b IH] using rev_ind; intros x.
  - cbn [fold_left length]. change (N.of_nat 0) with 0. rewrite N.pow_0_r. lia.
  - rewrite !fold_left_app, app_length. cbn [fold_left length].
    rewrite IH. replace (N.of_nat (length b + 1)) with (N.succ (N.of_nat (length b))) by lia.
    rewrite N.pow_succ_r'. lia.
Qed.

Lemma undec_snoc a c : undec (a ++ [c]) = undec a * 10 + (c - 48).
Proof. unfold undec. now rewrite fold_left_app. Qed.

Lemma dec_aux_acc f n acc acc' : dec_aux f n (acc ++ acc') = dec_aux f n acc ++ acc'.
Proof.
  revert n acc; induction f as [|f IH]; intros n acc; cbn [dec_aux]; [easy|].
  destruct (n / 10 =? 0); [easy|]. rewrite <- IH. easy.
Qed.

Lemma dec_aux_fuel f g n :
  n < 2 ^ N.of_nat f -> n < 2 ^ N.of_nat g -> (0 < f)%nat -> (0 < g)%nat ->
  dec_aux f n [] = dec_aux g n [].
Proof.
  revert g n; induction f as [|f IH]; intros g n Hf Hg Hf0 Hg0; [lia|].
  destruct g as [|g]; [lia|].
  cbn [dec_aux]. destruct (N.eqb_spec (n / 10) 0) as [E|E]; [easy|].
  change [48 + n mod 10] with ([] ++ [48 + n mod 10]). rewrite !dec_aux_acc.
  f_equal.
  assert (Hp : forall k, n < 2 ^ N.of_nat (S k) -> n / 10 < 2 ^ N.of_nat k).
  { intros k Hk. rewrite Nat2N.inj_succ, N.pow_succ_r' in Hk.
    apply N.div_lt_upper_bound; lia. }
  assert (Hnz : forall k, n < 2 ^ N.of_nat (S k) -> (0 < k)%nat).
  { intros [|k] Hk; [|lia]. cbn in Hk. lia. }
  apply IH; eauto.
Qed.

Lemma dec_unfold n :
  dec n = if n <? 10 then [48 + n] else dec (n / 10) ++ [48 + n mod 10].
Proof.
  unfold dec at 1. cbn [dec_aux].
  destruct (N.ltb_spec n 10) as [H|H].
  - rewrite N.div_small, N.mod_small by easy. easy.
  - destruct (N.eqb_spec (n / 10) 0) as [E|E]; [lia|].
    change [48 + n mod 10] with ([] ++ [48 + n mod 10]). rewrite !dec_aux_acc. f_equal.
    unfold dec.
    assert (Hsz : forall m, m < 2 ^ N.of_nat (N.to_nat (N.size m))).
    { intro m. rewrite N2Nat.id. apply N.size_gt. }
    assert (Hn : n < 2 ^ N.of_nat (N.to_nat (N.size n))) by apply Hsz.
    apply dec_aux_fuel.
    + apply N.le_lt_trans with n; [|easy]. lia.
    + eapply N.lt_le_trans; [apply Hsz|]. apply N.pow_le_mono_r; lia.
    + destruct (N.to_nat (N.size n)); [cbn in Hn; lia|lia].
    + lia.
Qed.

Lemma N_ind10 (P : N -> Prop) :
  (forall n, n < 10 -> P n) -> (forall n, 10 <= n -> P (n / 10) -> P n) -> forall n, P n.
Proof.
  intros H1 H2 n. induction n as [n IH] using (well_founded_ind N.lt_wf_0).
  destruct (N.ltb_spec n 10); [auto|]. apply H2; [easy|]. apply IH.
  apply N.div_lt; lia.
Qed.

Lemma undec_dec n : undec (dec n) = n.
Proof.
  induction n as [n H|n H IH] using N_ind10; rewrite dec_unfold.
  - destruct (N.ltb_spec n 10); [|lia]. cbn. lia.
  - destruct (N.ltb_spec n 10); [lia|]. rewrite undec_snoc, IH. lia.
Qed.

Lemma dec_digits n : forallb is_digit (dec n) = true.
Proof.
  induction n as [n H|n H IH] using N_ind10; rewrite dec_unfold;
    destruct (N.ltb_spec n 10); try lia.
  - cbn. unfold is_digit. lia.
  - rewrite forallb_app, IH. cbn. unfold is_digit. lia.
Qed.

Lemma dec_nonempty n : dec n <> [].
Proof.
  rewrite dec_unfold. destruct (n <? 10); [easy|]. now destruct (dec (n/10)).
Qed.

Lemma dec_inj a b : dec a = dec b -> a = b.
Proof. intros H. rewrite <- (undec_dec a), <- (undec_dec b). now rewrite H. Qed.

Lemma dec_length k n : n < 10 ^ N.of_nat (S k) -> (length (dec n) <= S k)%nat.
Proof.
  revert n; induction k as [|k IH]; intros n H.
  - cbn in H. rewrite dec_unfold. destruct (N.ltb_spec n 10); cbn; lia.
  - rewrite dec_unfold. destruct (N.ltb_spec n 10); [cbn; lia|].
    rewrite app_length. cbn [length].
    rewrite Nat2N.inj_succ, N.pow_succ_r' in H.
    specialize (IH (n/10)). rewrite Nat.add_1_r. apply le_n_S, IH.
    apply N.div_lt_upper_bound; lia.
Qed.

Lemma undec_repeat0 k : undec (repeat 48 k) = 0.
Proof.
  induction k as [|k IH]; [easy|]. cbn [repeat]. 
  change (48 :: repeat 48 k) with ([48] ++ repeat 48 k). rewrite undec_app, IH. cbn. lia.
Qed.

Lemma undec_pad k n : undec (pad k n) = n.
Proof. unfold pad. rewrite undec_app, undec_repeat0, undec_dec. lia. Qed.

Lemma pad_length k n : n < 10 ^ N.of_nat (S k) -> length (pad (S k) n) = S k.
Proof.
  intros H. apply dec_length in H. unfold pad. rewrite app_length, repeat_length. lia.
Qed.

Lemma pad_digits k n : forallb is_digit (pad k n) = true.
Proof.
  unfold pad. rewrite forallb_app, dec_digits, andb_true_r.
  induction (k - length (dec n))%nat; cbn; [easy|]. exact IHn0.
Qed.

Lemma undec_bound s : forallb is_digit s = true -> undec s < 10 ^ N.of_nat (length s).
Proof.
  induction s as [|c s IH] using rev_ind; intros H; [cbn; lia|].
  rewrite forallb_app in H. apply andb_true_iff in H as [H1 H2]. specialize (IH H1).
  cbn in H2. unfold is_digit in H2.
  rewrite undec_snoc, app_length. cbn [length].
  replace (N.of_nat (length s + 1)) with (N.succ (N.of_nat (length s))) by lia.
  rewrite N.pow_succ_r'. lia.
Qed.

(** Two digit strings of equal length with the same value are equal. *)
Lemma undec_inj a b :
  forallb is_digit a = true -> forallb is_digit b = true ->
  length a = length b -> undec a = undec b -> a = b.
Proof.
  revert b; induction a as [|c a IH] using rev_ind; intros b Ha Hb Hl He.
  - now destruct b.
  - destruct b as [|d b _] using rev_ind; [rewrite app_length in Hl; cbn in Hl; lia|].
    rewrite !forallb_app in *. apply andb_true_iff in Ha as [Ha Hc].
    apply andb_true_iff in Hb as [Hb Hd]. cbn in Hc, Hd. unfold is_digit in *.
    rewrite !undec_snoc in He. rewrite !app_length in Hl. cbn in Hl.
    assert (undec a = undec b /\ c = d) as [E ->] by lia.
    f_equal. apply IH; try easy. lia.
Qed.

Lemma firstn_skipn_slice (s : str) a b : slice s a b = firstn (b - a) (skipn a s).
Proof. unfold slice. apply skipn_firstn_comm. Qed.

Lemma find_char_app_notin c w s :
  ~ In c w -> find_char c (w ++ s) = match find_char c s with Some n => Some (length w + n)%nat | None => None end.
Proof.
  induction w as [|x w IH]; intros H; cbn; [now destruct (find_char c s)|].
  destruct (N.eqb_spec x c) as [->|Hn]; [exfalso; apply H; now left|].
  rewrite IH by (intro; apply H; now right). now destruct (find_char c s).
Qed.
Lemma find_char_here c s : find_char c (c :: s) = Some 0%nat.
Proof. cbn. now rewrite N.eqb_refl. Qed.
Lemma find_char_None c s : find_char c s = None <-> ~ In c s.
Proof.
  induction s as [|x s IH]; cbn; [easy|].
  destruct (N.eqb_spec x c) as [->|Hn]; [split; [easy|intros H; exfalso; apply H; now left]|].
  destruct (find_char c s); split; intros H; try easy.
  - exfalso. apply H. right. apply Decidable.not_not; [|rewrite <- IH; easy].
    unfold Decidable.decidable. destruct (in_dec N.eq_dec c s); tauto.
  - intros [->|H2]; [easy|]. now apply IH in H2.
Qed.
Lemma find_char_Some c s n :
  find_char c s = Some n ->
  s = firstn n s ++ c :: skipn (S n) s /\ ~ In c (firstn n s) /\ (n < length s)%nat.
Proof.
  revert n; induction s as [|x s IH]; intros n; cbn; [easy|].
  destruct (N.eqb_spec x c) as [->|Hn].
  - intros [= <-]. cbn. repeat split; [easy|lia].
  - destruct (find_char c s) as [m|]; [|easy]. intros [= <-].
    destruct (IH m eq_refl) as (H1 & H2 & H3). cbn. repeat split; try lia.
    + cbn in H1. now rewrite <- H1.
    + intros [->|H]; easy.
Qed.

Lemma list_len_ind {A} (P : list A -> Prop) :
  (forall l, (forall l', (length l' < length l)%nat -> P l') -> P l) -> forall l, P l.
Proof.
  intros H l. remember (length l) as n eqn:E. revert l E.
  induction n as [n IH] using (well_founded_ind Wf_nat.lt_wf). intros l ->.
  apply H. intros l' Hl'. now apply (IH (length l')).
Qed.
