(** * Proofs about content lines *)
From Verif Require Import M_Base P_Base M_Line S_Line.
From Coq Require Import Lia ZifyBool ZifyNat ZifyN.

(** ** Caret encoding *)
Lemma unescape_escape_param_char c r :
  unescape_param (escape_param_char c ++ r) =
  if c =? 13 then unescape_param r else do v <- unescape_param r; Ok (c :: v).
Proof.
  unfold escape_param_char, c_dquote, c_caret, c_lf, c_cr.
  destruct (N.eqb_spec c 34); [subst; reflexivity|].
  destruct (N.eqb_spec c 94) as [->|Hc]; [reflexivity|].
  destruct (N.eqb_spec c 10); [subst; reflexivity|].
  destruct (N.eqb_spec c 13); [reflexivity|].
  cbn [app unescape_param]. unfold c_caret.
  destruct (N.eqb_spec c 94); [easy|reflexivity].
Qed.

Lemma unescape_escape_param s :
  unescape_param (escape_param s) = Ok (filter (fun c => negb (c =? 13)) s).
Proof.
  unfold escape_param, translate. induction s as [|c s IH]; [reflexivity|].
  cbn [flat_map filter]. rewrite unescape_escape_param_char, IH.
  destruct (c =? 13); reflexivity.
Qed.

Lemma filter_no_cr s : ~ In 13 s -> filter (fun c => negb (c =? 13)) s = s.
Proof.
  induction s as [|c s IH]; intros H; [easy|]. cbn.
  destruct (N.eqb_spec c 13) as [->|Hn]; [exfalso; apply H; now left|].
  cbn. rewrite IH; [easy|]. intro. apply H. now right.
Qed.

Lemma param_roundtrip_iff s : unescape_param (escape_param s) = Ok s <-> ~ In 13 s.
Proof.
  rewrite unescape_escape_param. split.
  - intros [= H] Hin. rewrite <- H in Hin. apply filter_In in Hin. now cbn in Hin.
  - intros H. now rewrite filter_no_cr.
Qed.

Lemma escape_param_safe s : none_of [34; 10; 13] (escape_param s).
Proof.
  intros c Hc Hin. unfold escape_param, translate in Hin.
  apply in_flat_map in Hin as (d & _ & Hd). unfold escape_param_char in Hd.
  repeat match type of Hd with
  | context [if ?a =? ?b then _ else _] => destruct (N.eqb_spec a b)
  end; cbn in Hd, Hc; unfold c_dquote, c_caret, c_lf, c_cr, c_squote, c_n in *;
  intuition congruence.
Qed.

Lemma unescape_param_sound s : forall v, unescape_param s = Ok v -> Caret s v.
Proof.
  induction s as [s IH] using list_len_ind. intros v H.
  destruct s as [|c s]; cbn [unescape_param] in H; [injection H as <-; constructor|].
  unfold c_caret, c_lf, c_n, c_squote, c_dquote in H.
  destruct (N.eqb_spec c 94) as [->|Hn].
  - destruct s as [|g s]; [easy|].
    destruct (N.eqb_spec g 10) as [->|?]; [easy|].
    destruct (N.eqb_spec g 110) as [->|?].
    { destruct (unescape_param s) eqn:E; cbn in H; [|easy]. injection H as <-.
      apply Caret_n. apply IH; [cbn; lia|easy]. }
    destruct (N.eqb_spec g 94) as [->|?].
    { destruct (unescape_param s) eqn:E; cbn in H; [|easy]. injection H as <-.
      apply Caret_caret. apply IH; [cbn; lia|easy]. }
    destruct (N.eqb_spec g 39) as [->|?]; [|easy].
    { destruct (unescape_param s) eqn:E; cbn in H; [|easy]. injection H as <-.
      apply Caret_quote. apply IH; [cbn; lia|easy]. }
  - destruct (unescape_param s) eqn:E; cbn in H; [|easy]. injection H as <-.
    constructor; [easy|]. apply IH; [cbn; lia|easy].
Qed.

Lemma unescape_param_complete s v : Caret s v -> unescape_param s = Ok v.
Proof.
  induction 1; try (cbn [unescape_param]; rewrite ?IHCaret; reflexivity).
  cbn [unescape_param]. unfold c_caret. destruct (N.eqb_spec c 94); [easy|].
  now rewrite IHCaret.
Qed.

Lemma unescape_param_err s : forall e, unescape_param s = Err e -> e = ParseError.
Proof.
  induction s as [s IH] using list_len_ind. intros e H.
  destruct s as [|c s]; cbn [unescape_param] in H; [easy|].
  destruct (c =? c_caret).
  - destruct s as [|g s]; [congruence|].
    destruct (g =? c_lf); [congruence|].
    destruct (g =? c_n), (g =? c_caret), (g =? c_squote); try congruence;
    (destruct (unescape_param s) eqn:E; cbn in H; [easy|]; injection H as <-;
     apply (IH s); [cbn; lia|easy]).
  - destruct (unescape_param s) eqn:E; cbn in H; [easy|]; injection H as <-.
    apply (IH s); [cbn; lia|easy].
Qed.

(** ** Positions *)
Lemma index_from_pre c pre t :
  index_from c (pre ++ t) (length pre) =
  match find_char c t with Some n => Some (length pre + n)%nat | None => None end.
Proof.
  unfold index_from. rewrite skipn_app, skipn_all, Nat.sub_diag. reflexivity.
Qed.
Lemma slice_pre (pre t : str) n :
  slice (pre ++ t) (length pre) (length pre + n) = firstn n t.
Proof.
  unfold slice. rewrite firstn_app_2, skipn_app, skipn_all, Nat.sub_diag. reflexivity.
Qed.
Lemma index_between_pre c pre t n :
  index_between c (pre ++ t) (length pre) (length pre + n) =
  match find_char c (firstn n t) with Some n => Some (length pre + n)%nat | None => None end.
Proof.
  unfold index_between. rewrite firstn_app_2, skipn_app, skipn_all, Nat.sub_diag. reflexivity.
Qed.
Lemma nth_error_pre (pre t : str) : nth_error (pre ++ t) (length pre) = hd_error t.
Proof. rewrite nth_error_app2, Nat.sub_diag by lia. now destruct t. Qed.
Lemma skipn_pre (pre t : str) : skipn (length pre) (pre ++ t) = t.
Proof. rewrite skipn_app, skipn_all, Nat.sub_diag. reflexivity. Qed.
Lemma firstn_pre (pre t : str) : firstn (length pre) (pre ++ t) = pre.
Proof. rewrite firstn_app, Nat.sub_diag, firstn_all. cbn. apply app_nil_r. Qed.

(** ** Delimiters *)
Notation D := delims_from.
Lemma is_delim_iff c : is_delim c = true <-> c = 58 \/ c = 59.
Proof. unfold is_delim, c_colon, c_semi. lia. Qed.

Lemma D_app a b i : D i (a ++ b) = D i a ++ D (i + length a) b.
Proof.
  revert i; induction a as [|c a IH]; intros i; cbn; [now rewrite Nat.add_0_r|].
  rewrite IH. replace (S i + length a)%nat with (i + S (length a))%nat by lia.
  now destruct (is_delim c).
Qed.
Lemma none_of_cons cs c s : none_of cs (c :: s) <-> ~ In c cs /\ none_of cs s.
Proof.
  unfold none_of. split.
  - intros H. split.
    + intros Hc. apply (H c Hc). now left.
    + intros d Hd Hin. apply (H d Hd). now right.
  - intros [H1 H2] d Hd [<-|Hin]; [easy|]. now apply (H2 d).
Qed.
Lemma none_of_nil cs : none_of cs [].
Proof. intros c _ []. Qed.
Lemma none_of_app cs a b : none_of cs (a ++ b) <-> none_of cs a /\ none_of cs b.
Proof.
  induction a as [|c a IH]; cbn.
  - split; [intros H; split; [apply none_of_nil|easy]|easy].
  - rewrite !none_of_cons, IH. tauto.
Qed.
Lemma none_of_incl cs cs' s : incl cs' cs -> none_of cs s -> none_of cs' s.
Proof. intros H1 H2 c Hc. apply H2. now apply H1. Qed.

Lemma D_none a i : none_of [58; 59] a -> D i a = [].
Proof.
  revert i; induction a as [|c a IH]; intros i H; [easy|].
  apply none_of_cons in H as [H1 H2]. cbn.
  destruct (is_delim c) eqn:E; [|now apply IH].
  apply is_delim_iff in E. exfalso. apply H1. cbn. lia.
Qed.
Lemma D_at rest i : at_delim rest -> D i rest = i :: D (S i) (tl rest).
Proof.
  intros (c & t & -> & Hc). cbn. apply is_delim_iff in Hc. now rewrite Hc.
Qed.
Lemma D_first t i d ds :
  D i t = d :: ds ->
  exists a b, t = a ++ b /\ d = (i + length a)%nat /\ none_of [58; 59] a /\ at_delim b
    /\ ds = D (S d) (tl b).
Proof.
  revert i; induction t as [|c t IH]; intros i H; cbn in H; [easy|].
  destruct (is_delim c) eqn:E.
  - injection H as <- <-. exists [], (c :: t). cbn. split; [easy|]. split; [lia|].
    split; [apply none_of_nil|]. split; [|easy].
    exists c, t. split; [easy|]. now apply is_delim_iff.
  - apply IH in H as (a & b & -> & -> & H1 & H2 & ->).
    exists (c :: a), b. cbn. split; [easy|]. split; [lia|]. split; [|split; [easy|]].
    + apply none_of_cons. split; [|easy]. intros Hc.
      assert (is_delim c = true) by (apply is_delim_iff; cbn in Hc; lia). congruence.
    + do 2 f_equal; lia.
Qed.
Lemma at_delim_ne rest : at_delim rest -> rest <> [].
Proof. intros (c & t & -> & _). easy. Qed.

Lemma skip_delims_spec a b : forall i delim delims,
  delim :: delims = D i (a ++ b) ->
  skip_delims delim delims (i + length a) =
  match D (i + length a) b with [] => Err ParseError | d :: ds => Ok (d, ds) end.
Proof.
  induction a as [|c a IH]; intros i delim delims H; cbn [app length] in *.
  - rewrite Nat.add_0_r. rewrite <- H. symmetry in H. apply D_first in H as (x & y & _ & -> & _).
    destruct delims; cbn [skip_delims]; destruct (Nat.ltb_spec (i + length x) i); try lia; easy.
  - cbn [delims_from] in H. destruct (is_delim c).
    + injection H as -> H.
      replace (i + S (length a))%nat with (S i + length a)%nat by lia.
      destruct delims as [|d ds]; cbn [skip_delims];
        destruct (Nat.ltb_spec i (S i + length a)); try lia.
      * rewrite D_app in H. symmetry in H. apply app_eq_nil in H as [_ ->]. reflexivity.
      * now apply IH.
    + replace (i + S (length a))%nat with (S i + length a)%nat by lia. now apply IH.
Qed.

(** ** Parameter value lists: every line of the grammar is parsed *)
Lemma find_char_none_of cs c a : In c cs -> none_of cs a -> find_char c a = None.
Proof. intros H1 H2. apply find_char_None. now apply H2. Qed.

Lemma D_raw r t i : none_of [44; 58; 59] r -> D i (r ++ t) = D (i + length r) t.
Proof.
  intros H. rewrite D_app, D_none; [easy|]. eapply none_of_incl; [|exact H].
  intros x; cbn; tauto.
Qed.

Ltac fix_pos :=
  match goal with |- Ok (_, ?a, _) = Ok (_, ?b, _) => replace a with b by lia; reflexivity end.

Lemma vals_complete t vs rest :
  GVals t vs rest ->
  at_delim rest /\ exists u, t = u ++ rest /\
  forall pre fuel acc delim delims,
    delim :: delims = D (length pre) t ->
    (length vs <= fuel)%nat ->
    param_values fuel (pre ++ t) delim delims (length pre) acc =
    Ok (acc ++ vs, (length pre + length u)%nat, D (S (length pre + length u)) (tl rest)).
Proof.
  induction 1 as [r v rest Hne Hnq Hno Hc Hd
                 |r v t vs rest Hnq Hno Hc HG IH
                 |q v rest Hno Hc Hd
                 |q v t vs rest Hno Hc HG IH].
  - split; [easy|]. exists r. split; [easy|]. intros pre fuel acc delim delims HD Hf.
    destruct fuel as [|f]; [cbn in Hf; lia|]. cbn [param_values].
    rewrite D_raw in HD by easy. rewrite D_at in HD by easy. injection HD as -> ->.
    destruct (Nat.leb_spec (length pre + length r) (length pre)).
    { destruct r; [easy|]. cbn in *. lia. }
    rewrite nth_error_pre. destruct r as [|c r]; [easy|]. cbn [hd_error app].
    destruct (N.eqb_spec c c_dquote) as [->|Hcq]; [exfalso; now apply (Hnq r)|].
    unfold parse_raw. change (c :: r ++ rest) with ((c :: r) ++ rest).
    rewrite index_between_pre, firstn_pre.
    rewrite (find_char_none_of [44;58;59]) by (cbn; tauto || easy).
    rewrite slice_pre, firstn_pre. rewrite (unescape_param_complete _ _ Hc). reflexivity.
  - destruct IH as (Hd & u & -> & IH). split; [easy|].
    exists (r ++ 44 :: u). split; [now rewrite <- app_assoc|].
    intros pre fuel acc delim delims HD Hf.
    destruct fuel as [|f]; [cbn in Hf; lia|]. cbn [param_values].
    rewrite D_raw in HD by easy. cbn [delims_from] in HD. change (is_delim 44) with false in HD.
    cbn iota in HD.
    assert (Hdel : (length pre + length r < delim)%nat).
    { symmetry in HD. apply D_first in HD as (a & b & _ & -> & _). lia. }
    destruct (Nat.leb_spec delim (length pre)); [lia|].
    rewrite nth_error_pre.
    assert (Hhd : exists c x, r ++ 44 :: u ++ rest = c :: x /\ c <> 34).
    { destruct r as [|c r]; [now exists 44, (u ++ rest)|]. exists c, (r ++ 44 :: u ++ rest).
      split; [easy|]. intros ->. now apply (Hnq r). }
    destruct Hhd as (c & x & Hx & Hcq). rewrite Hx. cbn [hd_error]. rewrite <- Hx.
    destruct (N.eqb_spec c c_dquote) as [->|_]; [easy|].
    unfold parse_raw.
    replace delim with (length pre + (delim - length pre))%nat at 1 by lia.
    rewrite index_between_pre.
    replace (firstn (delim - length pre) (r ++ 44 :: u ++ rest))
      with (r ++ 44 :: firstn (delim - length pre - length r - 1) (u ++ rest)).
    2:{ rewrite (firstn_app _ r), (firstn_all2 r) by lia. f_equal.
        destruct (delim - length pre - length r)%nat as [|k] eqn:Ek; [lia|].
        cbn [firstn Nat.sub]. now rewrite Nat.sub_0_r. }
    rewrite find_char_app_notin by (apply Hno; cbn; tauto).
    rewrite find_char_here, Nat.add_0_r. rewrite slice_pre, firstn_pre.
    rewrite (unescape_param_complete _ _ Hc). cbn [bind].
    replace (S (length pre + length r)) with (length (pre ++ r ++ [44])) by (rewrite !app_length; cbn; lia).
    replace (pre ++ r ++ 44 :: u ++ rest) with ((pre ++ r ++ [44]) ++ u ++ rest) by (rewrite <- !app_assoc; reflexivity).
    rewrite IH.
    + rewrite <- app_assoc. cbn [app]. rewrite !app_length. cbn [length]. fix_pos.
    + rewrite HD. f_equal. rewrite !app_length. cbn. lia.
    + cbn in Hf. lia.
  - split; [easy|]. exists (34 :: q ++ [34]). split; [cbn; now rewrite <- app_assoc|].
    intros pre fuel acc delim delims HD Hf.
    destruct fuel as [|f]; [cbn in Hf; lia|]. cbn [param_values].
    assert (Hdel : (length pre < delim)%nat).
    { cbn [delims_from] in HD. change (is_delim 34) with false in HD. cbn iota in HD.
      symmetry in HD. apply D_first in HD as (a & b & _ & -> & _). lia. }
    destruct (Nat.leb_spec delim (length pre)); [lia|].
    rewrite nth_error_pre. cbn [hd_error]. change (34 =? c_dquote) with true. cbn iota.
    unfold parse_quoted.
    replace (S (length pre)) with (length (pre ++ [34])) by (rewrite app_length; cbn; lia).
    replace (pre ++ 34 :: q ++ 34 :: rest) with ((pre ++ [34]) ++ q ++ 34 :: rest) by (rewrite <- !app_assoc; reflexivity).
    rewrite index_from_pre. rewrite find_char_app_notin by (apply Hno; cbn; tauto).
    rewrite find_char_here, Nat.add_0_r, slice_pre, firstn_pre.
    rewrite (unescape_param_complete _ _ Hc). cbn [bind].
    replace (S (length (pre ++ [34]) + length q)) with (length pre + length (34%N :: q ++ [34%N]))%nat
      by (cbn [length]; rewrite !app_length; cbn; lia).
    rewrite (skip_delims_spec (34 :: q ++ [34]) rest).
    2:{ rewrite HD. cbn [app]. now rewrite <- app_assoc. }
    rewrite D_at by easy. cbn [bind]. rewrite Nat.eqb_refl. reflexivity.
  - destruct IH as (Hd & u & -> & IH). split; [easy|].
    exists (34 :: q ++ 34 :: 44 :: u). split; [cbn; now rewrite <- app_assoc|].
    intros pre fuel acc delim delims HD Hf.
    destruct fuel as [|f]; [cbn in Hf; lia|]. cbn [param_values].
    assert (Hdel : (length pre < delim)%nat).
    { cbn [delims_from] in HD. change (is_delim 34) with false in HD. cbn iota in HD.
      symmetry in HD. apply D_first in HD as (a & b & _ & -> & _). lia. }
    destruct (Nat.leb_spec delim (length pre)); [lia|].
    rewrite nth_error_pre. cbn [hd_error]. change (34 =? c_dquote) with true. cbn iota.
    unfold parse_quoted.
    replace (S (length pre)) with (length (pre ++ [34])) by (rewrite app_length; cbn; lia).
    replace (pre ++ 34 :: q ++ 34 :: 44 :: u ++ rest) with ((pre ++ [34]) ++ q ++ 34 :: 44 :: u ++ rest) by (rewrite <- !app_assoc; reflexivity).
    rewrite index_from_pre. rewrite find_char_app_notin by (apply Hno; cbn; tauto).
    rewrite find_char_here, Nat.add_0_r, slice_pre, firstn_pre.
    rewrite (unescape_param_complete _ _ Hc). cbn [bind].
    replace (S (length (pre ++ [34]) + length q)) with (length pre + length (34%N :: q ++ [34%N]))%nat
      by (cbn [length]; rewrite !app_length; cbn; lia).
    rewrite (skip_delims_spec (34 :: q ++ [34]) (44 :: u ++ rest)).
    2:{ rewrite HD. cbn [app]. now rewrite <- app_assoc. }
    destruct (D (length pre + length (34 :: q ++ [34])) (44 :: u ++ rest)) as [|d ds] eqn:E.
    { cbn [delims_from] in E. change (is_delim 44) with false in E. cbn iota in E.
      rewrite D_app in E. apply app_eq_nil in E as [_ E]. rewrite D_at in E by easy. easy. }
    cbn [bind]. cbn [delims_from] in E. change (is_delim 44) with false in E. cbn iota in E.
    destruct (Nat.eqb_spec d (length pre + length (34 :: q ++ [34]))) as [Hq|_].
    { apply D_first in E as (a & b & _ & -> & _). lia. }
    replace ((pre ++ [34]) ++ q ++ 34 :: 44 :: u ++ rest) with ((pre ++ 34 :: q ++ [34]) ++ 44 :: u ++ rest)
      by (repeat (rewrite <- !app_assoc; cbn [app]); reflexivity).
    replace (length pre + length (34%N :: q ++ [34%N]))%nat with (length (pre ++ 34 :: q ++ [34])) in *
      by (rewrite !app_length; cbn [length]; lia).
    rewrite nth_error_pre. cbn [hd_error]. change (44 =? c_comma) with true. cbn iota beta.
    replace (S (length (pre ++ 34 :: q ++ [34]))) with (length (pre ++ 34 :: q ++ [34; 44])) in *
      by (rewrite !app_length; cbn [length]; rewrite !app_length; cbn [length]; lia).
    replace ((pre ++ 34 :: q ++ [34]) ++ 44 :: u ++ rest) with ((pre ++ 34 :: q ++ [34; 44]) ++ u ++ rest)
      by (repeat (rewrite <- !app_assoc; cbn [app]); reflexivity).
    cbn [bind]. rewrite IH.
    + rewrite <- app_assoc. cbn [app].
      repeat (rewrite !app_length; cbn [length]). fix_pos.
    + now rewrite E.
    + cbn in Hf. lia.
Qed.

Lemma GVals_len t vs rest : GVals t vs rest -> (length vs <= length t)%nat.
Proof.
  induction 1; rewrite ?app_length; cbn [length] in *.
  - destruct r; [easy|]. cbn. lia.
  - lia.
  - rewrite app_length. cbn. lia.
  - rewrite app_length. cbn. lia.
Qed.

Lemma GRest_len t ps v : GRest t ps v -> (length ps < length t)%nat.
Proof.
  induction 1; cbn [length]; [lia|].
  destruct (vals_complete _ _ _ H0) as (_ & u & -> & _).
  rewrite app_length. cbn [length]. rewrite app_length. lia.
Qed.

Lemma rest_complete t ps v :
  GRest t ps v ->
  at_delim t /\
  forall pre fuel acc,
    (length ps < fuel)%nat ->
    parse_loop fuel (pre ++ t) (length pre) (D (S (length pre)) (tl t)) acc
    = Ok (dict_update acc ps, v).
Proof.
  induction 1 as [v|pname t vals rest ps v Hno HG HR [Hd IH]].
  - split; [exists 58, v; split; [easy|now left]|].
    intros pre fuel acc Hf. destruct fuel as [|f]; [cbn in Hf; lia|]. cbn [parse_loop].
    rewrite nth_error_pre. cbn [hd_error]. change (58 =? c_colon) with true. cbn iota.
    replace (S (length pre)) with (length (pre ++ [58])) by (rewrite app_length; cbn; lia).
    replace (pre ++ 58 :: v) with ((pre ++ [58]) ++ v) by (rewrite <- app_assoc; reflexivity).
    rewrite skipn_pre. reflexivity.
  - split; [exists 59, (pname ++ 61 :: t); split; [easy|now right]|].
    intros pre fuel acc Hf. destruct fuel as [|f]; [cbn in Hf; lia|]. cbn [parse_loop].
    rewrite nth_error_pre. cbn [hd_error]. change (59 =? c_colon) with false.
    change (59 =? c_semi) with true. cbn iota. cbn [tl].
    unfold parse_param.
    replace (S (length pre)) with (length (pre ++ [59])) by (rewrite app_length; cbn; lia).
    replace (pre ++ 59 :: pname ++ 61 :: t) with ((pre ++ [59]) ++ pname ++ 61 :: t) by (rewrite <- app_assoc; reflexivity).
    rewrite index_from_pre. rewrite find_char_app_notin by (apply Hno; cbn; tauto).
    rewrite find_char_here, Nat.add_0_r, slice_pre, firstn_pre.
    destruct (vals_complete _ _ _ HG) as (Hd' & u & -> & HV).
    rewrite D_app, D_none by (eapply none_of_incl; [|exact Hno]; intros x; cbn; tauto).
    cbn [app delims_from]. change (is_delim 61) with false. cbn iota.
    set (pre2 := (pre ++ [59]) ++ pname ++ [61]).
    replace (S (length (pre ++ [59]) + length pname)) with (length pre2)
      by (unfold pre2; rewrite !app_length; cbn [length]; lia).
    destruct (D (length pre2) (u ++ rest)) as [|d ds] eqn:E.
    { rewrite D_app in E. apply app_eq_nil in E as [_ E]. now rewrite D_at in E by easy. }
    cbn [next_delim bind].
    replace ((pre ++ [59]) ++ pname ++ 61 :: u ++ rest) with (pre2 ++ u ++ rest)
      by (unfold pre2; rewrite <- !app_assoc; reflexivity).
    rewrite HV.
    2:{ now rewrite E. }
    2:{ apply GVals_len in HG. rewrite !app_length in *. lia. }
    cbn [bind app].
    replace (pre2 ++ u ++ rest) with ((pre2 ++ u) ++ rest) by now rewrite <- app_assoc.
    replace (length pre2 + length u)%nat with (length (pre2 ++ u)) by (rewrite app_length; lia).
    rewrite IH by (cbn in Hf; lia). reflexivity.
Qed.

Lemma parse_line_complete line name ps v :
  GLine line name ps v -> parse_line line = Ok (ContentLine name (assign_all ps) v).
Proof.
  intros (rest & -> & Hno & HR). unfold parse_line.
  destruct (rest_complete _ _ _ HR) as [Hd HC].
  rewrite D_app, D_none by easy. cbn [app]. rewrite Nat.add_0_l, D_at by easy.
  cbn [next_delim bind].
  rewrite HC.
  - cbn [bind]. now rewrite firstn_pre.
  - apply GRest_len in HR. rewrite app_length. lia.
Qed.

(** ** Everything that is parsed is in the grammar; the only exception is ParseError *)
Definition vals_sound_post (pre t : str) acc (r : res (list pval * nat * list nat)) :=
  match r with
  | Ok (vals, d, ds) =>
      exists u vs rest, t = u ++ rest /\ GVals t vs rest /\ vals = acc ++ vs
        /\ d = (length pre + length u)%nat /\ ds = D (S d) (tl rest)
  | Err e => e = ParseError
  end.

Lemma not_quoted_cons c r : c <> 34 -> not_quoted (c :: r).
Proof. intros H t [= -> _]. easy. Qed.

Lemma find_split c s n :
  find_char c s = Some n -> exists a b, s = a ++ c :: b /\ ~ In c a /\ n = length a.
Proof.
  intros H. apply find_char_Some in H as (H1 & H2 & H3).
  exists (firstn n s), (skipn (S n) s). repeat split; try easy.
  rewrite firstn_length. lia.
Qed.

Lemma notin_none c s : ~ In c s -> none_of [c] s.
Proof. intros H d [<-|[]]. easy. Qed.

Lemma none_of_44 r : ~ In 44 r -> none_of [58; 59] r -> none_of [44; 58; 59] r.
Proof. intros H1 H2 c [<-|Hc]; [easy|]. now apply H2. Qed.

Lemma vals_sound n : forall t pre fuel acc delim delims,
  (length t <= n)%nat -> (length t < fuel)%nat ->
  delim :: delims = D (length pre) t ->
  vals_sound_post pre t acc (param_values fuel (pre ++ t) delim delims (length pre) acc).
Proof.
  induction n as [|n IH]; intros t pre fuel acc delim delims Hn Hf HD.
  { destruct t; [cbn in HD; easy|cbn in Hn; lia]. }
  destruct fuel as [|f]; [lia|]. cbn [param_values].
  destruct (Nat.leb_spec delim (length pre)) as [|Hdel]; [reflexivity|].
  rewrite nth_error_pre. destruct t as [|c t]; [easy|]. cbn [hd_error].
  destruct (N.eqb_spec c c_dquote) as [->|Hcq].
  - (* quoted *)
    unfold parse_quoted.
    replace (S (length pre)) with (length (pre ++ [34])) by (rewrite app_length; cbn; lia).
    replace (pre ++ c_dquote :: t) with ((pre ++ [34]) ++ t) by (rewrite <- !app_assoc; reflexivity).
    rewrite index_from_pre.
    destruct (find_char c_dquote t) as [k|] eqn:Ek; [|reflexivity].
    apply find_split in Ek as (q & t2 & -> & Hq & ->).
    rewrite slice_pre, firstn_pre.
    destruct (unescape_param q) as [v|e] eqn:Ev; cbn [bind];
      [|apply unescape_param_err in Ev as ->; reflexivity].
    apply unescape_param_sound in Ev.
    replace (S (length (pre ++ [34]) + length q)) with (length pre + length (34%N :: q ++ [34%N]))%nat
      by (cbn [length]; rewrite !app_length; cbn; lia).
    rewrite (skip_delims_spec (34 :: q ++ [34]) t2).
    2:{ rewrite HD. cbn [app]. now rewrite <- app_assoc. }
    destruct (D (length pre + length (34 :: q ++ [34])) t2) as [|d ds] eqn:E; [reflexivity|].
    cbn [bind].
    destruct (Nat.eqb_spec d (length pre + length (34 :: q ++ [34]))) as [Hq1|Hq1].
    + cbn [vals_sound_post].
      apply D_first in E as (a & b & -> & Hd & _ & Hb & ->).
      assert (a = []) as -> by (destruct a; [easy|cbn [length] in *; lia]).
      exists (34 :: q ++ [34]), [PQuoted v], b. cbn [app] in *.
      split; [now rewrite <- app_assoc|].
      split; [apply GV_quoted_last; [now apply notin_none|easy|easy]|].
      split; [easy|]. split; [easy|easy].
    + replace ((pre ++ [34]) ++ q ++ c_dquote :: t2) with ((pre ++ 34 :: q ++ [34]) ++ t2)
        by (repeat (rewrite <- !app_assoc; cbn [app]); reflexivity).
      replace (length pre + length (34%N :: q ++ [34%N]))%nat with (length (pre ++ 34 :: q ++ [34])) in *
        by (rewrite !app_length; cbn [length]; lia).
      rewrite nth_error_pre. destruct t2 as [|c2 t2]; [easy|]. cbn [hd_error].
      destruct (N.eqb_spec c2 c_comma) as [->|Hc2]; [|reflexivity].
      cbn [bind].
      cbn [delims_from] in E. change (is_delim c_comma) with false in E. cbn iota in E.
      replace (S (length (pre ++ 34 :: q ++ [34]))) with (length (pre ++ 34 :: q ++ [34; 44])) in *
        by (rewrite !app_length; cbn [length]; rewrite !app_length; cbn [length]; lia).
      replace ((pre ++ 34 :: q ++ [34]) ++ c_comma :: t2) with ((pre ++ 34 :: q ++ [34; 44]) ++ t2)
        by (repeat (rewrite <- !app_assoc; cbn [app]); reflexivity).
      cbn [length] in Hn, Hf. rewrite app_length in Hn, Hf. cbn [length] in Hn, Hf.
      assert (HP := IH t2 (pre ++ 34 :: q ++ [34; 44]) f (acc ++ [PQuoted v]) d ds
        ltac:(lia) ltac:(lia) (eq_sym E)).
      destruct (param_values f _ d ds _ _) as [[[vals d'] ds']|e]; [|exact HP].
      cbn [vals_sound_post] in HP |- *.
      destruct HP as (u & vs & rest & -> & HG & -> & -> & ->).
      exists (34 :: q ++ 34 :: 44 :: u), (PQuoted v :: vs), rest.
      split; [cbn; now rewrite <- app_assoc|].
      split; [apply GV_quoted_more; [now apply notin_none|easy|easy]|].
      split; [now rewrite <- app_assoc|].
      split; repeat (rewrite !app_length; cbn [length]); [lia|]; f_equal; lia.
  - (* raw *)
    unfold parse_raw. change (c :: t) with ([c] ++ t) in *.
    pose proof HD as HD'. symmetry in HD'. apply D_first in HD' as (a & b & Hab & Hd & Ha & Hb & Hds).
    cbn [app] in *. rewrite Hab.
    assert (Ha0 : a <> []) by (intros ->; cbn in Hd; lia).
    rewrite Hd at 1. rewrite index_between_pre, firstn_pre.
    destruct (find_char c_comma a) as [k|] eqn:Ek.
    + apply find_split in Ek as (r & a2 & -> & Hr & ->).
      rewrite <- app_assoc, slice_pre, firstn_pre.
      destruct (unescape_param r) as [v|e] eqn:Ev; cbn [bind];
        [|apply unescape_param_err in Ev as ->; reflexivity].
      apply unescape_param_sound in Ev.
      replace (S (length pre + length r)) with (length (pre ++ r ++ [44]))
        by (rewrite !app_length; cbn; lia).
      replace (pre ++ r ++ (c_comma :: a2) ++ b) with ((pre ++ r ++ [44]) ++ a2 ++ b)
        by (rewrite <- !app_assoc; reflexivity).
      apply none_of_app in Ha as [Ha1 Ha2]. apply none_of_cons in Ha2 as [_ Ha2].
      assert (Hlen : (length (c :: t) = length r + 1 + length (a2 ++ b))%nat).
      { rewrite Hab. rewrite !app_length. cbn [length]. lia. }
      assert (HP := IH (a2 ++ b) (pre ++ r ++ [44]) f (acc ++ [PRaw v]) delim delims
        ltac:(lia) ltac:(lia)).
      assert (HDeq : delim :: delims = D (length (pre ++ r ++ [44])) (a2 ++ b)).
      { rewrite D_app, D_none by easy. rewrite D_at by easy. cbn [app].
        rewrite app_length in Hd. cbn [length] in Hd.
        replace (length (pre ++ r ++ [44%N]) + length a2)%nat with delim by (rewrite !app_length; cbn [length]; lia).
        now rewrite Hds. }
      specialize (HP HDeq).
      destruct (param_values f _ delim delims _ _) as [[[vals d'] ds']|e]; [|exact HP].
      cbn [vals_sound_post] in HP |- *.
      destruct HP as (u & vs & rest & Hu & HG & -> & -> & ->).
      exists (r ++ 44 :: u), (PRaw v :: vs), rest.
      split; [rewrite <- !app_assoc; cbn [app]; now rewrite Hu|].
      split.
      { cbn [app]. apply GV_raw_more; try easy.
        - intros x ->. cbn in Hab. injection Hab as -> _. now apply Hcq.
        - now apply none_of_44. }
      split; [now rewrite <- app_assoc|].
      split; repeat (rewrite !app_length; cbn [length]); [lia|]; f_equal; lia.
    + apply find_char_None in Ek. rewrite Hd at 1. rewrite slice_pre, firstn_pre.
      destruct (unescape_param a) as [v|e] eqn:Ev; cbn [bind];
        [|apply unescape_param_err in Ev as ->; reflexivity].
      apply unescape_param_sound in Ev.
      cbn [vals_sound_post].
      exists a, [PRaw v], b. split; [easy|].
      split.
      { apply GV_raw_last; try easy.
        - intros x ->. cbn in Hab. injection Hab as -> _. now apply Hcq.
        - now apply none_of_44. }
      split; [easy|]. split; easy.
Qed.

Definition loop_sound_post t acc (r : res (params * str)) :=
  match r with
  | Ok (ps', v) => exists ps, GRest t ps v /\ ps' = dict_update acc ps
  | Err e => e = ParseError
  end.

Lemma loop_sound n : forall t pre fuel acc,
  (length t <= n)%nat -> (length t < fuel)%nat -> at_delim t ->
  loop_sound_post t acc
    (parse_loop fuel (pre ++ t) (length pre) (D (S (length pre)) (tl t)) acc).
Proof.
  induction n as [|n IH]; intros t pre fuel acc Hn Hf (c & t' & -> & Hc);
    [cbn in Hn; lia|].
  destruct fuel as [|f]; [lia|]. cbn [parse_loop]. rewrite nth_error_pre. cbn [hd_error tl].
  destruct (N.eqb_spec c c_colon) as [->|Hcc].
  - cbn [loop_sound_post]. exists []. cbn [dict_update fold_left].
    replace (S (length pre)) with (length (pre ++ [58])) by (rewrite app_length; cbn; lia).
    replace (pre ++ c_colon :: t') with ((pre ++ [58]) ++ t') by (rewrite <- app_assoc; reflexivity).
    rewrite skipn_pre. split; [constructor|easy].
  - destruct (N.eqb_spec c c_semi) as [->|Hcs]; [|unfold c_colon, c_semi in *; lia].
    unfold parse_param.
    replace (S (length pre)) with (length (pre ++ [59])) by (rewrite app_length; cbn; lia).
    replace (pre ++ c_semi :: t') with ((pre ++ [59]) ++ t') by (rewrite <- app_assoc; reflexivity).
    rewrite index_from_pre.
    destruct (find_char c_eq t') as [k|] eqn:Ek; [|reflexivity].
    apply find_split in Ek as (pname & t2 & -> & Hp & ->).
    rewrite slice_pre, firstn_pre.
    destruct (D (length (pre ++ [59])) (pname ++ c_eq :: t2)) as [|d ds] eqn:E; [reflexivity|].
    cbn [next_delim bind].
    set (pre2 := (pre ++ [59]) ++ pname ++ [61]).
    replace (S (length (pre ++ [59]) + length pname)) with (length pre2)
      by (unfold pre2; rewrite !app_length; cbn [length]; lia).
    replace ((pre ++ [59]) ++ pname ++ c_eq :: t2) with (pre2 ++ t2)
      by (unfold pre2; rewrite <- !app_assoc; reflexivity).
    (* a delimiter inside the parameter name makes the value list fail *)
    destruct (D (length (pre ++ [59])) pname) as [|d0 ds0] eqn:Ep.
    + rewrite D_app, Ep in E. cbn [app delims_from] in E.
      change (is_delim c_eq) with false in E. cbn iota in E.
      replace (S (length (pre ++ [59]) + length pname)) with (length pre2) in E
        by (unfold pre2; rewrite !app_length; cbn [length]; lia).
      assert (HV := vals_sound (length t2) t2 pre2 (S (length (pre2 ++ t2))) [] d ds
        ltac:(lia) ltac:(rewrite app_length; lia) (eq_sym E)).
      destruct (param_values _ _ d ds _ []) as [[[vals d'] ds']|e]; [|exact HV].
      cbn [vals_sound_post] in HV.
      destruct HV as (u & vs & rest & -> & HG & -> & -> & ->). cbn [bind app].
      pose proof (vals_complete _ _ _ HG) as [Hrest _].
      replace (pre2 ++ u ++ rest) with ((pre2 ++ u) ++ rest) by now rewrite <- app_assoc.
      replace (length pre2 + length u)%nat with (length (pre2 ++ u)) by (rewrite app_length; lia).
      cbn [length] in Hn, Hf. rewrite app_length in Hn, Hf. cbn [length] in Hn, Hf.
      rewrite app_length in Hn, Hf.
      assert (HL := IH rest (pre2 ++ u) f (dict_set pname vs acc) ltac:(lia) ltac:(lia) Hrest).
      destruct (parse_loop f _ _ _ _) as [[ps' v]|e]; [|exact HL].
      cbn [loop_sound_post] in HL |- *. destruct HL as (ps & HR & ->).
      exists ((pname, vs) :: ps). split; [|reflexivity].
      apply GR_param with rest; try easy.
      assert (Hnd : forall i s, D i s = [] -> none_of [58; 59] s).
      { clear. intros i s; revert i; induction s as [|c s IH]; intros i H; [apply none_of_nil|].
        cbn in H. destruct (is_delim c) eqn:Ed; [easy|]. apply none_of_cons. split; [|now apply (IH (S i))].
        intros Hc. assert (is_delim c = true) by (apply is_delim_iff; cbn in Hc; lia). congruence. }
      apply Hnd in Ep. intros x [<-|Hx]; [easy|]. now apply Ep.
    + rewrite D_app, Ep in E. cbn [app] in E. injection E as -> _.
      assert (Hd : (d < length pre2)%nat).
      { apply D_first in Ep as (a & b & -> & -> & _ & Hb & _).
        unfold pre2. rewrite !app_length. cbn [length].
        destruct Hb as (x & y & -> & _). cbn [length]. lia. }
      cbn [param_values]. destruct (Nat.leb_spec d (length pre2)); [reflexivity|lia].
Qed.

Definition parse_line_post (line : str) (r : res content_line) : Prop :=
  match r with
  | Ok cl => exists name ps, GLine line name ps (cl_value cl) /\
      cl_name cl = upper name /\ cl_params cl = assign_all ps
  | Err e => e = ParseError
  end.

Lemma parse_line_sound line : parse_line_post line (parse_line line).
Proof.
  unfold parse_line. destruct (D 0 line) as [|d ds] eqn:E; [reflexivity|].
  cbn [next_delim bind]. apply D_first in E as (a & b & -> & -> & Ha & Hb & ->).
  rewrite Nat.add_0_l.
  assert (HL := loop_sound (length b) b a (S (length (a ++ b))) [] ltac:(lia)
    ltac:(rewrite app_length; lia) Hb).
  destruct (parse_loop _ _ _ _ _) as [[ps' v]|e]; [|exact HL].
  destruct HL as (ps & HR & ->). cbn [bind parse_line_post]. exists a, ps.
  rewrite firstn_pre. repeat split. exists b. now repeat split.
Qed.

Lemma parse_line_total line :
  (exists cl, parse_line line = Ok cl) \/ parse_line line = Err ParseError.
Proof.
  assert (H := parse_line_sound line). destruct (parse_line line) as [cl|e].
  - left. now exists cl.
  - right. cbn in H. now subst.
Qed.

Lemma parse_line_exact line cl :
  parse_line line = Ok cl <->
  exists name ps, GLine line name ps (cl_value cl) /\
    cl_name cl = upper name /\ cl_params cl = assign_all ps.
Proof.
  split.
  - intros H. assert (HP := parse_line_sound line). rewrite H in HP. exact HP.
  - intros (name & ps & HG & H1 & H2). rewrite (parse_line_complete _ _ _ _ HG).
    destruct cl as [n p v]. cbn in *. unfold ContentLine. now subst.
Qed.

(** ** Writing produces lines of the grammar *)
Lemma Caret_escape s : ~ In 13 s -> Caret (escape_param s) s.
Proof. intros H. apply unescape_param_sound. now apply param_roundtrip_iff. Qed.

Lemma escape_param_none s cs :
  ~ In 94 cs -> ~ In 110 cs -> ~ In 39 cs -> none_of cs s -> none_of cs (escape_param s).
Proof.
  intros H1 H2 H3 H c Hc Hin. unfold escape_param, translate in Hin.
  apply in_flat_map in Hin as (d & Hd & Hx). unfold escape_param_char in Hx.
  repeat match type of Hx with
  | context [if ?a =? ?b then _ else _] => destruct (N.eqb_spec a b)
  end; cbn in Hx; unfold c_dquote, c_caret, c_lf, c_cr, c_squote, c_n in *; subst;
  repeat destruct Hx as [<-|Hx]; try easy.
  now apply (H d).
Qed.

Lemma needs_quote_false s : needs_quote s = false -> none_of [44; 58; 59] s.
Proof.
  intros H c Hc Hin. unfold needs_quote in H.
  assert (Ht : existsb (fun c => (c =? c_colon) || (c =? c_semi) || (c =? c_comma)) s = true).
  { apply existsb_exists. exists c. split; [easy|]. cbn in Hc. unfold c_colon, c_semi, c_comma. lia. }
  congruence.
Qed.

Lemma escape_param_nil s : ~ In 13 s -> escape_param s = [] -> s = [].
Proof. intros H1 H2. apply Caret_escape in H1. rewrite H2 in H1. now inversion H1. Qed.

Lemma escape_not_quoted s : not_quoted (escape_param s).
Proof. intros t H. apply (escape_param_safe s 34); [now left|]. rewrite H. now left. Qed.

(** Parsing makes the quoting explicit. *)
Definition requote (p : pval) : pval :=
  match p with
  | PQuoted s => PQuoted s
  | PRaw s => if needs_quote s then PQuoted s else PRaw s
  end.

Lemma GVals_serialize vs rest :
  wf_pvals vs -> at_delim rest -> GVals (serialize_pvals vs ++ rest) (map requote vs) rest.
Proof.
  unfold serialize_pvals. intros (Hne & Hcr & Hlast) Hd.
  induction vs as [|v vs IH]; [easy|].
  assert (Hv : ~ In 13 (pval_str v)) by (apply Hcr; now left).
  destruct vs as [|v2 vs].
  - cbn [map join]. clear IH. destruct v as [s|s]; cbn [serialize_pval requote pval_str] in *.
    + destruct (needs_quote s) eqn:Eq.
      * cbn [app]. rewrite <- app_assoc. cbn [app]. apply GV_quoted_last; [|now apply Caret_escape|easy].
        apply notin_none, escape_param_safe. now left.
      * apply GV_raw_last; [|apply escape_not_quoted| |now apply Caret_escape|easy].
        -- intros E. apply Hlast. cbn. f_equal. now apply escape_param_nil.
        -- apply escape_param_none; [cbn; lia..|]. now apply needs_quote_false.
    + cbn [app]. rewrite <- app_assoc. cbn [app]. apply GV_quoted_last; [|now apply Caret_escape|easy].
      apply notin_none, escape_param_safe. now left.
  - change (map serialize_pval (v :: v2 :: vs)) with (serialize_pval v :: serialize_pval v2 :: map serialize_pval vs).
    rewrite join_cons2. cbn [map]. rewrite <- !app_assoc. cbn [app].
    assert (HI : GVals (join [44] (serialize_pval v2 :: map serialize_pval vs) ++ rest)
                   (requote v2 :: map requote vs) rest).
    { apply IH; [easy| |easy]. intros w Hw. apply Hcr. now right. }
    destruct v as [s|s]; cbn [serialize_pval requote pval_str] in *.
    + destruct (needs_quote s) eqn:Eq.
      * cbn [app]. rewrite <- app_assoc. cbn [app]. apply GV_quoted_more; [|now apply Caret_escape|easy].
        apply notin_none, escape_param_safe. now left.
      * apply GV_raw_more; [apply escape_not_quoted| |now apply Caret_escape|easy].
        apply escape_param_none; [cbn; lia..|]. now apply needs_quote_false.
    + cbn [app]. rewrite <- app_assoc. cbn [app]. apply GV_quoted_more; [|now apply Caret_escape|easy].
      apply notin_none, escape_param_safe. now left.
Qed.

Lemma at_delim_params ps v : at_delim (serialize_params ps ++ 58 :: v).
Proof.
  destruct ps as [|[k vs] ps].
  - exists 58, v. split; [easy|now left].
  - unfold serialize_params. cbn [flat_map fst snd app]. eexists _, _. split; [reflexivity|now right].
Qed.

Lemma GRest_serialize ps v :
  (forall k vs, In (k, vs) ps -> none_of [61; 58; 59] k /\ wf_pvals vs) ->
  GRest (serialize_params ps ++ 58 :: v) (map (fun kv => (fst kv, map requote (snd kv))) ps) v.
Proof.
  induction ps as [|[k vs] ps IH]; intros H; [constructor|].
  unfold serialize_params. cbn [flat_map fst snd map].
  fold (serialize_params ps). repeat (rewrite <- !app_assoc; cbn [app]).
  destruct (H k vs) as [Hk Hv]; [now left|].
  apply GR_param with (serialize_params ps ++ 58 :: v).
  - easy.
  - apply GVals_serialize; [easy|apply at_delim_params].
  - apply IH. intros k' vs' Hin. apply H. now right.
Qed.

Lemma assign_all_nodup ps :
  NoDup (map fst ps) -> assign_all ps = ps.
Proof.
  unfold assign_all, dict_update.
  assert (G : forall acc, NoDup (map fst (acc ++ ps)) ->
    fold_left (fun a kv => dict_set (fst kv) (snd kv) a) ps acc = acc ++ ps).
  { induction ps as [|[k vs] ps IH]; intros acc H; cbn [fold_left]; [now rewrite app_nil_r|].
    cbn [fst snd]. rewrite dict_set_new.
    - rewrite IH; rewrite <- app_assoc; easy.
    - rewrite map_app in H. cbn in H. apply NoDup_remove_2 in H.
      intros Hin. apply H. apply in_or_app. now left. }
  intros H. now apply (G []).
Qed.

Definition requote_line (cl : content_line) : content_line :=
  mk_line (cl_name cl) (map (fun kv => (fst kv, map requote (snd kv))) (cl_params cl)) (cl_value cl).

Lemma line_roundtrip_exact cl :
  wf_line cl -> parse_line (serialize_unwrapped cl false) = Ok (requote_line cl).
Proof.
  intros (Hn & Hu & Hnd & Hps). destruct cl as [name ps v]. cbn [cl_name cl_params cl_value] in *.
  unfold serialize_unwrapped. cbn [cl_name cl_params cl_value]. rewrite app_nil_r.
  rewrite (parse_line_complete _ name (map (fun kv => (fst kv, map requote (snd kv))) ps) v).
  - unfold ContentLine, requote_line. cbn. rewrite Hu. do 2 f_equal.
    apply assign_all_nodup. rewrite map_map. cbn. exact Hnd.
  - exists (serialize_params ps ++ 58 :: v). repeat split; [easy|]. now apply GRest_serialize.
Qed.

Lemma requote_str p : pval_str (requote p) = pval_str p.
Proof. destruct p as [s|s]; cbn; [|easy]. now destruct (needs_quote s). Qed.

Lemma requote_line_eq cl : line_eq (requote_line cl) cl.
Proof.
  repeat split. cbn. rewrite map_map. apply map_ext. intros [k vs]. cbn. f_equal.
  rewrite map_map. apply map_ext. apply requote_str.
Qed.

Lemma line_roundtrip cl :
  wf_line cl -> exists cl', parse_line (serialize_unwrapped cl false) = Ok cl' /\ line_eq cl' cl.
Proof.
  intros H. exists (requote_line cl). split; [now apply line_roundtrip_exact|apply requote_line_eq].
Qed.
