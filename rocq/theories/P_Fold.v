(** * Proofs about folding *)
From Verif Require Import M_Base P_Base M_Line S_Line P_Line M_Fold S_Fold.
From Coq Require Import Lia ZifyBool ZifyNat ZifyN.

Definition slen (l : list str) : nat := length (concat l).
Lemma slen_app a b : slen (a ++ b) = (slen a + slen b)%nat.
Proof. unfold slen. now rewrite concat_app, app_length. Qed.

Lemma take_fitting_spec width : forall chunks cl n cl' n' rest,
  (n <= width)%nat ->
  take_fitting width cl n chunks = (cl', n', rest) ->
  exists moved, cl' = cl ++ moved /\ chunks = moved ++ rest /\
    n' = (n + slen moved)%nat /\ (n' <= width)%nat /\
    match rest with [] => True | ch :: _ => (width < n' + length ch)%nat end.
Proof.
  induction chunks as [|ch chunks IH]; intros cl n cl' n' rest Hn H; cbn in H.
  - injection H as <- <- <-. exists []. rewrite app_nil_r. cbn. repeat split; lia.
  - destruct (Nat.leb_spec (n + length ch) width).
    + apply IH in H as (moved & -> & -> & -> & H1 & H2); [|lia].
      exists (ch :: moved). rewrite <- app_assoc. cbn [app].
      split; [easy|]. split; [easy|]. unfold slen in *. cbn. rewrite app_length.
      split; [lia|]. split; [lia|]. destruct rest; [easy|]. lia.
    + injection H as <- <- <-. exists []. rewrite app_nil_r. cbn.
      repeat split; lia.
Qed.

Lemma rfind_dash_lt chunk n h : rfind_dash chunk n = Some h -> (h < n /\ h < length chunk)%nat.
Proof.
  unfold rfind_dash. destruct (find_char c_dash _) as [k|] eqn:E; [|easy].
  apply find_char_Some in E as (_ & _ & H). rewrite rev_length in H.
  pose proof (firstn_le_length n chunk). rewrite firstn_length in *.
  intros [= <-]. lia.
Qed.

Lemma long_word_end_bounds hy chunk cur_len width :
  (cur_len <= width)%nat -> (width < length chunk)%nat ->
  let e := long_word_end hy chunk cur_len width in
  (e <= length chunk)%nat /\
  ((1 <= width)%nat -> (cur_len + e <= width)%nat) /\
  (cur_len = 0%nat -> (1 <= e)%nat).
Proof.
  intros H1 H2. cbn zeta. unfold long_word_end.
  set (sl := if Nat.ltb width 1 then 1%nat else (width - cur_len)%nat).
  assert (Hsl : (sl <= length chunk)%nat /\ ((1 <= width)%nat -> (cur_len + sl <= width)%nat)
                /\ (cur_len = 0%nat -> (1 <= sl)%nat)).
  { unfold sl. destruct (Nat.ltb_spec width 1); lia. }
  destruct (hy && Nat.ltb sl (length chunk)); [|easy].
  destruct (rfind_dash chunk sl) as [h|] eqn:E; [|easy].
  apply rfind_dash_lt in E.
  destruct (Nat.ltb 0 h && _); [lia|easy].
Qed.

Fixpoint mu (chunks : list str) : nat :=
  match chunks with [] => 0 | c :: l => S (length c) + mu l end%nat.
Lemma mu_app a b : mu (a ++ b) = (mu a + mu b)%nat.
Proof. induction a as [|x a IH]; cbn; [easy|]. rewrite IH. lia. Qed.
Lemma mu_pos a : a <> [] -> (0 < mu a)%nat.
Proof. destruct a; [easy|]. cbn. lia. Qed.

(** The physical lines made of pieces. *)
Definition indented (first : bool) (ps : list str) : list str :=
  match ps with
  | [] => []
  | p :: ps' => (if first then p else 32 :: p) :: map (cons 32) ps'
  end.
Lemma indented_false ps : indented false ps = map (cons 32) ps.
Proof. now destruct ps. Qed.

Lemma wrap_loop_spec hy W : (1 <= W)%nat -> forall fuel first chunks,
  (mu chunks < fuel)%nat ->
  exists ps,
    wrap_loop hy fuel W first chunks = Ok (indented first ps) /\
    concat ps = concat chunks /\
    ((2 <= W)%nat -> forall l, In l (indented first ps) -> (length l <= W)%nat) /\
    ((2 <= W)%nat \/ first = true -> (forall c, In c chunks -> c <> []) ->
      match ps with [] => chunks = [] | p :: _ => p <> [] end) /\
    ((2 <= W)%nat -> (forall c, In c chunks -> c <> []) -> forall p, In p ps -> p <> []) /\
    (first = true -> concat chunks <> [] -> match ps with [] => False | p :: _ => p <> [] end).
Proof.
  intros HW. induction fuel as [|f IH]; intros first chunks Hf; [lia|].
  cbn [wrap_loop]. destruct chunks as [|ch0 chunks0].
  { exists []. cbn. repeat split; easy. }
  remember (ch0 :: chunks0) as chunks eqn:Hch.
  assert (Hne : chunks <> []) by (subst; easy). clear Hch ch0 chunks0.
  set (indent := if first then [] else [c_space]).
  set (width := (W - length indent)%nat).
  destruct (take_fitting width [] 0%nat chunks) as [[cl n] rest] eqn:ET.
  apply take_fitting_spec in ET as (moved & -> & -> & -> & Hn & Hrest); [|lia].
  rewrite Nat.add_0_l in *. cbn [app] in *.
  assert (Hw : (length indent + width = W)%nat).
  { unfold width, indent. destruct first; cbn; lia. }
  assert (Hind : indent = [] /\ first = true \/ indent = [32] /\ first = false).
  { unfold indent. destruct first; auto. }
  (* what the long-word step does *)
  assert (HL : exists taken rest',
    (match rest with
     | ch :: rest0 =>
         if Nat.ltb width (length ch) then
           (moved ++ [firstn (long_word_end hy ch (slen moved) width) ch],
            skipn (long_word_end hy ch (slen moved) width) ch :: rest0)
         else (moved, rest)
     | [] => (moved, rest)
     end) = (taken, rest') /\
    concat taken ++ concat rest' = concat (moved ++ rest) /\
    taken <> [] /\ (mu rest' < mu (moved ++ rest))%nat /\
    ((1 <= width)%nat -> (slen taken <= width)%nat) /\
    ((1 <= width)%nat -> (forall c, In c (moved ++ rest) -> c <> []) ->
       (forall c, In c rest' -> c <> []) /\ concat taken <> []) /\
    (concat (moved ++ rest) <> [] -> concat taken <> [])).
  { destruct rest as [|ch rest].
    - exists moved, []. split; [easy|]. rewrite !app_nil_r in *.
      split; [easy|]. split; [easy|]. split; [now apply mu_pos|].
      split; [easy|]. split.
      + intros _ Hc. split; [easy|]. destruct moved as [|m moved]; [easy|].
        specialize (Hc m (or_introl eq_refl)). cbn. now destruct m.
      + easy.
    - destruct (Nat.ltb_spec width (length ch)) as [Hlong|Hfit].
      + destruct (long_word_end_bounds hy ch (slen moved) width Hn Hlong) as (B1 & B2 & B3).
        set (e := long_word_end hy ch (slen moved) width) in *.
        exists (moved ++ [firstn e ch]), (skipn e ch :: rest). split; [easy|].
        split. { rewrite !concat_app. cbn [concat]. rewrite app_nil_r, <- app_assoc.
                 f_equal. rewrite app_assoc. now rewrite firstn_skipn. }
        split; [now destruct moved|].
        split. { rewrite mu_app. cbn [mu]. rewrite skipn_length.
                 destruct moved as [|m moved]; [|pose proof (mu_pos (m :: moved)); cbn in *; lia].
                 cbn in *. unfold slen in B3. cbn in B3. specialize (B3 eq_refl). lia. }
        split. { intros Hw1. specialize (B2 Hw1). rewrite slen_app. unfold slen at 2. cbn.
                 rewrite app_nil_r, firstn_length. lia. }
        split.
        * intros Hw1 Hc. split.
          -- intros c [<-|Hin]; [|apply Hc, in_or_app; right; now right].
             intros Hnil. apply (f_equal (@length N)) in Hnil. rewrite skipn_length in Hnil.
             cbn in Hnil. specialize (B2 Hw1). lia.
          -- rewrite concat_app. destruct moved as [|m moved].
             ++ cbn. rewrite app_nil_r. intros Hnil. apply (f_equal (@length N)) in Hnil.
                rewrite firstn_length in Hnil. cbn in Hnil. specialize (B3 eq_refl). lia.
             ++ specialize (Hc m (or_introl eq_refl)). cbn. now destruct m.
        * intros Hc. rewrite concat_app. cbn [concat]. rewrite app_nil_r.
          destruct (concat moved) as [|x xs] eqn:Ecm; [|easy].
          unfold slen in B3. rewrite Ecm in B3. specialize (B3 eq_refl).
          cbn [app]. intros Hnil. apply (f_equal (@length N)) in Hnil.
          rewrite firstn_length in Hnil. cbn in Hnil. lia.
      + exists moved, (ch :: rest). split; [easy|]. split; [now rewrite concat_app|].
        assert (Hmv : concat moved <> []).
        { intros Hnil. unfold slen in Hrest. rewrite Hnil in Hrest. cbn in Hrest. lia. }
        assert (Hmv2 : moved <> []) by (intros ->; easy).
        split; [easy|].
        split. { rewrite mu_app. pose proof (mu_pos moved Hmv2). lia. }
        split; [easy|]. split; [|easy].
        intros _ Hc. split; [|easy]. intros c Hin. apply Hc, in_or_app. now right. }
  destruct HL as (taken & rest' & -> & Hcat & Htk & Hmu & Hlen & Hnem & Hhd).
  destruct (IH false rest' ltac:(lia)) as (ps & E & HP1 & HP2 & HP3 & HP4 & HP5).
  rewrite E. destruct taken as [|t0 taken]; [easy|]. cbn [bind].
  exists (concat (t0 :: taken) :: ps).
  split. { f_equal. rewrite indented_false. cbn [indented].
           destruct Hind as [[-> ->]|[-> ->]]; reflexivity. }
  split. { cbn [concat] in *. rewrite HP1. exact Hcat. }
  split.
  { intros HW2 l Hl. assert (Hw1 : (1 <= width)%nat).
    { destruct Hind as [[Hi _]|[Hi _]]; rewrite Hi in Hw; cbn in Hw; lia. }
    specialize (Hlen Hw1). cbn [indented In] in Hl. destruct Hl as [<-|Hl].
    - unfold slen in Hlen. destruct Hind as [[Hi ->]|[Hi ->]]; rewrite Hi in Hw; cbn [length] in *; lia.
    - apply HP2; [easy|]. now rewrite indented_false. }
  split.
  { intros Hor Hc. apply Hnem; [|easy].
    destruct Hind as [[Hi _]|[Hi ->]]; rewrite Hi in Hw; cbn in Hw; destruct Hor; lia || easy. }
  split.
  { intros HW2 Hc p Hp. assert (Hw1 : (1 <= width)%nat).
    { destruct Hind as [[Hi _]|[Hi _]]; rewrite Hi in Hw; cbn in Hw; lia. }
    destruct (Hnem Hw1 Hc) as [N1 N2]. destruct Hp as [<-|Hp]; [easy|].
    now apply HP4. }
  intros _ Hc. now apply Hhd.
Qed.

Lemma wrap_fuel_mu l : (mu l < wrap_fuel l)%nat.
Proof.
  unfold wrap_fuel. apply Nat.lt_succ_r. induction l as [|c l IH]; [easy|].
  cbn [mu fold_right]. lia.
Qed.

Lemma concat_filter_nonempty (l : list str) :
  concat (filter (fun c => match c with [] => false | _ => true end) l) = concat l.
Proof. induction l as [|x l IH]; [easy|]. cbn. destruct x; cbn; now rewrite IH. Qed.


Lemma wrap_spec hy resplit W text :
  splitter resplit -> (1 <= W)%nat -> text <> [] ->
  exists p ps, wrap hy resplit W text = Ok (p :: map (cons 32) ps) /\
    concat (p :: ps) = text /\ p <> [] /\
    ((2 <= W)%nat -> forall l, In l (p :: map (cons 32) ps) -> (length l <= W)%nat) /\
    ((2 <= W)%nat -> forall q, In q ps -> q <> []).
Proof.
  intros HS HW Ht. unfold wrap. destruct (Nat.leb_spec W 0); [lia|].
  destruct (wrap_loop_spec hy W HW (wrap_fuel (split_chunks resplit text)) true (split_chunks resplit text))
    as (ps & E & H1 & H2 & H3 & H4 & H5).
  { apply wrap_fuel_mu. }
  unfold split_chunks in H1, H5. rewrite concat_filter_nonempty, HS in H1, H5.
  specialize (H5 eq_refl Ht). destruct ps as [|p ps]; [easy|].
  exists p, ps. split; [exact E|]. split; [exact H1|]. split; [exact H5|]. split; [exact H2|].
  intros HW2 q Hq. apply (H4 HW2); [|now right].
  intros c Hc. apply filter_In in Hc. destruct c; easy.
Qed.

(** ** string_to_lines *)
Lemma string_to_lines_nonempty s : string_to_lines s <> [].
Proof.
  destruct s as [|c s]; [easy|]. cbn [string_to_lines].
  destruct (c =? c_cr).
  - destruct s as [|c2 s]; [easy|]. now destruct (c2 =? c_lf).
  - destruct (c =? c_lf); [easy|]. now destruct (string_to_lines s).
Qed.

Lemma stl_crlf s b : string_to_lines (s ++ 13 :: 10 :: b) = string_to_lines s ++ string_to_lines b.
Proof.
  induction s as [s IH] using list_len_ind. destruct s as [|c s]; [reflexivity|].
  cbn [app string_to_lines]. destruct (N.eqb_spec c c_cr) as [->|Hc].
  - destruct s as [|c2 s].
    + reflexivity.
    + cbn [app]. destruct (N.eqb_spec c2 c_lf) as [->|Hc2].
      * rewrite (IH s) by (cbn; lia). reflexivity.
      * change (c2 :: s ++ 13 :: 10 :: b) with ((c2 :: s) ++ 13 :: 10 :: b).
        rewrite (IH (c2 :: s)) by (cbn; lia). reflexivity.
  - destruct (c =? c_lf).
    + rewrite (IH s) by (cbn; lia). reflexivity.
    + rewrite (IH s) by (cbn; lia).
      destruct (string_to_lines s) eqn:E; [now apply string_to_lines_nonempty in E|]. reflexivity.
Qed.

Lemma stl_join ls : ls <> [] -> string_to_lines (join [13; 10] ls) = flat_map string_to_lines ls.
Proof.
  induction ls as [|x [|y ls] IH]; intros H; [easy| |].
  - cbn. now rewrite app_nil_r.
  - rewrite join_cons2. cbn [app]. rewrite stl_crlf, IH by easy. reflexivity.
Qed.

Lemma no_break_cons c s : no_break (c :: s) <-> (c <> 13 /\ c <> 10) /\ no_break s.
Proof. unfold no_break. rewrite none_of_cons. cbn. intuition. Qed.
Lemma no_break_app a b : no_break (a ++ b) <-> no_break a /\ no_break b.
Proof. apply none_of_app. Qed.
Lemma no_break_nil : no_break [].
Proof. apply none_of_nil. Qed.

Lemma stl_app_no_break u w :
  no_break u ->
  string_to_lines (u ++ w) =
  match string_to_lines w with [] => [] | x :: xs => (u ++ x) :: xs end.
Proof.
  induction u as [|c u IH]; intros H; cbn [app].
  - destruct (string_to_lines w) eqn:E; [now apply string_to_lines_nonempty in E|easy].
  - apply no_break_cons in H as [[H1 H2] H3]. cbn [string_to_lines].
    unfold c_cr, c_lf. destruct (N.eqb_spec c 13); [easy|]. destruct (N.eqb_spec c 10); [easy|].
    rewrite IH by easy. destruct (string_to_lines w) eqn:E; [now apply string_to_lines_nonempty in E|easy].
Qed.

Lemma stl_no_break u : no_break u -> string_to_lines u = [u].
Proof.
  intros H. rewrite <- (app_nil_r u) at 1. rewrite stl_app_no_break by easy. cbn.
  now rewrite app_nil_r.
Qed.

Definition all_breaks (w : str) : Prop := forall c, In c w -> c = 13 \/ c = 10.

Lemma stl_all_breaks w : all_breaks w -> forall x, In x (string_to_lines w) -> x = [].
Proof.
  induction w as [w IH] using list_len_ind. intros H x Hx.
  destruct w as [|c w]; cbn [string_to_lines] in Hx.
  - destruct Hx as [<-|[]]. easy.
  - assert (Hw : all_breaks w) by (intros d Hd; apply H; now right).
    destruct (N.eqb_spec c c_cr).
    + destruct w as [|c2 w].
      * cbn in Hx. destruct Hx as [<-|[<-|[]]]; easy.
      * destruct (c2 =? c_lf).
        -- destruct Hx as [<-|Hx]; [easy|]. apply (IH w); [cbn; lia| |easy].
           intros d Hd. apply Hw. now right.
        -- destruct Hx as [<-|Hx]; [easy|]. apply (IH (c2 :: w)); [cbn; lia|easy|easy].
    + destruct (N.eqb_spec c c_lf).
      * destruct Hx as [<-|Hx]; [easy|]. apply (IH w); [cbn; lia|easy|easy].
      * exfalso. unfold c_cr, c_lf in *. destruct (H c); [now left|easy|easy].
Qed.

Lemma string_to_lines_no_break s : forall l, In l (string_to_lines s) -> no_break l.
Proof.
  induction s as [s IH] using list_len_ind. intros l H.
  destruct s as [|c s]; cbn [string_to_lines] in H.
  - destruct H as [<-|[]]. apply no_break_nil.
  - destruct (N.eqb_spec c c_cr) as [->|Hc].
    + destruct s as [|c2 s].
      * destruct H as [<-|[<-|[]]]; apply no_break_nil.
      * destruct (c2 =? c_lf); (destruct H as [<-|H]; [apply no_break_nil|]).
        -- apply (IH s); [cbn; lia|easy].
        -- apply (IH (c2 :: s)); [cbn; lia|easy].
    + destruct (N.eqb_spec c c_lf) as [->|Hc2].
      * destruct H as [<-|H]; [apply no_break_nil|]. apply (IH s); [cbn; lia|easy].
      * destruct (string_to_lines s) as [|w ws] eqn:E; [now apply string_to_lines_nonempty in E|].
        destruct H as [<-|H].
        -- apply no_break_cons. split; [easy|]. apply (IH s); [cbn; lia|]. rewrite E. now left.
        -- apply (IH s); [cbn; lia|]. rewrite E. now right.
Qed.

(** ** unfold_lines *)
Lemma existsb_break l : no_break l -> existsb is_break l = false.
Proof.
  intros H. apply not_true_is_false. rewrite existsb_exists. intros (c & Hin & Hc).
  unfold is_break, c_cr, c_lf in Hc. apply (H c); [cbn; lia|easy].
Qed.

Lemma lstrip_no_break l : no_break l -> lstrip_breaks l = l.
Proof.
  destruct l as [|c l]; [easy|]. intros H. apply no_break_cons in H as [[H1 H2] _].
  cbn. unfold is_break, c_cr, c_lf. destruct (N.eqb_spec c 13); [easy|].
  destruct (N.eqb_spec c 10); easy.
Qed.
Lemma no_break_rev l : no_break l -> no_break (rev l).
Proof. intros H c Hc Hin. apply (H c Hc). now apply in_rev. Qed.
Lemma rstrip_no_break l : no_break l -> rstrip_breaks l = l.
Proof.
  intros H. unfold rstrip_breaks. rewrite lstrip_no_break by now apply no_break_rev.
  apply rev_involutive.
Qed.

Lemma is_blank_iff c : is_blank c = true <-> blank c.
Proof. unfold is_blank, blank, c_space, c_tab. lia. Qed.


Lemma unfold_filter ls : forall n m cur cur',
  (match cur, cur' with
   | None, None => True | Some (_, a), Some (_, b) => a = b | _, _ => False end) ->
  gsnd (unfold_from n cur ls) =
  gsnd (unfold_from m cur' (filter (fun c => match c with [] => false | _ => true end) ls)).
Proof.
  induction ls as [|l ls IH]; intros n m cur cur' H.
  - cbn. destruct cur as [[a b]|], cur' as [[c d]|]; try easy. cbn in *. now subst.
  - cbn [unfold_from filter]. destruct l as [|c0 l0].
    + change (rstrip_breaks []) with (@nil N). now apply IH.
    + cbn [unfold_from]. destruct (rstrip_breaks (c0 :: l0)) as [|c rest].
      { now apply IH. }
      destruct (existsb is_break (c :: rest)); [reflexivity|].
      destruct cur as [[a b]|], cur' as [[x y]|]; try easy.
      * subst. destruct (is_blank c).
        -- now apply IH.
        -- unfold gsnd, gcons. cbn. f_equal.
           ++ f_equal. apply (f_equal fst (IH (S n) (S m) (Some (n, c :: rest)) (Some (m, c :: rest)) eq_refl)).
           ++ apply (f_equal snd (IH (S n) (S m) (Some (n, c :: rest)) (Some (m, c :: rest)) eq_refl)).
      * destruct (is_blank c); [reflexivity|]. now apply IH.
Qed.

(** Consuming one folded logical line. *)
Lemma FoldOf_head t ls : FoldOf t ls -> exists t0 tl0, ls = t0 :: tl0 /\ logical t0.
Proof.
  induction 1 as [t H|t ls b p H IH Hb Hp|t ls H IH].
  - now exists t, [].
  - destruct IH as (t0 & tl0 & -> & Hl). now exists t0, (tl0 ++ [b :: p]).
  - destruct IH as (t0 & tl0 & -> & Hl). now exists t0, (tl0 ++ [[]]).
Qed.

Lemma unfold_logical t n cur more :
  logical t ->
  unfold_from n cur (t :: more) =
  match cur with
  | None => unfold_from (S n) (Some (n, t)) more
  | Some p => gcons p (unfold_from (S n) (Some (n, t)) more)
  end.
Proof.
  intros (Hne & Hnb & Hbl). cbn [unfold_from]. rewrite rstrip_no_break by easy.
  destruct t as [|c t]; [easy|]. rewrite existsb_break by easy.
  assert (Hb : is_blank c = false).
  { apply not_true_is_false. rewrite is_blank_iff. intros Hb. apply Hbl. now exists c, t. }
  rewrite Hb. destruct cur as [[a b]|]; reflexivity.
Qed.

Lemma unfold_fold t ls : FoldOf t ls -> forall n cur more,
  unfold_from n cur (ls ++ more) =
  match cur with
  | None => unfold_from (n + length ls) (Some (n, t)) more
  | Some p => gcons p (unfold_from (n + length ls) (Some (n, t)) more)
  end.
Proof.
  induction 1 as [t H|t ls b p H IH Hb Hp|t ls H IH]; intros n cur more.
  - cbn [app length]. rewrite unfold_logical by easy. rewrite Nat.add_1_r. reflexivity.
  - rewrite <- app_assoc. rewrite IH. cbn [app]. rewrite app_length. cbn [length].
    assert (E : forall k, unfold_from k (Some (n, t)) ((b :: p) :: more) =
                          unfold_from (S k) (Some (n, t ++ p)) more).
    { intros k. cbn [unfold_from]. 
      assert (Hnb : no_break (b :: p)).
      { apply no_break_cons. split; [|easy]. destruct Hb; subst; lia. }
      rewrite rstrip_no_break, existsb_break by easy.
      apply is_blank_iff in Hb. now rewrite Hb. }
    rewrite E. replace (n + (length ls + 1))%nat with (S (n + length ls)) by lia. reflexivity.
  - rewrite <- app_assoc. rewrite IH. cbn [app]. rewrite app_length. cbn [length].
    assert (E : forall k, unfold_from k (Some (n, t)) ([] :: more) =
                          unfold_from (S k) (Some (n, t)) more) by reflexivity.
    rewrite E. replace (n + (length ls + 1))%nat with (S (n + length ls)) by lia. reflexivity.
Qed.

Lemma unfold_folds ts lss : Forall2 FoldOf ts lss -> forall n cur,
  unfold_from n cur (concat lss) =
  match cur with
  | None => (numbered n ts lss, None)
  | Some p => (p :: numbered n ts lss, None)
  end.
Proof.
  induction 1 as [|t ls ts lss HF H IH]; intros n cur; cbn [concat numbered].
  - now destruct cur as [[a b]|].
  - rewrite (unfold_fold _ _ HF). rewrite IH. destruct cur; reflexivity.
Qed.

Lemma unfold_leading_empty k : forall n ls, unfold_from n None (repeat [] k ++ ls) = unfold_from (n + k) None ls.
Proof.
  induction k as [|k IH]; intros n ls; cbn [repeat app].
  - now rewrite Nat.add_0_r.
  - change (unfold_from (S n) None (repeat [] k ++ ls) = unfold_from (n + S k) None ls).
    rewrite IH. f_equal. lia.
Qed.

Lemma unfold_lines_fold k ts lss :
  Forall2 FoldOf ts lss ->
  unfold_lines (repeat [] k ++ concat lss) = (numbered k ts lss, None).
Proof.
  intros H. unfold unfold_lines. rewrite unfold_leading_empty. now rewrite (unfold_folds _ _ H).
Qed.

Lemma numbered_snd n ts lss : Forall2 FoldOf ts lss -> map snd (numbered n ts lss) = ts.
Proof.
  intros H. revert n. induction H as [|t ls ts lss HF H IH]; intros n; [easy|].
  cbn. now rewrite IH.
Qed.

(** Line ends do not matter. *)

Lemma stl_rendered ls txt :
  Rendered ls txt -> filter nonempty (string_to_lines txt) = filter nonempty ls.
Proof.
  induction 1 as [l H|l e H He|l e ls txt H He HR IH].
  - now rewrite stl_no_break.
  - rewrite stl_app_no_break by easy. destruct He as [->|[->| ->]]; cbn; rewrite app_nil_r;
      destruct l; reflexivity.
  - rewrite stl_app_no_break by easy.
    assert (HE : filter nonempty (match string_to_lines (e ++ txt) with
                 | [] => [] | x :: xs => (l ++ x) :: xs end) =
                 filter nonempty (l :: string_to_lines txt)).
    { destruct He as [->|[->| ->]]; cbn [app].
      - change (string_to_lines (13 :: 10 :: txt)) with ([] :: string_to_lines txt).
        cbn iota. now rewrite app_nil_r.
      - change (string_to_lines (10 :: txt)) with ([] :: string_to_lines txt).
        cbn iota. now rewrite app_nil_r.
      - cbn [string_to_lines]. change (13 =? c_cr) with true. cbn iota.
        destruct txt as [|c2 txt]; [now rewrite app_nil_r|].
        destruct (N.eqb_spec c2 c_lf) as [->|Hc2]; rewrite app_nil_r; [|easy].
        cbn [filter]. destruct (nonempty l); reflexivity. }
    rewrite HE. cbn [filter]. now rewrite IH.
Qed.

Lemma unfold_rendered ls txt :
  Rendered ls txt ->
  gsnd (unfold_lines (string_to_lines txt)) = gsnd (unfold_lines ls).
Proof.
  intros H. unfold unfold_lines.
  rewrite (unfold_filter _ 0 0 None None I).
  rewrite (unfold_filter ls 0 0 None None I). 
  change (fun c : list N => match c with [] => false | _ => true end) with nonempty.
  now rewrite (stl_rendered _ _ H).
Qed.

Lemma foreign_folding k ts lss txt :
  Forall2 FoldOf ts lss -> Rendered (repeat [] k ++ concat lss) txt ->
  gsnd (unfold_lines (string_to_lines txt)) = (ts, None).
Proof.
  intros HF HR. rewrite (unfold_rendered _ _ HR), (unfold_lines_fold _ _ _ HF).
  unfold gsnd. cbn. now rewrite (numbered_snd _ _ _ HF).
Qed.

(** Errors: exactly when the first non-empty physical line starts with a blank. *)
Lemma unfold_cur_no_err ls : forall n p,
  (forall l, In l ls -> no_break l) -> snd (unfold_from n (Some p) ls) = None.
Proof.
  induction ls as [|l ls IH]; intros n [nr acc] H; [easy|].
  cbn [unfold_from]. rewrite rstrip_no_break by (apply H; now left).
  assert (H' : forall l, In l ls -> no_break l) by (intros; apply H; now right).
  destruct l as [|c l]; [now apply IH|].
  rewrite existsb_break by (apply H; now left).
  destruct (is_blank c); [now apply IH|]. cbn. now apply IH.
Qed.

Lemma unfold_error_iff ls :
  (forall l, In l ls -> no_break l) ->
  snd (unfold_lines ls) =
  match filter nonempty ls with
  | (c :: _) :: _ => if is_blank c then Some ParseError else None
  | _ => None
  end.
Proof.
  unfold unfold_lines. generalize 0%nat.
  induction ls as [|l ls IH]; intros n H; [easy|].
  cbn [unfold_from filter]. rewrite rstrip_no_break by (apply H; now left).
  assert (H' : forall l, In l ls -> no_break l) by (intros; apply H; now right).
  destruct l as [|c l]; cbn [nonempty]; [now apply IH|].
  rewrite existsb_break by (apply H; now left).
  destruct (is_blank c); [reflexivity|]. now apply unfold_cur_no_err.
Qed.

Lemma unfold_string_error txt :
  snd (unfold_lines (string_to_lines txt)) =
  match filter nonempty (string_to_lines txt) with
  | (c :: _) :: _ => if is_blank c then Some ParseError else None
  | _ => None
  end.
Proof. apply unfold_error_iff. apply string_to_lines_no_break. Qed.

(** ** Folding what the library writes *)
(** A piece: line-break free text followed by line breaks only. *)
Definition piece (p : str) : Prop := exists u w, p = u ++ w /\ no_break u /\ all_breaks w.
Definition nb (p : str) : str := filter (fun c => negb (is_break c)) p.

Lemma nb_no_break u : no_break u -> nb u = u.
Proof.
  induction u as [|c u IH]; intros H; [easy|]. apply no_break_cons in H as [[H1 H2] H3].
  cbn. unfold is_break, c_cr, c_lf. destruct (N.eqb_spec c 13); [easy|].
  destruct (N.eqb_spec c 10); [easy|]. cbn. f_equal. now apply IH.
Qed.
Lemma nb_all_breaks w : all_breaks w -> nb w = [].
Proof.
  induction w as [|c w IH]; intros H; [easy|]. cbn.
  destruct (H c) as [->| ->]; [now left| |]; cbn; apply IH; intros d Hd; apply H; now right.
Qed.
Lemma nb_app a b : nb (a ++ b) = nb a ++ nb b.
Proof. apply filter_app. Qed.
Lemma nb_concat ps : nb (concat ps) = concat (map nb ps).
Proof. induction ps as [|p ps IH]; [easy|]. cbn. now rewrite nb_app, IH. Qed.

Lemma unfold_skip_empty ls : forall more n cur, (forall x, In x ls -> x = []) ->
  unfold_from n cur (ls ++ more) = unfold_from (n + length ls) cur more.
Proof.
  induction ls as [|l ls IH]; intros more n cur H; cbn [app length].
  - now rewrite Nat.add_0_r.
  - rewrite (H l) by now left. change (unfold_from (S n) cur (ls ++ more) = unfold_from (n + S (length ls)) cur more).
    rewrite IH by (intros; apply H; now right). f_equal. lia.
Qed.

Lemma unfold_pieces ps : forall n nr acc,
  (forall p, In p ps -> piece p) ->
  gsnd (unfold_from n (Some (nr, acc)) (flat_map string_to_lines (map (cons 32) ps))) =
  ([acc ++ concat (map nb ps)], None).
Proof.
  induction ps as [|p ps IH]; intros n nr acc H; cbn [map flat_map concat].
  - cbn. now rewrite app_nil_r.
  - destruct (H p) as (u & w & -> & Hu & Hw); [now left|].
    change (32 :: u ++ w) with ((32 :: u) ++ w).
    assert (Hnb : no_break (32 :: u)) by (apply no_break_cons; split; [lia|easy]).
    rewrite stl_app_no_break by easy.
    destruct (string_to_lines w) as [|x xs] eqn:E; [now apply string_to_lines_nonempty in E|].
    assert (Hx : forall y, In y (x :: xs) -> y = []) by (rewrite <- E; now apply stl_all_breaks).
    rewrite (Hx x) by now left. rewrite app_nil_r. cbn [app].
    cbn [unfold_from]. rewrite rstrip_no_break, existsb_break by easy.
    change (is_blank 32) with true. cbn iota.
    rewrite unfold_skip_empty by (intros; apply Hx; now right).
    rewrite IH by (intros; apply H; now right).
    rewrite nb_app, nb_no_break, (nb_all_breaks w), app_nil_r, <- app_assoc by easy. reflexivity.
Qed.

Lemma unfold_folded p ps t :
  (forall q, In q (p :: ps) -> piece q) -> nb (concat (p :: ps)) = t -> ~ starts_blank p ->
  (exists c q, p = c :: q /\ c <> 13 /\ c <> 10) ->
  gsnd (unfold_lines (string_to_lines (join [13; 10] (p :: map (cons 32) ps)))) = ([t], None).
Proof.
  intros HP Ht Hb Hhd. rewrite stl_join by easy. cbn [flat_map].
  destruct (HP p) as (u & w & Hp & Hu & Hw); [now left|].
  rewrite Hp at 1. rewrite stl_app_no_break by easy.
  destruct (string_to_lines w) as [|x xs] eqn:E; [now apply string_to_lines_nonempty in E|].
  assert (Hx : forall y, In y (x :: xs) -> y = []) by (rewrite <- E; now apply stl_all_breaks).
  rewrite (Hx x) by now left. rewrite app_nil_r. cbn [app]. unfold unfold_lines.
  assert (Hul : logical u).
  { destruct Hhd as (c & q & Hq & Hc1 & Hc2). split; [|split; [easy|]].
    - intros ->. cbn in Hp. rewrite Hp in Hq. subst w. destruct (Hw c); [now left|easy|easy].
    - intros (d & t' & -> & Hd). apply Hb. rewrite Hp. exists d, (t' ++ w). now split. }
  rewrite unfold_logical by easy.
  rewrite unfold_skip_empty by (intros; apply Hx; now right).
  rewrite unfold_pieces by (intros; apply HP; now right).
  rewrite <- Ht, nb_concat. cbn [map concat]. rewrite Hp, nb_app, nb_no_break, (nb_all_breaks w), app_nil_r by easy.
  reflexivity.
Qed.

(** Substrings of "text + CRLF" are pieces. *)
Lemma pieces_of ps : forall t w, concat ps = t ++ w -> no_break t -> all_breaks w ->
  forall p, In p ps -> piece p.
Proof.
  induction ps as [|q ps IH]; intros t w H Ht Hw p Hin; [easy|]. cbn in H.
  assert (HC : (exists t2, q ++ t2 = t /\ concat ps = t2 ++ w) \/
               (exists w1 w2, q = t ++ w1 /\ w = w1 ++ w2 /\ concat ps = w2)).
  { clear - H. revert q H; induction t as [|c t IHt]; intros q H; cbn in H.
    - right. exists q, (concat ps). split; [easy|]. split; [now symmetry|easy].
    - destruct q as [|d q]; cbn in H.
      + left. exists (c :: t). split; [easy|exact H].
      + injection H as -> H. destruct (IHt q H) as [(t2 & <- & E)|(w1 & w2 & -> & -> & E)].
        * left. exists t2. now split.
        * right. exists w1, w2. now split. }
  destruct HC as [(t2 & <- & E)|(w1 & w2 & -> & -> & E)].
  - apply no_break_app in Ht as [Hq Ht2]. destruct Hin as [<-|Hin].
    + exists q, []. rewrite app_nil_r. split; [easy|]. split; [easy|]. intros c [].
    + now apply (IH t2 w).
  - destruct Hin as [<-|Hin].
    + exists t, w1. split; [easy|]. split; [easy|]. intros c Hc. apply Hw, in_or_app. now left.
    + apply (IH [] w2); try easy. intros c Hc. apply Hw, in_or_app. now right.
Qed.

Lemma join_crlf : [13; 10] = [c_cr; c_lf].
Proof. reflexivity. Qed.

Lemma fold_unfold hy resplit W t w :
  splitter resplit -> (1 <= W)%nat -> logical t -> all_breaks w ->
  exists phys, wrap hy resplit W (t ++ w) = Ok phys /\
    gsnd (unfold_lines (string_to_lines (join [13; 10] phys))) = ([t], None).
Proof.
  intros HS HW (Hne & Hnb & Hbl) Hw.
  destruct (wrap_spec hy resplit W (t ++ w) HS HW ltac:(now destruct t)) as (p & ps & E & Hc & Hp & _).
  eexists. split; [exact E|]. apply unfold_folded.
  - now apply (pieces_of (p :: ps) t w).
  - rewrite Hc, nb_app, nb_no_break, nb_all_breaks, app_nil_r by easy. reflexivity.
  - intros (c & q & -> & Hc'). apply Hbl. destruct t as [|c' t]; [easy|].
    cbn in Hc. injection Hc as -> _. now exists c', t.
  - destruct p as [|c q]; [easy|]. destruct t as [|c' t]; [easy|]. cbn in Hc. injection Hc as -> _.
    apply no_break_cons in Hnb as [Hnb _]. now exists c', q.
Qed.

(** ** Content lines *)

Lemma no_break_join l : (forall w, In w l -> no_break w) -> no_break (join [c_comma] l).
Proof.
  induction l as [|x [|y l] IH]; intros H; [apply no_break_nil| |].
  - apply H. now left.
  - rewrite join_cons2. apply no_break_app. split; [apply H; now left|].
    apply no_break_app. split; [apply no_break_cons; split; [easy|apply no_break_nil]|].
    apply IH. intros w Hw. apply H. now right.
Qed.

Lemma no_break_single c : c <> 13 -> c <> 10 -> no_break [c].
Proof. intros. apply no_break_cons. split; [easy|apply no_break_nil]. Qed.

Lemma no_break_pval p : no_break (serialize_pval p).
Proof.
  assert (He : forall s, no_break (escape_param s)).
  { intros s c Hc. apply (escape_param_safe s c). cbn in *. intuition. }
  assert (Hq : forall s, no_break ([c_dquote] ++ escape_param s ++ [c_dquote])).
  { intros s. apply no_break_app. split; [now apply no_break_single|].
    apply no_break_app. split; [easy|now apply no_break_single]. }
  destruct p as [s|s]; cbn [serialize_pval]; [|apply Hq].
  destruct (needs_quote s); [apply Hq|apply He].
Qed.

Lemma no_break_params ps :
  (forall k vs, In (k, vs) ps -> no_break k) -> no_break (serialize_params ps).
Proof.
  unfold serialize_params. induction ps as [|[k vs] ps IH]; intros H; [apply no_break_nil|].
  cbn [flat_map fst snd]. apply no_break_app. split; [|apply IH; intros; eapply H; right; eauto].
  apply no_break_app. split; [now apply no_break_single|].
  apply no_break_app. split; [eapply H; left; reflexivity|].
  apply no_break_app. split; [now apply no_break_single|].
  apply no_break_join. intros w Hw. apply in_map_iff in Hw as (p & <- & _). apply no_break_pval.
Qed.

Lemma foldable_logical cl : foldable cl -> logical (serialize_unwrapped cl false).
Proof.
  intros (Hn & Hb & Hv & Hp). unfold serialize_unwrapped. rewrite app_nil_r.
  split; [|split].
  - intros H. apply (f_equal (@length N)) in H. rewrite !app_length in H. cbn in H. lia.
  - apply no_break_app. split; [easy|]. apply no_break_app. split; [now apply no_break_params|].
    apply no_break_app. split; [now apply no_break_single|easy].
  - intros (c & t & H & Hc). destruct (cl_name cl) as [|c' name] eqn:E.
    + cbn in H. destruct (cl_params cl) as [|[k vs] ps].
      * cbn in H. injection H as <- _. destruct Hc; easy.
      * cbn in H. injection H as <- _. destruct Hc; easy.
    + cbn in H. injection H as -> _. apply Hb. now exists c, name.
Qed.

Lemma serialize_unwrapped_nl cl :
  serialize_unwrapped cl true = serialize_unwrapped cl false ++ [13; 10].
Proof. unfold serialize_unwrapped. rewrite app_nil_r. now rewrite <- !app_assoc. Qed.

Lemma gsnd_one g t : gsnd g = ([t], None) -> exists n, g = ([(n, t)], None).
Proof.
  destruct g as [[|[n u] [|x l]] e]; unfold gsnd; cbn; try easy.
  intros [= -> ->]. now exists n.
Qed.

Lemma line_fold_unfold hy resplit W cl nl :
  splitter resplit -> (match W with Some W => (1 <= W)%nat | None => True end) -> foldable cl ->
  exists txt, line_serialize hy resplit W cl nl = Ok txt /\
    gsnd (unfold_lines (string_to_lines txt)) = ([serialize_unwrapped cl false], None).
Proof.
  intros HS HW Hf. apply foldable_logical in Hf.
  assert (Hab : all_breaks [13; 10]) by (intros c [<-|[<-|[]]]; auto).
  assert (Hab0 : all_breaks []) by (intros c []).
  destruct W as [W|]; cbn [line_serialize].
  - destruct nl.
    + rewrite serialize_unwrapped_nl.
      destruct (fold_unfold hy resplit W _ [13; 10] HS HW Hf Hab) as (phys & -> & H).
      eexists. split; [reflexivity|exact H].
    + destruct (fold_unfold hy resplit W _ [] HS HW Hf Hab0) as (phys & E & H).
      rewrite app_nil_r in E. rewrite E.
      eexists. split; [reflexivity|exact H].
  - eexists. split; [reflexivity|]. destruct nl.
    + rewrite serialize_unwrapped_nl.
      change (serialize_unwrapped cl false ++ [13; 10])
        with (join [13; 10] ((serialize_unwrapped cl false ++ [13;10]) :: map (cons 32) [])).
      destruct Hf as (Hne & Hnb & Hbl).
      apply unfold_folded.
      * intros q [<-|[]]. exists (serialize_unwrapped cl false), [13; 10]. easy.
      * cbn [concat]. now rewrite app_nil_r, nb_app, nb_no_break, nb_all_breaks, app_nil_r.
      * intros (c & t & E & Hc). apply Hbl. destruct (serialize_unwrapped cl false) as [|c' s]; [easy|].
        cbn in E. injection E as -> _. now exists c, s.
      * destruct (serialize_unwrapped cl false) as [|c' s]; [easy|].
        apply no_break_cons in Hnb as [Hnb _]. now exists c', (s ++ [13; 10]).
    + destruct Hf as (Hne & Hnb & Hbl). rewrite stl_no_break by easy.
      unfold unfold_lines. rewrite unfold_logical by easy. reflexivity.
Qed.

Lemma wrap_continuations hy resplit W text :
  splitter resplit -> (2 <= W)%nat -> text <> [] ->
  exists p ps, wrap hy resplit W text = Ok (p :: map (cons 32) ps) /\
    concat (p :: ps) = text /\ p <> [] /\ (forall q, In q ps -> q <> []).
Proof.
  intros HS HW Ht. destruct (wrap_spec hy resplit W text HS ltac:(lia) Ht) as (p & ps & H1 & H2 & H3 & _ & H4).
  exists p, ps. auto.
Qed.

Lemma wrap_width hy resplit W text :
  splitter resplit -> (2 <= W)%nat -> text <> [] ->
  exists phys, wrap hy resplit W text = Ok phys /\
    forall l, In l phys -> (1 <= length l <= W)%nat.
Proof.
  intros HS HW Ht. destruct (wrap_spec hy resplit W text HS ltac:(lia) Ht) as (p & ps & H1 & H2 & H3 & H4 & _).
  eexists. split; [exact H1|]. intros l Hl. split; [|now apply H4].
  destruct Hl as [<-|Hl]; [destruct p; [easy|cbn; lia]|].
  apply in_map_iff in Hl as (q & <- & _). cbn. lia.
Qed.

(** ** The incremental writer *)
Lemma concat_elems ls : concat (flat_map (fun l => [l; [13; 10]]) ls) = concat (map (fun l => l ++ [13; 10]) ls).
Proof. induction ls as [|l ls IH]; [easy|]. cbn. rewrite IH. now rewrite <- app_assoc. Qed.

Lemma concat_crlf_join ls : ls <> [] ->
  concat (map (fun l => l ++ [13; 10]) ls) = join [13; 10] ls ++ [13; 10].
Proof.
  induction ls as [|x [|y ls] IH]; intros H; [easy| |].
  - cbn. now rewrite app_nil_r.
  - rewrite join_cons2. cbn [map concat] in *. rewrite IH by easy. now rewrite <- !app_assoc.
Qed.

Lemma removelast_elems ls : ls <> [] ->
  concat (removelast (flat_map (fun l => [l; [13; 10]]) ls)) = join [13; 10] ls.
Proof.
  induction ls as [|x [|y ls] IH]; intros H; [easy| |].
  - cbn. now rewrite app_nil_r.
  - rewrite join_cons2. cbn [flat_map app] in *. cbn [removelast concat] in *.
    cbn [removelast concat] in IH. now rewrite IH by easy.
Qed.

(** A final line break adds only an empty physical line. *)
Lemma stl_final_crlf s : string_to_lines (s ++ [13; 10]) = string_to_lines s ++ [[]].
Proof. apply (stl_crlf s []). Qed.

Lemma unfold_from_app_empty ls : forall n cur, unfold_from n cur (ls ++ [[]]) = unfold_from n cur ls.
Proof.
  induction ls as [|l ls IH]; intros n cur; [now destruct cur as [[a b]|]|].
  cbn [app unfold_from]. destruct (rstrip_breaks l); [apply IH|].
  destruct (existsb is_break _); [easy|]. destruct cur as [[a b]|]; destruct (is_blank n0); rewrite ?IH; reflexivity.
Qed.

Lemma line_serialize_iter_text hy resplit W cl nl :
  splitter resplit -> (match W with Some W => (1 <= W)%nat | None => True end) ->
  serialize_unwrapped cl false <> [] ->
  exists parts txt, line_serialize_iter hy resplit W cl nl = Ok parts /\ line_serialize hy resplit W cl false = Ok txt /\ concat parts = txt ++ (if nl then [13; 10] else []).
Proof.
  intros HS HW Ht. destruct W as [W|]; cbn [line_serialize_iter line_serialize].
  - destruct (wrap_spec hy resplit W _ HS HW Ht) as (p & ps & -> & _). cbn [bind rmap].
    destruct nl.
    + eexists. eexists. split; [reflexivity|]. split; [reflexivity|].
      rewrite <- join_crlf. rewrite concat_elems. now rewrite concat_crlf_join.
    + rewrite <- join_crlf.
      change (flat_map (fun l => [l; [13; 10]]) (p :: map (cons 32) ps)) with
        (p :: [13; 10] :: flat_map (fun l => [l; [13; 10]]) (map (cons 32) ps)).
      cbn iota. eexists. eexists. split; [reflexivity|]. split; [reflexivity|].
      rewrite app_nil_r.
      change (p :: [13; 10] :: flat_map (fun l => [l; [13; 10]]) (map (cons 32) ps)) with
        (flat_map (fun l => [l; [13; 10]]) (p :: map (cons 32) ps)).
      now rewrite removelast_elems.
  - eexists. eexists. split; [reflexivity|]. split; [reflexivity|]. cbn [concat]. rewrite app_nil_r.
    destruct nl; [apply serialize_unwrapped_nl|now rewrite app_nil_r].
Qed.

Lemma line_fold_unfold_iter hy resplit W cl nl :
  splitter resplit -> (match W with Some W => (1 <= W)%nat | None => True end) -> foldable cl ->
  exists parts, line_serialize_iter hy resplit W cl nl = Ok parts /\ gsnd (unfold_lines (string_to_lines (concat parts))) = ([serialize_unwrapped cl false], None).
Proof.
  intros HS HW Hf.
  destruct (line_serialize_iter_text hy resplit W cl nl HS HW) as (parts & txt & E & Et & Hc).
  { now apply foldable_logical. }
  destruct (line_fold_unfold hy resplit W cl false HS HW Hf) as (txt' & Et' & H).
  rewrite Et in Et'. injection Et' as <-.
  exists parts. split; [exact E|]. rewrite Hc. destruct nl.
  - rewrite stl_final_crlf. unfold unfold_lines. rewrite unfold_from_app_empty. exact H.
  - rewrite app_nil_r. exact H.
Qed.
