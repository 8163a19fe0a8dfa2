(** * Proofs about lines with several values *)
From Verif Require Import M_Base M_Text M_Line M_Codec M_Cal M_Time M_Span M_Dt M_Tree M_Comp S_Text S_Multi P_Base P_Text P_Comp P_Frame.
From Coq Require Import Lia ZifyBool ZifyNat ZifyN.
Open Scope N_scope.

Lemma parity_cons (b : bool) (c : N) (a : list N) : parity b (c :: a) = parity (pstep b c) a. Proof. reflexivity. Qed.
Lemma pstep_plain (b : bool) (c : N) : ~ In c [92; 59; 44; 10; 13] -> pstep b c = false.
Proof. intro H. unfold pstep. destruct (N.eqb_spec c 92) as [->|]; [exfalso; apply H; cbn; tauto|easy]. Qed.
Lemma TextEsc_good w v : TextEsc w v -> good_piece w.
Proof.
  intro H. split.
  - intros a b E. rewrite ends_in_escape_parity. revert a b E.
    induction H as [|c w v Hc H IH|w v H IH|w v H IH|w v H IH|c w v Hc H IH|c w v Hc H IH]; intros a b E.
    + now destruct a.
    + destruct a as [|c' a]; injection E as E1 E.
      * subst c. exfalso. apply Hc. cbn; tauto.
      * subst c'. rewrite parity_cons, pstep_plain by easy. now apply IH in E.
    + destruct a as [|c1 [|c2 a]]; [discriminate|injection E; discriminate|]. injection E as <- <- E. cbn. now apply IH in E.
    + destruct a as [|c1 [|c2 a]]; [discriminate|now injection E as <- E|]. injection E as <- <- E. cbn. now apply IH in E.
    + destruct a as [|c1 [|c2 a]]; [discriminate|now injection E as <- E|]. injection E as <- <- E. cbn. now apply IH in E.
    + destruct a as [|c1 [|c2 a]]; [discriminate|now injection E as <- E|]. injection E as <- <- E.
      destruct Hc as [-> | ->]; cbn; now apply IH in E.
    + destruct a as [|c1 [|c2 a]]; [discriminate|now injection E as <- E|]. injection E as <- <- E.
      destruct Hc as [-> | ->]; cbn; now apply IH in E.
  - rewrite ends_in_escape_parity.
    induction H as [|c w v Hc H IH|w v H IH|w v H IH|w v H IH|c w v Hc H IH|c w v Hc H IH]; try easy.
    + now rewrite parity_cons, pstep_plain.
    + destruct Hc as [-> | ->]; exact IH.
    + destruct Hc as [-> | ->]; exact IH.
Qed.
(** A raw text denotes at most one list of values. *)
Lemma ValueList_pieces w vs : ValueList w vs -> exists ps, ps <> [] /\ join [44] ps = w /\ Forall2 TextEsc ps vs.
Proof.
  induction 1 as [w v H|w v t vs H HL (ps & Hn & HJ & HF)].
  - exists [w]. split; [easy|]. split; [easy|]. now constructor.
  - exists (w :: ps). split; [easy|]. split; [rewrite join_cons by easy; now rewrite HJ|now constructor].
Qed.
Lemma pieces_ValueList ps vs : ps <> [] -> Forall2 TextEsc ps vs -> ValueList (join [44] ps) vs.
Proof.
  intros Hn H. induction H as [|p v ps vs H1 H IH]; [easy|]. destruct H as [|p2 v2 ps vs H2 H].
  - now constructor.
  - rewrite join_cons2. cbn [app]. constructor; [easy|]. now apply IH.
Qed.
Lemma Forall2_det {A B} (R : A -> B -> Prop) l l1 l2 : (forall a b c, R a b -> R a c -> b = c) ->
  Forall2 R l l1 -> Forall2 R l l2 -> l1 = l2.
Proof.
  intros HD H1. revert l2. induction H1; intros l2 H2; inversion H2; subst; [easy|]. f_equal; eauto.
Qed.
Lemma value_list_det w vs1 vs2 : ValueList w vs1 -> ValueList w vs2 -> vs1 = vs2.
Proof.
  intros H1 H2. apply ValueList_pieces in H1 as (p1 & N1 & J1 & F1), H2 as (p2 & N2 & J2 & F2).
  assert (p1 = p2) as ->.
  { apply (good_piece_split_unique w); try easy.
    - intros x Hx. clear - F1 Hx. induction F1; [easy|]. destruct Hx as [<-|Hx]; [now apply TextEsc_good in H|auto].
    - intros x Hx. clear - F2 Hx. induction F2; [easy|]. destruct Hx as [<-|Hx]; [now apply TextEsc_good in H|auto]. }
  eapply Forall2_det; [|exact F1|exact F2]. intros a b c Ha Hb. apply text_parse_spec in Ha, Hb. congruence.
Qed.

(** ** Marks *)
Definition TRUE_MARK : list pval := raw [py "TRUE"].
Definition FALSE_MARK : list pval := raw [py "FALSE"].
Definition marked (q : xp) (m : list pval) : xp := q ++ [(MERGE, m)].
Definition marks (q : xp) (n : nat) : list xp := repeat (marked q TRUE_MARK) (pred n) ++ [marked q FALSE_MARK].
Lemma marks_length q n : n <> O -> length (marks q n) = n.
Proof. intro H. unfold marks. rewrite app_length, repeat_length. cbn. lia. Qed.
Lemma dict_get_app_new {V} k (v : V) d : ~ In k (keys d) -> dict_get k (d ++ [(k, v)]) = Some v.
Proof.
  induction d as [|[k2 v2] d IH]; cbn; intro H; [now rewrite str_eqb_refl|].
  destruct (str_eqb k k2) eqn:E; [apply str_eqb_eq in E; subst; exfalso; apply H; now left|].
  apply IH. intro I. apply H. now right.
Qed.
Lemma dict_del_app_new {V} k (v : V) d : ~ In k (keys d) -> dict_del k (d ++ [(k, v)]) = d.
Proof.
  induction d as [|[k2 v2] d IH]; cbn; intro H; [now rewrite str_eqb_refl|].
  destruct (str_eqb k k2) eqn:E; [apply str_eqb_eq in E; subst; exfalso; apply H; now left|].
  f_equal. apply IH. intro I. apply H. now right.
Qed.
Lemma dict_del_new {V} k (d : dict V) : ~ In k (keys d) -> dict_del k d = d.
Proof.
  induction d as [|[k2 v2] d IH]; cbn; intro H; [easy|].
  destruct (str_eqb k k2) eqn:E; [apply str_eqb_eq in E; subst; exfalso; apply H; now left|].
  f_equal. apply IH. intro I. apply H. now right.
Qed.
Lemma dict_get_In_NoDup {V} k (v : V) d : NoDup (keys d) -> In (k, v) d -> dict_get k d = Some v.
Proof.
  induction d as [|[k2 v2] d IH]; cbn; [easy|]. intros ND H. inversion ND as [|? ? Nk ND']; subst.
  destruct H as [[= -> ->]|H]; [now rewrite str_eqb_refl|].
  destruct (str_eqb k k2) eqn:E; [|now apply IH]. apply str_eqb_eq in E. subst. exfalso. apply Nk. unfold keys.
  change k2 with (fst (k2, v)). now apply in_map.
Qed.
Lemma params_eqb_refl p : NoDup (keys p) -> params_eqb p p = true.
Proof.
  intro H. unfold params_eqb. rewrite Nat.eqb_refl. cbn [andb].
  apply forallb_forall. intros [k v] I. cbn [fst snd]. rewrite (dict_get_In_NoDup k v) by easy.
  destruct (list_eq_dec (list_eq_dec N.eq_dec) v v); [easy|contradiction].
Qed.
Lemma keys_strs p : keys (strs p) = keys p.
Proof. unfold keys, strs. rewrite map_map. now apply map_ext. Qed.

Section Multi.
Variable X : ext.

(** *** Writing groups of values *)
Section Groups.
Variable name : list N.
Variable convs : list vconv.
(** What is known about the zones afterwards. *)
Variable R : zones -> zones -> Prop.
Hypothesis R_refl : forall z, R z z.
Hypothesis R_trans : forall a b c, R a b -> R b c -> R a c.
(** One line: parameters stored, parameters written, the values, their texts. *)
Record group := mk_g { g_q : xp; g_q2 : xp; g_vs : list val; g_ss : list (list N) }.
Definition writes (q q2 : xp) (v : val) (s : list N) : Prop :=
  exists c q1, find_conv true convs v q = Ok (c, q1) /\ forall zs, exists zs', vserialize X c v q1 zs = Ok (s, q2, zs') /\ R zs zs'.
Definition good_group (g : group) : Prop :=
  ~ In MERGE (keys (g_q g)) /\ NoDup (keys (g_q2 g)) /\ g_vs g <> [] /\ Forall2 (writes (g_q g) (g_q2 g)) (g_vs g) (g_ss g).
Definition group_line (g : group) : item := ILine (ContentLine name (g_q2 g) (join_value_list (g_ss g))).
Definition group_pars (g : group) : list xp := marks (g_q g) (length (g_vs g)).

Lemma serialize_group (q q2 : xp) vs ss : ~ In MERGE (keys q) -> NoDup (keys q2) -> Forall2 (writes q q2) vs ss -> vs <> [] ->
  forall rest (cur : option xp) acc mg, cur = None \/ cur = Some q2 -> forall zs, exists zs1, R zs zs1 /\
  serialize_values X name convs (combine vs (marks q (length vs)) ++ rest) cur acc mg zs =
  do (its, zs2) <- serialize_values X name convs rest None [] false zs1;
  Ok (ILine (ContentLine name q2 (join_value_list (acc ++ ss))) :: its, zs2).
Proof.
  intros NM ND F. induction F as [|v s vs ss W F IH]; intros NE rest cur acc mg HC zs; [easy|].
  destruct W as (c & q1 & HF & HS). specialize (HS zs) as (zs' & HS & HR).
  assert (HG : match cur with Some q' => guard (negb (params_eqb (strs q') (strs q2))) ValueError | None => Ok tt end = Ok tt).
  { destruct HC as [->| ->]; [easy|]. now rewrite params_eqb_refl by now rewrite keys_strs. }
  destruct vs as [|v2 vs].
  - inversion F; subst. exists zs'. split; [easy|]. cbn [length marks pred repeat app combine serialize_values].
    unfold marked. rewrite dict_get_app_new, dict_del_app_new by easy. rewrite HF. cbn [bind]. rewrite HS. cbn [bind].
    rewrite HG. cbn [bind]. reflexivity.
  - destruct (IH ltac:(easy) rest (Some q2) (acc ++ [s]) true (or_intror eq_refl) zs') as (zs1 & HR1 & IH1). exists zs1. split; [eauto|].
    replace (combine (v :: v2 :: vs) (marks q (length (v :: v2 :: vs))))
      with ((v, marked q TRUE_MARK) :: combine (v2 :: vs) (marks q (length (v2 :: vs)))) by reflexivity.
    cbn [app serialize_values]. unfold marked at 1 2. rewrite dict_get_app_new, dict_del_app_new by easy.
    rewrite HF. cbn [bind]. rewrite HS. cbn [bind]. rewrite HG. cbn [bind].
    replace (match cur with Some q' => q' | None => q2 end) with q2 by (now destruct HC as [->| ->]).
    change (str_eqb (pval_str (PRaw (py "TRUE"))) (py "TRUE")) with true.
    cbn [TRUE_MARK raw map]. rewrite IH1. now rewrite <- app_assoc.
Qed.
Lemma serialize_groups gs : Forall good_group gs -> forall zs, exists zs',
  serialize_values X name convs (combine (flat_map g_vs gs) (flat_map group_pars gs)) None [] false zs =
  Ok (map group_line gs, zs') /\ R zs zs'.
Proof.
  induction 1 as [|g gs (NM & ND & NE & F) _ IH]; intro zs; [exists zs; auto|]. cbn [flat_map map].
  assert (L : length (g_vs g) = length (group_pars g)).
  { unfold group_pars. rewrite marks_length; [easy|]. now destruct (g_vs g). }
  assert (HC : combine (g_vs g ++ flat_map g_vs gs) (group_pars g ++ flat_map group_pars gs) =
    combine (g_vs g) (marks (g_q g) (length (g_vs g))) ++ combine (flat_map g_vs gs) (flat_map group_pars gs)).
  { fold (group_pars g). clear - L. revert L. generalize (group_pars g) as ps. generalize (g_vs g) as vs.
    induction vs as [|v vs IH]; intros [|p ps] L; try discriminate; [easy|]. injection L as L. cbn. now rewrite IH. }
  rewrite HC. destruct (serialize_group _ _ _ _ NM ND F NE (combine (flat_map g_vs gs) (flat_map group_pars gs)) None [] false (or_introl eq_refl) zs) as (zs1 & HR & E).
  rewrite E. destruct (IH zs1) as (zs2 & E2 & HR2). exists zs2. rewrite E2. eauto.
Qed.
Lemma groups_length gs : Forall good_group gs -> length (flat_map group_pars gs) = length (flat_map g_vs gs).
Proof.
  induction 1 as [|g gs (NM & ND & NE & F) _ IH]; [easy|]. cbn. rewrite !app_length, IH. f_equal. unfold group_pars. apply marks_length.
  now destruct (g_vs g).
Qed.
(** What is stored for the groups. *)
Definition stored (gs : list group) : option xpar :=
  match gs with [] => None | _ => Some (XMany (flat_map group_pars gs)) end.
Lemma stored_some gs : Forall good_group gs -> gs <> [] -> exists p ps, flat_map group_pars gs = p :: ps.
Proof.
  intros H NE. destruct gs as [|g gs]; [easy|]. inversion H as [|? ? (NM & ND & NV & F) _]; subst. cbn. unfold group_pars, marks.
  destruct (pred (length (g_vs g))); cbn; eauto.
Qed.
Lemma serialize_multi_groups {M} a (c : comp M) gs : Forall good_group gs ->
  get_attr (a_attr a) c = AMany (flat_map g_vs gs) -> dict_get (a_key a) (c_params c) = stored gs ->
  forall zs, exists zs', serialize_multi X a name convs c zs = Ok (map group_line gs, zs') /\ R zs zs'.
Proof.
  intros HG HA HP zs. unfold serialize_multi. rewrite HA, HP. destruct gs as [|g gs]; [exists zs; auto|].
  destruct (stored_some (g :: gs) HG ltac:(easy)) as (p & ps & E). unfold stored. rewrite E, <- E.
  rewrite groups_length by easy. rewrite Nat.eqb_refl. destruct (serialize_groups (g :: gs) HG zs) as (zs' & E2 & HR). exists zs'. split; [exact E2|exact HR].
Qed.
End Groups.
End Multi.
