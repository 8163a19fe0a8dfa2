(** * Proofs: values are read as they are meant *)
From Verif Require Import M_Base M_Text M_Line M_Codec M_Cal M_Time M_Span M_Dt M_Tree M_Comp.
From Verif Require Import S_Text S_Codec S_Dt S_Comp S_Multi P_Base P_Text P_Codec P_Cal P_Dt P_Comp P_Multi P_Cat P_Rt P_Local S_Read P_CodecX P_CodecX2.
From Coq Require Import Lia ZifyBool ZifyNat ZifyN.
Open Scope N_scope.

Section Value.
Variable X : ext.

Lemma zone_zget zs id z : zone_named X zs id z <-> zget X zs id = Ok z.
Proof.
  unfold zone_named, zget. destruct (dict_get id zs) as [y|]; split.
  - intros [[= ->]|[H _]]; [easy|discriminate].
  - intros [= ->]. now left.
  - intros [H|[_ H]]; [discriminate|exact H].
  - intros H. now right.
Qed.
Lemma zone_zeq zs zs' id z : zeq X zs zs' -> zone_named X zs id z -> zone_named X zs' id z.
Proof. intro H. rewrite !zone_zget. now rewrite H. Qed.

Lemma tzid_pop ps t : tzid_is ps t <-> pop_tzid (strs ps) = Ok t.
Proof.
  unfold tzid_is, pop_tzid. rewrite dict_get_strs. destruct (dict_get (py "TZID") ps) as [[|p [|q l]]|]; cbn [option_map map].
  - split; congruence.
  - split; [intros ->; now destruct (pval_str p)|intros [= <-]; now destruct (pval_str p)].
  - split; [easy|discriminate].
  - split; congruence.
Qed.

Lemma moment_iff F zs s ps d : (exists zs1, dt_parse X F s ps zs = Ok (d, dict_del (py "TZID") ps, zs1)) <-> moment X zs (text_of F) s ps d.
Proof.
  split.
  - intros (zs1 & H). unfold dt_parse in H. change (M_Comp.D X) with (x_zdb X) in H. unbind3 H. injection H as <- _.
    assert (NE : s <> []) by (intros ->; revert Ha; unfold parse_dt; destruct (pop_tzid _); discriminate).
    pose proof Ha as Hp. unfold parse_dt in Hp. destruct (pop_tzid (strs ps)) as [t|e] eqn:EP; [|discriminate]. cbn [bind] in Hp.
    apply parse_dt_ok in Ha as (f & Ht & HR & Hw & Hf & _ & HU & HN). destruct (fields_wall_real f HR) as [Ef _]. rewrite <- Hw in Ef.
    split; [exact NE|]. rewrite Ef. split; [exact Ht|]. split; [exact HR|]. split; [exact Hf|]. exists t. split; [now apply tzid_pop|].
    destruct (utc_mark_dec s) as [U|U].
    + left. split; [exact U|]. split; [|now apply HU]. destruct (rev s) as [|ch r] eqn:ER; [discriminate|]. apply rev_cons_app in ER.
      rewrite ER in U. apply utc_mark_last, upper_Z in U. rewrite U in Hp. destruct (strptime _ _); [|discriminate]. cbn [bind] in Hp. now destruct t.
    + right. split; [exact U|]. destruct (HN U) as [(E1 & E2 & _)|(id & z & E1 & E2 & E3)].
      * rewrite EP in E1. injection E1 as ->. exact E2.
      * rewrite EP in E1. injection E1 as ->. exists z. split; [|exact E3]. rewrite read_zone_zget in E2. apply zone_zget.
        destruct (zget X zs id) as [y|]; [|discriminate]. cbn [bind] in E2. now injection E2 as -> _.
  - intros (NE & Ht & HR & Hf & t & HT & HZ). unfold dt_parse, parse_dt. change (M_Comp.D X) with (x_zdb X). apply tzid_pop in HT. rewrite HT. cbn [bind].
    destruct (rev s) as [|ch r] eqn:ER; [apply (f_equal (@rev N)) in ER; rewrite rev_involutive in ER; contradiction|]. apply rev_cons_app in ER.
    assert (ES : strptime F (strip_marks s) = Ok (wall d)).
    { rewrite strip_unmarked. apply strptime_spec. exists (fields_of (wall d)). now rewrite wall_of_fields. }
    rewrite ES. cbn [bind]. destruct d as [w fo tz0]. cbn [wall fold dtz] in *. subst fo.
    destruct HZ as [(U & -> & ->)|(U & HZ)].
    + rewrite ER in U. apply utc_mark_last, upper_Z in U. rewrite U. eexists. reflexivity.
    + assert (upper_char ch =? 90 = false) as ->.
      { destruct (upper_char ch =? 90) eqn:E; [|easy]. exfalso. apply U. rewrite ER. apply utc_mark_last. now apply upper_Z. }
      destruct t as [id|].
      * destruct HZ as (z & HZ & ->). rewrite read_zone_zget. apply zone_zget in HZ. rewrite HZ. cbn [bind]. eexists. reflexivity.
      * subst tz0. eexists. reflexivity.
Qed.

Lemma denotes_iff t zs s ps v rest : (exists zs1, vparse X t s ps zs = Ok (v, rest, zs1)) <-> denotes X zs t s ps v rest.
Proof.
  split.
  - intros (zs1 & H). destruct t; cbn [vparse] in H.
    4: { unbind3 H. injection H as <- Hr Hz. assert (rest = dict_del (py "TZID") ps) as -> by (rewrite <- Hr; unfold dt_parse in Ha; unbind3 Ha; now injection Ha as _ <- _). subst.
         constructor. apply (moment_iff FDatetime). eauto. }
    all: apply bind_Ok in H; destruct H as (r & Hr & H); try destruct r as [r1 r2]; injection H as <- <- <-.
    + constructor. now apply text_parse_spec.
    + now constructor.
    + constructor. now apply binary_exact.
    + apply duration_parse_exact in Hr as (secs & HA & -> & HB). now constructor.
    + constructor. now apply int_exact.
    + apply bool_parse_exact in Hr as (w & H1 & H2). now apply DE_bool with (w := w).
    + apply bind_Ok in Hr as (u & Hu & [= <- <-]). now constructor.
    + apply bind_Ok in Hr as (u & Hu & [= <- <-]). now constructor.
    + unfold geo_parse in Hr. destruct (find_char c_semi s) as [i|] eqn:EF; [|discriminate]. apply find_char_Some in EF as (E1 & E2 & _).
      apply bind_Ok in Hr as (la & H1 & Hr). apply bind_Ok in Hr as (lo & H2 & [= <- <-]). rewrite E1 at 1.
      change (c_semi :: skipn (S i) s) with (py ";" ++ skipn (S i) s). now constructor.
  - intros []; cbn [vparse].
    + apply text_parse_spec in H as ->. eexists. reflexivity.
    + rewrite H. eexists. reflexivity.
    + apply binary_exact in H as ->. eexists. reflexivity.
    + apply (moment_iff FDatetime) in H as (zs1 & ->). eexists. reflexivity.
    + assert (duration_parse s0 = Ok (secs * 1000000)%Z) as -> by (apply duration_parse_exact; eauto). eexists. reflexivity.
    + apply int_exact in H as ->. eexists. reflexivity.
    + assert (bool_parse s0 = Ok b) as -> by (apply bool_parse_exact; eauto). eexists. reflexivity.
    + unfold person_parse. rewrite H. eexists. reflexivity.
    + unfold person_parse. rewrite H. eexists. reflexivity.
    + unfold geo_parse. change (py ";") with [c_semi]. rewrite find_char_app_notin by exact H. cbn [app]. rewrite find_char_here.
      rewrite Nat.add_0_r, firstn_app, firstn_all, Nat.sub_diag. cbn [firstn]. rewrite app_nil_r, H0. cbn [bind].
      replace (skipn (S (length a)) (a ++ c_semi :: b)) with b; [rewrite H1; eexists; reflexivity|].
      rewrite skipn_app, skipn_all2 by lia. now replace (S (length a) - length a)%nat with 1%nat by lia.
Qed.

Lemma denotes_zeq zs zs' t s ps v rest : zeq X zs zs' -> denotes X zs t s ps v rest -> denotes X zs' t s ps v rest.
Proof.
  intros HZ H. apply denotes_iff in H as (zs1 & H). apply vparse_zones in H as [_ K]. destruct (K zs' HZ) as (zs3 & H & _). apply denotes_iff. eauto.
Qed.
(** From any state of the zones that agrees with the beginning. *)
Lemma denotes_read zs zs' t s ps v rest : zeq X zs zs' -> denotes X zs t s ps v rest ->
  exists zs1, vparse X t s ps zs' = Ok (v, rest, zs1) /\ zeq X zs zs1.
Proof.
  intros HZ H. apply denotes_zeq with (zs' := zs') in H; [|exact HZ]. apply denotes_iff in H as (zs1 & H). exists zs1. split; [exact H|].
  apply vparse_zones in H as [Z _]. eapply zeq_trans; eauto.
Qed.
Lemma read_denotes zs zs' t s ps v rest zs1 : zeq X zs zs' -> vparse X t s ps zs' = Ok (v, rest, zs1) -> denotes X zs t s ps v rest /\ zeq X zs zs1.
Proof.
  intros HZ H. split.
  - apply denotes_zeq with (zs := zs'); [now apply zeq_sym|]. apply denotes_iff. eauto.
  - apply vparse_zones in H as [Z _]. eapply zeq_trans; eauto.
Qed.
Lemma denotes_det zs t s ps v rest v' rest' : denotes X zs t s ps v rest -> denotes X zs t s ps v' rest' -> v = v' /\ rest = rest'.
Proof. intros H K. apply denotes_iff in H as (z1 & H), K as (z2 & K). rewrite H in K. now injection K as <- <- _. Qed.

Lemma moment_zeq zs zs' F s ps d : zeq X zs zs' -> moment X zs (text_of F) s ps d -> moment X zs' (text_of F) s ps d.
Proof.
  intros HZ H. apply moment_iff in H as (zs1 & H). apply dt_parse_zones in H as [_ K]. destruct (K zs' HZ) as (zs3 & H & _). apply moment_iff. eauto.
Qed.
Lemma moment_read F zs zs' s ps d : zeq X zs zs' -> moment X zs (text_of F) s ps d ->
  exists zs1, dt_parse X F s ps zs' = Ok (d, dict_del (py "TZID") ps, zs1) /\ zeq X zs zs1.
Proof.
  intros HZ H. apply (moment_zeq zs zs') in H; [|exact HZ]. apply moment_iff in H as (zs1 & H). exists zs1. split; [exact H|].
  apply dt_parse_zones in H as [Z _]. eapply zeq_trans; eauto.
Qed.
Lemma read_moment F zs zs' s ps d rest zs1 : zeq X zs zs' -> dt_parse X F s ps zs' = Ok (d, rest, zs1) ->
  moment X zs (text_of F) s ps d /\ rest = dict_del (py "TZID") ps /\ zeq X zs zs1.
Proof.
  intros HZ H. assert (rest = dict_del (py "TZID") ps) as -> by (unfold dt_parse in H; unbind3 H; now injection H as _ <- _). split; [|split; [easy|]].
  - apply moment_zeq with (zs := zs'); [now apply zeq_sym|]. apply moment_iff. eauto.
  - apply dt_parse_zones in H as [Z _]. eapply zeq_trans; eauto.
Qed.
Lemma moment_det F zs s ps d d' : moment X zs (text_of F) s ps d -> moment X zs (text_of F) s ps d' -> d = d'.
Proof. intros H K. apply moment_iff in H as (z1 & H), K as (z2 & K). rewrite H in K. now injection K as <- _. Qed.

(** ** Types and parameters *)
(** The table of the specification and the converters of the model. *)
Definition types_ok (ts : types) (convs : list vconv) : Prop :=
  ts = map (fun t => (ics_type t, t)) convs /\ convs <> [] /\ NoDup (map fst ts).
Lemma typed_iff ts convs ps t q : types_ok ts convs -> (prepare_params convs ps = Ok (q, t) <-> typed ts ps t /\ q = dict_del (py "VALUE") ps).
Proof.
  intros (-> & HN & ND). unfold prepare_params, typed. change VALUE with (py "VALUE"). destruct (dict_get (py "VALUE") ps) as [[|p [|p2 l]]|].
  - destruct convs as [|c cs]; [contradiction|]. split; [intros [= <- <-]; cbn [map]; eauto|]. now intros [(w & ts' & [= _ -> _]) ->].
  - split.
    + destruct (find _ convs) as [c|] eqn:F; [|discriminate]. intros [= <- <-]. apply find_some in F as [I E]. apply str_eqb_eq in E. split; [|easy].
      rewrite <- E. now apply in_map with (f := fun t => (ics_type t, t)).
    + intros [I ->]. clear HN. induction convs as [|c cs IH]; [destruct I|]. cbn [map] in *. inversion ND as [|? ? N1 N2]; subst. cbn [find].
      destruct I as [[= E ->]|I].
      * rewrite E. now rewrite str_eqb_refl.
      * destruct (str_eqb (ics_type c) (pval_str p)) eqn:E; [|now apply IH]. apply str_eqb_eq in E. exfalso. apply N1. cbn [fst]. rewrite E.
        apply in_map_iff. eexists. split; [|exact I]. easy.
  - split; [discriminate|easy].
  - destruct convs as [|c cs]; [contradiction|]. split; [intros [= <- <-]; cbn [map]; eauto|]. now intros [(w & ts' & [= _ -> _]) ->].
Qed.
Lemma typed_det ts convs ps t t' : types_ok ts convs -> typed ts ps t -> typed ts ps t' -> t = t'.
Proof.
  intros HO H K. pose proof (proj2 (typed_iff ts convs ps t _ HO) (conj H eq_refl)). pose proof (proj2 (typed_iff ts convs ps t' _ HO) (conj K eq_refl)). congruence.
Qed.

(** ** Several values on a line *)
Lemma commas_join ss w : commas ss w <-> ss <> [] /\ join [44] ss = w.
Proof.
  split.
  - induction 1 as [s|s ss w H [IH1 IH2]]; [easy|]. split; [easy|]. rewrite join_cons by exact IH1. now rewrite IH2.
  - intros [N <-]. induction ss as [|s [|s2 ss] IH]; [easy|constructor|]. rewrite join_cons2. change [44] with (py ","). constructor. now apply IH.
Qed.
Lemma TextEsc_line w v : TextEsc w v -> ~ In 10 w.
Proof.
  induction 1; cbn [In] in *; intuition (subst; try discriminate; try lia).
Qed.
Lemma split_iff t w ss : (t = Text -> Forall (fun s => exists v, TextEsc s v) ss) ->
  (vsplit t w = Ok ss <-> commas ss w /\ (t <> Text -> Forall (fun s => ~ In 44 s) ss)).
Proof.
  intro HT. rewrite commas_join. destruct (match t with Text => true | _ => false end) eqn:E.
  - destruct t; try discriminate. specialize (HT eq_refl). cbn [vsplit]. split.
    + destruct (split_value_list w) as [l [e|]] eqn:S; [discriminate|]. intros [= ->]. split; [|congruence]. split; [eapply split_nonempty; eauto|]. now apply split_join in S.
    + intros [[N <-] _]. rewrite split_good_pieces; [easy|exact N|]. intros s I. rewrite Forall_forall in HT. destruct (HT s I) as (v & HV).
      split; [eapply TextEsc_good; eauto|eapply TextEsc_line; eauto].
  - assert (vsplit t w = Ok (split_on c_comma w)) as -> by (destruct t; try discriminate; reflexivity).
    assert (NT : t <> Text) by (now intros ->). split.
    + intros [= <-]. split; [split; [apply split_on_nonempty|apply join_split_on]|]. intros _. apply Forall_forall. intros s I. now apply split_on_no_sep_in in I.
    + intros [[N <-] H]. specialize (H NT). rewrite Forall_forall in H. now rewrite split_on_join.
Qed.
End Value.
