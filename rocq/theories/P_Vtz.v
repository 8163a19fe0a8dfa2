(** * Proofs about time zone definitions (C50) *)
From Verif Require Import M_Base M_Text M_Line M_Codec M_Cal M_Time M_Span M_Dt M_Tree M_Comp M_Rrule M_Vtz M_Fold.
From Verif Require Import S_Text S_Codec S_Line S_Fold S_Dt S_Tree S_Comp S_Store S_Ref S_Wire S_Vtz.
From Verif Require Import P_Base P_Text P_Codec P_Dt P_Attr P_Tree P_Comp P_Rt P_Field P_Out P_Wire P_Rrule.
From Coq Require Import Lia ZifyBool ZifyNat ZifyN.
Open Scope N_scope.

(** ** One attribute *)
Definition padd (k : list N) (p : xp) (d : dict xp) : dict xp := match p with [] => d | _ => dict_set k p d end.
Definition vset (k : list N) (v : option zval) (d : dict zval) : dict zval := match v with Some v => dict_set k v d | None => d end.
Definition par_of (k : list N) (pars : dict xp) : xp := match dict_get k pars with Some p => p | None => [] end.

Section Vtz.
Variable X : ext.
Hypothesis UE : utc_env X.
Variable rule_parse : option Z -> list N -> res rule.
Variable date_parse : list N -> res Z.
Hypothesis RD : reads_dates date_parse.

Definition stored_zval (c : zconv) (v : zval) : Prop :=
  match c, v with
  | ZCOffset, ZOffset x => storable_offset x
  | ZCText, ZText s => True
  | ZCUri, ZUrl u => storable_url X u
  | ZCDatetime, ZDt d => storable_dt X d /\ utc_ok X (VDt d)
  | _, _ => False
  end.
Definition back_zval (v w : zval) : Prop := match v, w with ZDt d, ZDt e => eq_dt X d e | _, _ => v = w end.
Definition absent_of (c : zconv) : list (list N) := match c with ZCDatetime => [py "VALUE"; py "TZID"] | _ => [py "VALUE"] end.
Definition wire_zval (v : zval) : Prop := match v with ZUrl u => no_break (x_geturl X u) | _ => True end.

Lemma not_utc_uses d : utc_ok X (VDt d) -> forall id z z', ~ dt_uses X d id z z'.
Proof. intros (w & [= ->]) id z z' ([= <-] & U & _). pose proof (ue_ics X UE). congruence. Qed.
Lemma no_key {A} k (p : dict A) : ~ In k (keys p) -> dict_get k p = None.
Proof. apply dict_get_None. Qed.
Lemma nb_offset x : no_break (utcoffset_serialize x).
Proof.
  unfold utcoffset_serialize. cbv zeta. apply nb_app; [destruct (x <? 0)%Z; change (py "-") with [45]; change (py "+") with [43]; nb|].
  nb. destruct (_ =? _)%Z; nb.
Qed.
Lemma quot_whole x : (x mod US_SEC = 0 -> Z.quot x US_SEC * US_SEC = x)%Z.
Proof.
  intro H. assert (D : (x = US_SEC * (x / US_SEC))%Z) by (apply Z_div_exact_full_2; [easy|exact H]).
  rewrite D at 1. rewrite (Z.mul_comm US_SEC (x / US_SEC)), Z.quot_mul by easy. lia.
Qed.
Lemma utc_text w p zs s p' zs' : dt_serialize X (mk_dt w false (Some (x_utc X))) p zs = Ok (s, p', zs') -> s = fmt_datetime w ++ py "Z".
Proof.
  unfold dt_serialize, serialize_dt. change (M_Comp.D X) with (x_zdb X). cbn [dtz wall]. rewrite (ue_ics X UE). cbn [bind]. now intros [= <- <- <-].
Qed.
Lemma zval_rt c v (p : xp) : stored_zval c v -> (forall n, In n (absent_of c) -> ~ In n (keys p)) -> exists s,
  (forall zs, exists zs', zserialize X c v p zs = Ok (s, p, zs')) /\
  (forall q zs, strs q = strs p -> exists v' zs', zprepare c q = Ok q /\ zparse X c s q zs = Ok (v', q, zs') /\ back_zval v v') /\
  (wire_zval v -> no_break s).
Proof.
  intros HV HA.
  assert (HQ : forall q, strs q = strs p -> forall n, In n (absent_of c) -> dict_get n q = None).
  { intros q E n I. apply no_key. rewrite (strs_keys _ _ E). auto. }
  assert (HP : forall q, strs q = strs p -> zprepare c q = Ok q).
  { intros q E. unfold zprepare. assert (G : dict_get VALUE q = None) by (apply (HQ q E); destruct c; now left). rewrite G.
    f_equal. now apply dict_del_none. }
  destruct c, v; try easy; cbn [stored_zval back_zval wire_zval zserialize zparse] in *.
  - eexists. split; [intro zs; eexists; reflexivity|]. split; [|intros _; apply nb_offset].
    intros q zs E. exists (ZOffset us), zs. split; [auto|]. destruct HV as [B D]. rewrite offset_roundtrip by exact B. cbn [bind]. split; [|easy].
    now rewrite quot_whole.
  - eexists. split; [intro zs; eexists; reflexivity|]. split; [|intros _; apply nb_text].
    intros q zs E. exists (ZText s), zs. split; [auto|]. rewrite text_roundtrip. now split.
  - eexists. split; [intro zs; eexists; reflexivity|]. split; [|auto].
    intros q zs E. exists (ZUrl u), zs. split; [auto|]. rewrite HV. now split.
  - destruct HV as [HV HU]. pose proof (not_utc_uses d HU) as NU. destruct (dt_rt X UE d p HV) as (s & q2 & P1 & P2 & P3).
    assert (q2 = p) as ->. { unfold dt_params in P1. destruct HU as (w & [= ->]). cbn [dtz] in P1. now rewrite (ue_ics X UE) in P1. }
    exists s. split; [intro zs; destruct (P2 zs) as (zs' & A & _); exists zs'; exact A|]. split.
    + intros q zs E. assert (G : dict_get TZID q = None) by (apply (HQ q E); right; now left).
      destruct (P3 q zs) as (d' & zs' & A & B & _).
      * intros id z z' U. now apply NU in U.
      * auto.
      * exists (ZDt d'), zs'. split; [auto|]. rewrite A. cbn [bind]. rewrite dict_del_none by exact G. split; [easy|exact B].
    + intros _. destruct (P2 []) as (zs' & A & _). destruct HU as (w & [= ->]). apply utc_text in A. subst s. change (py "Z") with [90].
      apply nb_app; [apply nb_fmt_datetime|nb].
Qed.

(** The line of an attribute, written and read. *)
Section Field.
Variable O : Type.
Variable load_o : list N -> list item -> res O.
Variable fields : list zitem.
Variables attr ics : list N.
Variable c : zconv.
Variable required : bool.
Hypothesis HU : upper ics = ics.
Hypothesis HL : zlookup fields ics = Some (ZField (mk_zfield attr ics c required)).
Notation key := (upper attr).
Lemma field_rt (ov : option zval) (pars : dict xp) : (forall v, ov = Some v -> stored_zval c v) ->
  (ov = None -> dict_get key pars = None) -> (forall n, In n (absent_of c) -> ~ In n (keys (par_of key pars))) -> exists its,
  (forall zs, exists zs', zdump_field X attr ics c ov pars zs = Ok (its, zs')) /\
  (forall its' st, Forall2 item_eq its its' -> dict_get attr (z_vals st) = None -> exists ov' p' zs',
     zpopulate_all X O load_o fields its' st = Ok (mk_zst (vset attr ov' (z_vals st)) (z_lines st) (z_rules st) (z_mem st)
       (z_extra st) (padd key p' (z_pars st)) zs') /\
     eq_opt back_zval ov ov' /\ bare p' = bare (par_of key pars)) /\
  ((forall v, ov = Some v -> wire_zval v) -> wire_par (par_of key pars) -> line_name_ok ics = true -> Forall (wf_item ok_line) its).
Proof.
  intros HV HN HA. destruct ov as [v|].
  - destruct (zval_rt c v (par_of key pars) (HV v eq_refl) HA) as (s & A & B & D).
    exists [ILine (mk_line ics (par_of key pars) s)]. split; [|split].
    + intro zs. destruct (A zs) as (zs' & E). exists zs'. unfold zdump_field. fold (par_of key pars). rewrite E. cbn [bind].
      unfold ContentLine. now rewrite HU.
    + intros its' st F G. inversion F as [|? it' ? r I R]; subst. inversion R; subst. apply item_eq_line in I as (l' & -> & E1 & E2 & E3).
      cbn [cl_name cl_params cl_value] in E1, E2, E3. destruct (B (cl_params l') (z_zones st) (eq_sym E3)) as (v' & zs' & B1 & B2 & B3).
      exists (Some v'), (cl_params l'), zs'. split; [|split; [exact B3|symmetry; exact E3]].
      cbn [zpopulate_all]. unfold zpopulate. cbn [item_name]. rewrite <- E1, HL. cbv beta iota. unfold zpopulate_field. cbn [zf_attr zf_conv].
      rewrite G, B1. cbn [bind]. rewrite <- E2, B2. reflexivity.
    + intros W1 W2 W3. constructor; [|constructor]. cbn [wf_item]. apply name_line; auto.
  - exists []. split; [intro zs; exists zs; reflexivity|]. split; [|intros; constructor].
    intros its' st F G. inversion F; subst. exists None, [], (z_zones st). unfold par_of. rewrite HN by easy. destruct st. now split.
Qed.
End Field.

(** ** Sequences *)
Section Seq.
Variable O : Type.
Variable load_o : list N -> list item -> res O.
Notation zpopulate_all := (zpopulate_all X O load_o).
Lemma zpopulate_app fields a b st : zpopulate_all fields (a ++ b) st = do st' <- zpopulate_all fields a st; zpopulate_all fields b st'.
Proof. revert st. induction a as [|x a IH]; intro st; [easy|]. cbn [app M_Vtz.zpopulate_all]. destruct (zpopulate _ _ _ _ _ _); cbn [bind]; [apply IH|easy]. Qed.
Lemma zpopulate_extra fields its : Forall (fun it => zlookup fields (item_name it) = None) its -> forall st, zpopulate_all fields its st =
  Ok (mk_zst (z_vals st) (z_lines st) (z_rules st) (z_mem st) (z_extra st ++ its) (z_pars st) (z_zones st)).
Proof.
  induction 1 as [|it its H F IH]; intro st; [destruct st; cbn; now rewrite app_nil_r|]. cbn [M_Vtz.zpopulate_all]. unfold zpopulate. rewrite H. cbn [bind].
  rewrite IH. cbn [z_vals z_lines z_rules z_mem z_extra z_pars z_zones]. now rewrite <- app_assoc.
Qed.
Lemma zpopulate_rules fields ls : Forall (fun l => zlookup fields (cl_name l) = Some ZRules) ls -> ls <> [] -> forall st,
  zpopulate_all fields (map ILine ls) st =
  Ok (mk_zst (z_vals st) (Some (match z_lines st with Some l => l | None => [] end ++ ls)) (z_rules st) (z_mem st) (z_extra st) (z_pars st) (z_zones st)).
Proof.
  induction 1 as [|l ls H F IH]; intros NE st; [easy|]. cbn [map M_Vtz.zpopulate_all]. unfold zpopulate. cbn [item_name]. rewrite H. cbn [bind].
  destruct ls as [|l2 ls]; [reflexivity|]. rewrite IH by easy. cbn [z_vals z_lines z_rules z_mem z_extra z_pars z_zones]. now rewrite <- app_assoc.
Qed.
Lemma zlookup_none fields n : zlookup fields n = None <-> forall i, In i fields -> ~ In n (znames i).
Proof.
  unfold zlookup. split.
  - intros H i I J. eapply find_none in H; [|exact I]. cbn beta in H. assert (E : existsb (str_eqb n) (znames i) = true); [|congruence].
    apply existsb_exists. exists n. split; [exact J|now apply str_eqb_eq].
  - intro H. destruct (find _ _) as [i|] eqn:E; [|easy]. apply find_some in E as [I E]. apply existsb_exists in E as (m & J & E). apply str_eqb_eq in E. subst m.
    now apply H in J.
Qed.
End Seq.
Lemma padd_get j k p d : dict_get j (padd k p d) = match p with [] => dict_get j d | _ => if str_eqb j k then Some p else dict_get j d end.
Proof.
  unfold padd. destruct p; [easy|]. destruct (str_eqb j k) eqn:E; [apply str_eqb_eq in E; subst; apply dict_get_set_same|].
  apply str_eqb_neq in E. rewrite dict_get_set_other by congruence. easy.
Qed.
Lemma vset_get j k v d : dict_get j (vset k v d) = if str_eqb j k then match v with Some _ => v | None => dict_get j d end else dict_get j d.
Proof.
  unfold vset. destruct v; [|now destruct (str_eqb j k)]. destruct (str_eqb j k) eqn:E; [apply str_eqb_eq in E; subst; apply dict_get_set_same|].
  apply str_eqb_neq in E. rewrite dict_get_set_other by congruence. easy.
Qed.
Ltac eqs := repeat match goal with |- context [str_eqb (py ?a) (py ?b)] =>
  let r := eval vm_compute in (str_eqb (py a) (py b)) in change (str_eqb (py a) (py b)) with r; cbv iota end.
Ltac gets := repeat (rewrite vset_get; eqs).

(** ** Observances *)
Lemma rule_line_eq ls : Forall (fun l => cl_params l = []) ls -> forall its, Forall2 item_eq (map ILine ls) its -> its = map ILine ls.
Proof.
  induction 1 as [|l ls H F IH]; intros its R; inversion R as [|? it' ? r I R']; subst; [easy|]. apply IH in R'. subst r. cbn [map]. f_equal.
  apply item_eq_line in I as (l' & -> & E1 & E2 & E3). f_equal. destruct l as [a b v], l' as [a' b' v']. cbn in *. subst. destruct b'; easy.
Qed.
Definition RULE_NAMES : list (list N) := [py "DTSTART"; py "RRULE"; py "EXRULE"; py "RDATE"; py "EXDATE"].
Lemma rules_shape rs ls : write_rules rs None = Ok ls ->
  Forall (fun l => In (cl_name l) RULE_NAMES /\ cl_params l = [] /\
    ((forall r, In r (rs_rules rs ++ rs_exrules rs) -> no_break (r_text r)) -> no_break (cl_value l))) ls.
Proof.
  unfold write_rules. intro H. destruct (write_start _ _) as [st|] eqn:E; [|easy]. injection H as <-.
  rewrite !Forall_app. repeat split.
  - revert E. generalize (None : option Z) as o. revert st. generalize (rs_rules rs ++ rs_exrules rs) at 1 as l.
    induction l as [|r l IH]; intros st o E; cbn [write_start] in E; [injection E as <-; constructor|].
    destruct (r_start r) as [d|]; [|eauto]. destruct o as [o|].
    + destruct (guard _ _); [|easy]. cbn [bind] in E. eauto.
    + destruct (write_start l (Some d)) as [q|] eqn:Q; [|easy]. injection E as <-. constructor; [|eauto].
      cbn [cl_name cl_params cl_value]. split; [now left|]. split; [easy|]. intros _. apply nb_fmt_datetime.
  - apply Forall_map, Forall_forall. intros r I. split; [cbn; auto|]. split; [easy|]. intro H. apply H, in_app_iff. now left.
  - apply Forall_map, Forall_forall. intros r I. split; [cbn; auto|]. split; [easy|]. intro H. apply H, in_app_iff. now right.
  - apply Forall_map, Forall_forall. intros r I. split; [cbn; auto 6|]. split; [easy|]. intros _. apply nb_fmt_datetime.
  - apply Forall_map, Forall_forall. intros r I. split; [cbn; auto 6|]. split; [easy|]. intros _. apply nb_fmt_datetime.
Qed.
Lemma extra_names fields names l l' : (forall i, In i fields -> incl (znames i) names) -> Forall (fun it => ~ In (item_name it) names) l ->
  Forall2 item_eq l l' -> Forall (fun it => zlookup fields (item_name it) = None) l'.
Proof.
  intros HI F R. induction R as [|a b l l' E R IH]; [constructor|]. inversion F as [|? ? H1 H2]; subst. constructor; [|auto].
  apply zlookup_none. intros i I J. apply H1. rewrite (item_eq_name _ _ E). now apply (HI i I).
Qed.
Lemma par_ok_of pars al k ab : par_ok pars al -> NoDup (map fst al) -> In (k, ab) al ->
  forall n, In n (py "VALUE" :: ab) -> ~ In n (keys (par_of k pars)).
Proof.
  intros H ND I n J. unfold par_of. destruct (dict_get k pars) as [p|] eqn:G; [|easy]. destruct (H k p G) as (_ & ab' & I' & H'). apply H'.
  assert (ab' = ab) as ->; [|exact J]. clear -ND I I'. induction al as [|[x y] al IH]; [easy|]. cbn [map fst] in ND. inversion ND; subst.
  destruct I as [E|I], I' as [E'|I']; auto; try congruence; exfalso; apply H1, in_map_iff; eexists; (split; [|eassumption]); cbn [fst]; congruence.
Qed.
Lemma par_ok_absent pars al k : par_ok pars al -> ~ In k (map fst al) -> dict_get k pars = None.
Proof.
  intros H N. destruct (dict_get k pars) as [p|] eqn:G; [|easy]. destruct (H k p G) as (_ & ab & I & _). exfalso. apply N, in_map_iff. eexists. split; [|exact I]. reflexivity.
Qed.
Lemma absent_keys k pars : dict_get k pars = None -> forall n, ~ In n (keys (par_of k pars)).
Proof. intros G n. unfold par_of. rewrite G. easy. Qed.
Lemma par_back k (pars : dict xp) (p' : xp) : (forall p, dict_get k pars = Some p -> p <> []) -> bare p' = bare (par_of k pars) ->
  eq_opt (fun a b => bare a = bare b) (dict_get k pars) (match p' with [] => None | _ => Some p' end).
Proof.
  unfold par_of. intros H. destruct (dict_get k pars) as [p|] eqn:G; intro E.
  - destruct p' as [|x p']; [destruct p; [now destruct (H [] eq_refl)|discriminate E]|]. cbn [eq_opt]. now rewrite E.
  - destruct p'; [exact I|discriminate E].
Qed.
Lemma wire_par_of pars k : (forall k p, dict_get k pars = Some p -> wire_par p) -> wire_par (par_of k pars).
Proof. intro H. unfold par_of. destruct (dict_get k pars) eqn:G; [eauto|]. split; [constructor|easy]. Qed.

Lemma posts_obs (st : zst Empty_set) x y ls rs' : dict_get (py "tzoffsetfrom") (z_vals st) = Some x -> dict_get (py "tzoffsetto") (z_vals st) = Some y ->
  z_lines st = Some ls -> read_rules rule_parse date_parse (Some ls) = Ok rs' ->
  zposts rule_parse date_parse Empty_set obs_fields st = Ok (mk_zst (z_vals st) None (Some rs') (z_mem st) (z_extra st) (z_pars st) (z_zones st)).
Proof.
  intros H1 H2 H3 H4. unfold obs_fields, ff. cbn [zposts zpost zf_required zf_attr andb]. unfold dict_mem. rewrite H1. cbn [negb bind].
  rewrite H2. cbn [negb bind]. rewrite H3, H4. reflexivity.
Qed.
Lemma obs_rt o : storable_obs rule_parse o -> exists sub,
  dump_obs X o = Ok (ICont (obs_name (o_dst o)) sub) /\
  (forall sub', Forall2 item_eq sub sub' -> exists o', load_obs X rule_parse date_parse (obs_name (o_dst o)) sub' = Ok o' /\ obs_back o o') /\
  (wire_obs o -> Forall (wf_item ok_line) sub).
Proof.
  intros [H1 H2 HR HP HX]. set (pars := o_params o) in *.
  set (al := [(py "TZOFFSETFROM", []); (py "TZOFFSETTO", [])] ++ if_set (o_name o) (py "TZNAME", []) ++ if_set (o_comment o) (py "COMMENT", [])) in *.
  assert (ND : NoDup (map fst al)).
  { unfold al. destruct (o_name o), (o_comment o); cbn [if_set app map fst]; repeat constructor; cbn [In]; intuition discriminate. }
  assert (NE : forall k p, dict_get k pars = Some p -> p <> []) by (intros k p G; now apply HP in G).
  pose proof (field_rt Empty_set no_obs obs_fields (py "tzoffsetfrom") (py "TZOFFSETFROM") ZCOffset true eq_refl eq_refl
    (Some (ZOffset (o_from o))) pars) as F1.
  destruct F1 as (a & A1 & A2 & A3); [now intros v [= <-]|easy|change (upper (py "tzoffsetfrom")) with (py "TZOFFSETFROM"); apply (par_ok_of _ _ _ _ HP ND); unfold al; rewrite !in_app_iff; cbn; auto|].
  pose proof (field_rt Empty_set no_obs obs_fields (py "tzoffsetto") (py "TZOFFSETTO") ZCOffset true eq_refl eq_refl
    (Some (ZOffset (o_to o))) pars) as F2.
  destruct F2 as (b & B1 & B2 & B3); [now intros v [= <-]|easy|change (upper (py "tzoffsetto")) with (py "TZOFFSETTO"); apply (par_ok_of _ _ _ _ HP ND); unfold al; rewrite !in_app_iff; cbn; auto|].
  pose proof (field_rt Empty_set no_obs obs_fields (py "tzname") (py "TZNAME") ZCText false eq_refl eq_refl
    (option_map ZText (o_name o)) pars) as F3.
  assert (N3 : o_name o = None -> dict_get (py "TZNAME") pars = None).
  { intro E. apply (par_ok_absent _ _ _ HP). unfold al. rewrite E. destruct (o_comment o); cbn [if_set app map fst In]; intuition discriminate. }
  destruct F3 as (n & C1 & C2 & C3); [intros v; destruct (o_name o); now intros [= <-]| |change (upper (py "tzname")) with (py "TZNAME")|].
  { change (upper (py "tzname")) with (py "TZNAME"). intro E. apply N3. now destruct (o_name o). }
  { destruct (o_name o) eqn:E; [|intros m _; now apply absent_keys, N3]. apply (par_ok_of _ _ _ _ HP ND); unfold al; rewrite !in_app_iff; cbn; auto. }
  pose proof (field_rt Empty_set no_obs obs_fields (py "comment") (py "COMMENT") ZCText false eq_refl eq_refl
    (option_map ZText (o_comment o)) pars) as F4.
  assert (N4 : o_comment o = None -> dict_get (py "COMMENT") pars = None).
  { intro E. apply (par_ok_absent _ _ _ HP). unfold al. rewrite E. destruct (o_name o); cbn [if_set app map fst In]; intuition discriminate. }
  destruct F4 as (c & D1 & D2 & D3); [intros v; destruct (o_comment o); now intros [= <-]| |change (upper (py "comment")) with (py "COMMENT")|].
  { change (upper (py "comment")) with (py "COMMENT"). intro E. apply N4. now destruct (o_comment o). }
  { destruct (o_comment o) eqn:E; [|intros m _; now apply absent_keys, N4]. apply (par_ok_of _ _ _ _ HP ND); unfold al; rewrite !in_app_iff; cbn; auto. }
  destruct (rules_round rule_parse date_parse RD (o_rules o) HR) as (ls & rs' & W & R & RB).
  pose proof (rules_shape _ _ W) as SH.
  exists (a ++ b ++ map ILine ls ++ n ++ c ++ o_extra o). split; [|split].
  - unfold dump_obs. fold pars. destruct (A1 []) as (z1 & ->), (B1 []) as (z2 & ->), (C1 []) as (z3 & ->), (D1 []) as (z4 & ->).
    cbn [bind]. rewrite W. cbn [bind]. now destruct (o_dst o).
  - intros sub' F. apply Forall2_app_inv_l' in F as (a' & f1 & -> & FA & F). apply Forall2_app_inv_l' in F as (b' & f2 & -> & FB & F).
    apply Forall2_app_inv_l' in F as (l' & f3 & -> & FL & F). apply Forall2_app_inv_l' in F as (n' & f4 & -> & FN & F).
    apply Forall2_app_inv_l' in F as (c' & x' & -> & FC & FX).
    apply rule_line_eq in FL; [|eapply Forall_impl; [|exact SH]; now intros ? (_ & ? & _)]. subst l'.
    assert (LN : ls <> []). { intros ->. cbn in R. discriminate R. }
    destruct (A2 a' z0 FA eq_refl) as (v1 & p1 & s1 & A & E1 & Q1).
    unfold load_obs, zload. assert (ON : str_eqb (obs_name (o_dst o)) STANDARD || str_eqb (obs_name (o_dst o)) DAYLIGHT = true) by now destruct (o_dst o). rewrite ON. clear ON.
    rewrite zpopulate_app, A. cbn [bind z_vals z_lines z_rules z_mem z_extra z_pars z_zones].
    edestruct (B2 b') as (v2 & p2 & s2 & B & E2 & Q2); [exact FB| |rewrite zpopulate_app, B].
    { cbn [z_vals z0]. gets. reflexivity. }
    cbn [bind]. rewrite zpopulate_app, zpopulate_rules; [|eapply Forall_impl; [|exact SH]; intros l (I & _); cbn [RULE_NAMES In] in I|exact LN].
    2:{ repeat (destruct I as [<-|I]; [reflexivity|]). destruct I. }
    cbn [bind z_vals z_lines z_rules z_mem z_extra z_pars z_zones z0 app].
    rewrite zpopulate_app. edestruct (C2 n') as (v3 & p3 & s3 & C & E3 & Q3); [exact FN| |rewrite C].
    { cbn [z_vals]. gets. reflexivity. }
    cbn [bind]. rewrite zpopulate_app. edestruct (D2 c') as (v4 & p4 & s4 & D & E4 & Q4); [exact FC| |rewrite D].
    { cbn [z_vals]. gets. reflexivity. }
    cbn [bind]. rewrite zpopulate_extra; [|apply (extra_names _ OBS_NAMES) with (l := o_extra o); [|exact HX|exact FX]].
    2:{ intros i I m J. unfold obs_fields, ff in I. cbn [In] in I. unfold OBS_NAMES. repeat (destruct I as [<-|I]; [cbn [znames zf_ics In] in J; cbn [In]; tauto|]). destruct I. }
    cbn [bind z_vals z_lines z_rules z_mem z_extra z_pars z_zones app].
    destruct v1 as [w1|]; [|easy]. destruct v2 as [w2|]; [|easy]. cbn [eq_opt] in E1, E2. destruct w1; try easy. destruct w2; try easy. cbn [back_zval] in E1, E2.
    injection E1 as <-. injection E2 as <-.
    assert (V3 : v3 = option_map ZText (o_name o)). { destruct (o_name o), v3 as [[]|]; cbn in E3; try easy; cbn; congruence. }
    assert (V4 : v4 = option_map ZText (o_comment o)). { destruct (o_comment o), v4 as [[]|]; cbn in E4; try easy; cbn; congruence. }
    erewrite posts_obs; [|cbn [z_vals]; gets; reflexivity|cbn [z_vals]; gets; reflexivity|cbn [z_lines]; reflexivity|exact R].
    cbn [bind z_vals z_lines z_rules z_mem z_extra z_pars z_zones]. gets.
    eexists. split; [reflexivity|]. constructor; cbn [o_dst o_from o_to o_name o_comment o_rules o_extra o_params]; try easy.
    + now destruct (o_dst o).
    + rewrite V3. now destruct (o_name o).
    + rewrite V4. now destruct (o_comment o).
    + intro k. rewrite !padd_get. cbn [z0 z_pars]. fold pars.
      change (upper (py "tzoffsetfrom")) with (py "TZOFFSETFROM") in *. change (upper (py "tzoffsetto")) with (py "TZOFFSETTO") in *.
      change (upper (py "tzname")) with (py "TZNAME") in *. change (upper (py "comment")) with (py "COMMENT") in *.
      destruct (str_eqb k (py "COMMENT")) eqn:K4; [apply str_eqb_eq in K4; subst k; eqs; pose proof (par_back _ _ _ (NE _) Q4); destruct p1, p2, p3, p4; assumption|].
      destruct (str_eqb k (py "TZNAME")) eqn:K3; [apply str_eqb_eq in K3; subst k; eqs; pose proof (par_back _ _ _ (NE _) Q3); destruct p1, p2, p3, p4; assumption|].
      destruct (str_eqb k (py "TZOFFSETTO")) eqn:K2; [apply str_eqb_eq in K2; subst k; eqs; pose proof (par_back _ _ _ (NE _) Q2); destruct p1, p2, p3, p4; assumption|].
      destruct (str_eqb k (py "TZOFFSETFROM")) eqn:K1; [apply str_eqb_eq in K1; subst k; eqs; pose proof (par_back _ _ _ (NE _) Q1); destruct p1, p2, p3, p4; assumption|].
      apply str_eqb_neq in K1, K2, K3, K4. rewrite (par_ok_absent _ _ k HP).
      * destruct p1, p2, p3, p4; exact I.
      * unfold al. destruct (o_name o), (o_comment o); cbn [if_set app map fst In]; intuition congruence.
  - intros [W1 W2 W3]. fold pars in W2. rewrite !Forall_app. repeat split.
    + apply A3; [now intros v [= <-]|now apply wire_par_of|reflexivity].
    + apply B3; [now intros v [= <-]|now apply wire_par_of|reflexivity].
    + apply Forall_map. eapply Forall_impl; [|exact SH]. intros [ln lp lv] (I & E & V). cbn [cl_name cl_params cl_value wf_item] in *. subst lp.
      apply name_line; [|split; [constructor|easy]|auto]. cbn [RULE_NAMES In] in I. repeat (destruct I as [<-|I]; [reflexivity|]). destruct I.
    + apply C3; [intros v; destruct (o_name o); now intros [= <-]|now apply wire_par_of|reflexivity].
    + apply D3; [intros v; destruct (o_comment o); now intros [= <-]|now apply wire_par_of|reflexivity].
    + exact W3.
Qed.
End Vtz.
