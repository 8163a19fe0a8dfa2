(** * Proofs: reading time zone definitions exactly (C61) *)
From Verif Require Import M_Base M_Text M_Line M_Codec M_Cal M_Time M_Span M_Dt M_Tree M_Comp M_Rrule M_Vtz.
From Verif Require Import S_Text S_Codec S_Dt S_Comp S_Multi S_Read S_Vtz S_ZoneRead.
From Verif Require Import P_Base P_Text P_Codec P_Comp P_Multi P_Cat P_Frame P_Whole P_Local P_Reorder P_ReadGen P_Value P_ReadVal P_Rrule P_Vtz P_ZoneRead.
From Coq Require Import Lia ZifyBool ZifyNat ZifyN Sorting.Sorted.
Open Scope N_scope.

Section ZoneRead.
Variable X : ext.
Variable rule_parse : option Z -> list N -> res M_Rrule.rule.
Variable date_parse : list N -> res Z.

(** ** Values *)
Definition zread (f : zfield) (cl : content_line) : res (zval * xp) :=
  do ps <- zprepare (zf_conv f) (cl_params cl); do (v, ps', _) <- zparse X (zf_conv f) (cl_value cl) ps []; Ok (v, ps').
Definition zmeans (c : zconv) (s : list N) (ps : xp) (v : zval) (rest : xp) : Prop :=
  match c with
  | ZCOffset => exists x, v = ZOffset x /\ means_offset s ps x rest
  | ZCText => exists t, v = ZText t /\ means_text s ps t rest
  | ZCUri => exists u, v = ZUrl u /\ means_url X s ps u rest
  | ZCDatetime => exists d, v = ZDt d /\ moment X [] datetime_text s ps d /\ rest = dict_del (py "TZID") ps
  end.
Lemma zprepare_iff c ps q : zprepare c ps = Ok q <-> typed_as (ztype c) ps /\ q = dict_del (py "VALUE") ps.
Proof.
  unfold zprepare, typed_as. change VALUE with (py "VALUE"). destruct (dict_get (py "VALUE") ps) as [[|p [|? ?]]|].
  - split; [intros [= <-]; auto|now intros [_ ->]].
  - destruct (str_eqb (ztype c) (pval_str p)) eqn:E; [apply str_eqb_eq in E|apply str_eqb_neq in E].
    + split; [intros [= <-]; auto|now intros [_ ->]].
    + split; [discriminate|]. intros [K _]. congruence.
  - split; [discriminate|easy].
  - split; [intros [= <-]; auto|now intros [_ ->]].
Qed.
Lemma zparse_iff c s ps v rest : (exists zs, zparse X c s ps [] = Ok (v, rest, zs)) <-> zmeans c s ps v rest.
Proof.
  destruct c; cbn [zparse zmeans].
  - split.
    + intros (zs & H). apply bind_Ok in H as (x & H & [= <- <- _]). apply offset_parse_exact in H as (w & H & ->). eexists. split; [reflexivity|]. exists w. auto.
    + intros (x & -> & w & H & -> & ->). exists []. rewrite (proj2 (offset_parse_exact s _) (ex_intro _ w (conj H eq_refl))). reflexivity.
  - split.
    + intros (zs & H). apply bind_Ok in H as (x & H & [= <- <- _]). apply text_parse_spec in H. eexists. split; [reflexivity|]. now split.
    + intros (x & -> & H & ->). exists []. apply text_parse_spec in H. now rewrite H.
  - split.
    + intros (zs & H). apply bind_Ok in H as (x & H & [= <- <- _]). eexists. split; [reflexivity|]. now split.
    + intros (x & -> & H & ->). exists []. now rewrite H.
  - split.
    + intros (zs & H). apply bind_Ok in H as ([[d q] zs1] & H & [= <- <- _]).
      assert (q = dict_del (py "TZID") ps) as -> by (unfold dt_parse in H; apply bind_Ok in H as ([[? ?] ?] & _ & [= _ <- _]); reflexivity).
      exists d. split; [reflexivity|]. split; [|reflexivity]. apply (moment_iff X FDatetime). eauto.
    + intros (d & -> & H & ->). apply (moment_iff X FDatetime) in H as (zs1 & H). exists zs1. now rewrite H.
Qed.
Lemma zread_iff f l v rest : zread f l = Ok (v, rest) <-> typed_as (ztype (zf_conv f)) (cl_params l) /\ zmeans (zf_conv f) (cl_value l) (dict_del (py "VALUE") (cl_params l)) v rest.
Proof.
  unfold zread. split.
  - intro H. apply bind_Ok in H as (ps & H1 & H). apply zprepare_iff in H1 as [T ->]. apply bind_Ok in H as ([[w q] zs] & H & [= <- <-]). split; [exact T|]. apply zparse_iff. eauto.
  - intros [T H]. rewrite (proj2 (zprepare_iff _ _ _) (conj T eq_refl)). cbn [bind]. apply zparse_iff in H as (zs & H). now rewrite H.
Qed.

(** ** Reading all items *)
Lemma zconv_dec (c : zconv) : {c = ZCDatetime} + {c <> ZCDatetime}. Proof. destruct c; (now left) || (right; discriminate). Qed.
Lemma sdec (k j : list N) : {k = j} + {k <> j}. Proof. apply list_eq_dec, N.eq_dec. Qed.
Section Pop.
Variable O : Type.
Variable load_o : list N -> list item -> res O.
Variable fields : list zitem.
Local Notation zst := (zst O).
Local Notation pop := (zpopulate X O load_o fields).
Local Notation pops := (zpopulate_all X O load_o fields).

Definition fnames : list (list N) := flat_map znames fields.
(** What the proofs need of a table; checked by computation for the two tables. *)
Record good : Prop := mk_good {
  gd_look : forall i n, In i fields -> In n (znames i) -> zlookup fields n = Some i;
  gd_attr : forall f g, In (ZField f) fields -> In (ZField g) fields -> zf_attr f = zf_attr g \/ upper (zf_attr f) = upper (zf_attr g) -> f = g;
  gd_dt : forall f g, In (ZField f) fields -> In (ZField g) fields -> zf_conv f = ZCDatetime -> zf_conv g = ZCDatetime -> f = g
}.
Hypothesis G : good.
Lemma look_in n i : zlookup fields n = Some i -> In i fields /\ In n (znames i).
Proof. intro H. apply find_some in H as [I H]. split; [exact I|]. apply existsb_exists in H as (m & J & E). apply str_eqb_eq in E. now subst. Qed.
Lemma look_none n : zlookup fields n = None <-> ~ In n fnames.
Proof. rewrite zlookup_none. unfold fnames. rewrite in_flat_map. split; [intros H (i & I & J); now apply (H i)|intros H i I J; apply H; eauto]. Qed.

(** Zones are only known once a time was read. *)
Definition fresh (st : zst) : Prop := forall f, In (ZField f) fields -> zf_conv f = ZCDatetime -> dict_get (zf_attr f) (z_vals st) = None -> z_zones st = [].
Lemma zparse_zones c s ps zs : c <> ZCDatetime -> zparse X c s ps zs = do (v, q, _) <- zparse X c s ps []; Ok (v, q, zs).
Proof. destruct c; intro H; try contradiction; cbn [zparse]; [destruct (utcoffset_parse s)|destruct (text_parse s)|destruct (x_urlparse X s)]; reflexivity. Qed.

Definition put (f : zfield) (v : zval) (ps : xp) (zs : zones) (st : zst) : zst :=
  mk_zst (dict_set (zf_attr f) v (z_vals st)) (z_lines st) (z_rules st) (z_mem st) (z_extra st)
    (match ps with [] => z_pars st | _ => dict_set (upper (zf_attr f)) ps (z_pars st) end) zs.
Lemma pop_field f l st : In (ZField f) fields -> fresh st ->
  (forall st', zpopulate_field X O f l st = Ok st' -> dict_get (zf_attr f) (z_vals st) = None /\ exists v ps zs, zread f l = Ok (v, ps) /\ st' = put f v ps zs st /\ (zf_conv f <> ZCDatetime -> zs = z_zones st)) /\
  (forall v ps, dict_get (zf_attr f) (z_vals st) = None -> zread f l = Ok (v, ps) -> exists st', zpopulate_field X O f l st = Ok st').
Proof.
  intros I FR. unfold zpopulate_field, zread. destruct (dict_get (zf_attr f) (z_vals st)) eqn:E; [split; [discriminate|congruence]|].
  destruct (zconv_dec (zf_conv f)) as [ED|ED].
  - rewrite (FR f I ED E). destruct (zprepare (zf_conv f) (cl_params l)) as [ps|e]; cbn [bind]; [|split; discriminate].
    destruct (zparse X (zf_conv f) (cl_value l) ps []) as [[[v q] zs]|e]; cbn [bind]; [|split; discriminate]. split; [|eauto].
    intros st' [= <-]. split; [reflexivity|]. exists v, q, zs. split; [reflexivity|]. split; [reflexivity|contradiction].
  - destruct (zprepare (zf_conv f) (cl_params l)) as [ps|e]; cbn [bind]; [|split; discriminate]. rewrite (zparse_zones _ _ _ (z_zones st) ED).
    destruct (zparse X (zf_conv f) (cl_value l) ps []) as [[[v q] zs]|e]; cbn [bind]; [|split; discriminate]. split; [|eauto].
    intros st' [= <-]. split; [reflexivity|]. exists v, q, (z_zones st). split; [reflexivity|]. now split.
Qed.
Lemma put_fresh f v ps zs st : In (ZField f) fields -> fresh st -> (zf_conv f <> ZCDatetime -> zs = z_zones st) -> fresh (put f v ps zs st).
Proof.
  intros I FR H g J D. cbn [put z_vals z_zones]. destruct (sdec (zf_attr g) (zf_attr f)) as [->|NE]; [now rewrite dict_get_set_same|]. rewrite dict_get_set_other by congruence.
  intro K. rewrite H; [now apply (FR g J D)|]. intro D2. apply NE. f_equal. now apply (gd_dt G).
Qed.

(** What the items add to a state. *)
Definition key (f : zfield) : list N := upper (zf_attr f).
Definition field_step (f : zfield) (its : list item) (st st' : zst) : Prop :=
  cont_free (zf_ics f) its /\ match lines (zf_ics f) its with
  | [] => dict_get (zf_attr f) (z_vals st') = dict_get (zf_attr f) (z_vals st) /\ dict_get (key f) (z_pars st') = dict_get (key f) (z_pars st)
  | [l] => dict_get (zf_attr f) (z_vals st) = None /\ exists v ps, zread f l = Ok (v, ps) /\ dict_get (zf_attr f) (z_vals st') = Some v /\
      dict_get (key f) (z_pars st') = match ps with [] => dict_get (key f) (z_pars st) | _ => Some ps end
  | _ => False
  end.
Definition of_rules (its : list item) : list content_line :=
  flat_map (fun it => match it with ILine l => match zlookup fields (cl_name l) with Some ZRules => [l] | _ => [] end | ICont _ _ => [] end) its.
Definition of_members (its : list item) : list (list N * list item) :=
  flat_map (fun it => match it with ICont n l => match zlookup fields n with Some ZMembers => [(n, l)] | _ => [] end | ILine _ => [] end) its.
Record steps (its : list item) (st st' : zst) : Prop := mk_steps {
  ss_fresh : fresh st';
  ss_field : forall f, In (ZField f) fields -> field_step f its st st';
  ss_rules : forall n l, zlookup fields n = Some ZRules -> ~ In (ICont n l) its;
  ss_lines : z_lines st' = match of_rules its with [] => z_lines st | ls => Some (match z_lines st with Some l => l | None => [] end ++ ls) end;
  ss_set : z_rules st' = z_rules st;
  ss_cont : forall l, In (ILine l) its -> zlookup fields (cl_name l) <> Some ZMembers;
  ss_mem : exists ms, Forall2 (fun p m => load_o (fst p) (snd p) = Ok m) (of_members its) ms /\ z_mem st' = z_mem st ++ ms;
  ss_extra : z_extra st' = z_extra st ++ others fnames its;
  ss_keys : forall k, dict_get k (z_pars st') <> None -> dict_get k (z_pars st) <> None \/ exists f, In (ZField f) fields /\ k = key f
}.
Lemma steps_nil st : fresh st -> steps [] st st.
Proof.
  intro F. constructor; try reflexivity; try easy.
  - exists []. split; [constructor|]. now rewrite app_nil_r.
  - cbn. now rewrite app_nil_r.
  - auto.
Qed.
Lemma lines_cons n it its : lines n (it :: its) = lines n [it] ++ lines n its.
Proof. change (it :: its) with ([it] ++ its). apply lines_app. Qed.
Lemma others_cons names it its : others names (it :: its) = others names [it] ++ others names its.
Proof. unfold others. cbn [filter]. now destruct (negb _). Qed.
Lemma steps_cons it its st st1 st2 : steps [it] st st1 -> steps its st1 st2 -> steps (it :: its) st st2.
Proof.
  intros [A1 A2 A3 A4 A5 A6 (m1 & A7 & A8) A9 A10] [B1 B2 B3 B4 B5 B6 (m2 & B7 & B8) B9 B10]. constructor.
  - exact B1.
  - intros f I. specialize (A2 f I) as [C1 A2]. specialize (B2 f I) as [C2 B2]. split; [intros l [E|J]; [apply (C1 l); now left|now apply (C2 l)]|]. rewrite lines_cons.
    destruct (lines (zf_ics f) [it]) as [|l [|? ?]]; cbn [app].
    + destruct A2 as [E1 E2]. rewrite E1, E2 in B2. exact B2.
    + destruct A2 as (N & v & ps & R & V & P). destruct (lines (zf_ics f) its) as [|l2 ls].
      * split; [exact N|]. exists v, ps. destruct B2 as [-> ->]. auto.
      * destruct ls; [|contradiction]. destruct B2 as [B2 _]. congruence.
    + contradiction.
  - intros n l E [J|J]; [apply (A3 n l E); now left|now apply (B3 n l E)].
  - change (of_rules (it :: its)) with (match it with ILine l => match zlookup fields (cl_name l) with Some ZRules => [l] | _ => [] end | ICont _ _ => [] end ++ of_rules its).
    rewrite B4, A4. cbn [of_rules flat_map]. rewrite app_nil_r. destruct (match it with ILine l => _ | ICont _ _ => [] end) as [|a q]; cbn [app]; [reflexivity|]. destruct (of_rules its); [now rewrite app_nil_r|]. now rewrite <- app_assoc.
  - congruence.
  - intros l [J|J]; [apply A6; now left|now apply B6].
  - exists (m1 ++ m2). split; [|now rewrite B8, A8, app_assoc].
    change (of_members (it :: its)) with (match it with ICont n l => match zlookup fields n with Some ZMembers => [(n, l)] | _ => [] end | ILine _ => [] end ++ of_members its).
    apply Forall2_app; [|exact B7]. cbn [of_members flat_map] in A7. now rewrite app_nil_r in A7.
  - rewrite (others_cons fnames it its), B9, A9. symmetry. apply app_assoc.
  - intros k H. destruct (B10 k H) as [K|K]; [exact (A10 k K)|now right].
Qed.

Lemma other_field it i f st : zlookup fields (item_name it) = i -> i <> Some (ZField f) -> In (ZField f) fields -> field_step f [it] st st.
Proof.
  intros L NE I. assert (NN : item_name it <> zf_ics f). { intro E. apply NE. rewrite <- L, E. apply (gd_look G); [exact I|]. now left. }
  destruct (lines_other _ _ NN) as [E C]. split; [exact C|]. now rewrite E.
Qed.
Lemma names_known it : In (item_name it) fnames -> others fnames [it] = [].
Proof. intro H. unfold others. cbn [filter]. assert (existsb (str_eqb (item_name it)) fnames = true) as -> by (apply existsb_exists; exists (item_name it); split; [exact H|apply str_eqb_refl]). reflexivity. Qed.
Lemma in_fnames n i : zlookup fields n = Some i -> In n fnames.
Proof. intro H. apply look_in in H as [I J]. unfold fnames. apply in_flat_map. eauto. Qed.
Lemma step_one it st st' : fresh st -> pop it st = Ok st' -> steps [it] st st'.
Proof.
  intros F H. unfold zpopulate in H. destruct (zlookup fields (item_name it)) as [i|] eqn:L.
  - pose proof (in_fnames _ _ L) as IN. destruct i as [f| |].
    + destruct it as [l|n its]; [|discriminate]. destruct (look_in _ _ L) as [I [EN|[]]]. cbn [item_name] in *. destruct (proj1 (pop_field f l st I F) st' H) as (N & v & ps & zs & R & -> & HZ). constructor.
      * now apply put_fresh.
      * intros g J. destruct (sdec (zf_attr g) (zf_attr f)) as [E|NE].
        -- assert (g = f) as -> by (apply (gd_attr G); auto). split; [apply cont_free_line|]. rewrite EN, lines_here. split; [exact N|]. exists v, ps. split; [exact R|]. unfold put, key. cbn [z_vals z_pars]. rewrite dict_get_set_same. split; [reflexivity|].
           destruct ps; [reflexivity|]. now rewrite dict_get_set_same.
        -- assert (NK : key g <> key f) by (intro K; apply NE; f_equal; apply (gd_attr G); auto).
           assert (NN : item_name (ILine l) <> zf_ics g). { cbn [item_name]. intro E. rewrite E in L. rewrite (gd_look G (ZField g) (zf_ics g) J (or_introl eq_refl)) in L. injection L as <-. now apply NE. }
           destruct (lines_other _ _ NN) as [E C]. split; [exact C|]. rewrite E. unfold put. cbn [z_vals z_pars]. rewrite dict_get_set_other by congruence. split; [reflexivity|].
           destruct ps; [reflexivity|]. fold (key f). now rewrite dict_get_set_other by congruence.
      * intros n k _ [E|[]]. discriminate.
      * unfold of_rules. cbn [flat_map]. rewrite L. reflexivity.
      * reflexivity.
      * intros k [[= <-]|[]]. congruence.
      * exists []. split; [constructor|]. now rewrite app_nil_r.
      * rewrite (names_known (ILine l) IN). now rewrite app_nil_r.
      * intros k K. cbn [put z_pars] in K. destruct ps as [|p ps]; [now left|]. destruct (sdec k (key f)) as [->|NE]; [right; eauto|]. left. unfold key in NE. rewrite dict_get_set_other in K by congruence. exact K.
    + destruct it as [l|n its]; [|discriminate]. injection H as <-. cbn [item_name] in *. constructor; cbn [z_vals z_pars z_lines z_rules z_mem z_extra]; auto.
      * intros g J. destruct (other_field (ILine l) _ g st L ltac:(discriminate) J) as [C K]. split; [exact C|exact K].
      * intros n k _ [E|[]]. discriminate.
      * unfold of_rules. cbn [flat_map]. rewrite L. reflexivity.
      * intros k [[= <-]|[]]. congruence.
      * exists []. split; [constructor|]. now rewrite app_nil_r.
      * rewrite (names_known (ILine l) IN). now rewrite app_nil_r.
    + destruct it as [l|n its]; [discriminate|]. apply bind_Ok in H as (o & H & [= <-]). cbn [item_name] in *. constructor; cbn [z_vals z_pars z_lines z_rules z_mem z_extra]; auto.
      * intros g J. destruct (other_field (ICont n its) _ g st L ltac:(discriminate) J) as [C K]. split; [exact C|exact K].
      * intros m k E [[= <- <-]|[]]. congruence.
      * intros k [[=]|[]].
      * exists [o]. split; [|reflexivity]. unfold of_members. cbn [flat_map]. rewrite L. constructor; [exact H|constructor].
      * rewrite (names_known (ICont n its) IN). now rewrite app_nil_r.
  - assert (st' = mk_zst (z_vals st) (z_lines st) (z_rules st) (z_mem st) (z_extra st ++ [it]) (z_pars st) (z_zones st)) as -> by (destruct it; now injection H as <-).
    constructor; cbn [z_vals z_pars z_lines z_rules z_mem z_extra]; auto.
    + intros g J. destruct (other_field it _ g st L ltac:(discriminate) J) as [C K]. split; [exact C|exact K].
    + intros n k E [-> |[]]. cbn [item_name] in L. congruence.
    + unfold of_rules. cbn [flat_map]. destruct it as [l|n k]; [cbn [item_name] in L; now rewrite L|reflexivity].
    + intros k [-> |[]]. cbn [item_name] in L. congruence.
    + exists []. split; [|now rewrite app_nil_r]. unfold of_members. cbn [flat_map]. destruct it as [l|n k]; [constructor|]. cbn [item_name] in L. rewrite L. constructor.
    + unfold others. cbn [filter]. apply look_none in L. assert (existsb (str_eqb (item_name it)) fnames = false) as ->; [|reflexivity].
      apply Bool.not_true_iff_false. intro E. apply existsb_exists in E as (n & J & E). apply str_eqb_eq in E. now subst.
Qed.
Lemma steps_of its : forall st st', fresh st -> pops its st = Ok st' -> steps its st st'.
Proof.
  induction its as [|it its IH]; intros st st' F H; cbn [zpopulate_all] in H; [injection H as <-; now apply steps_nil|]. apply bind_Ok in H as (s1 & H1 & H).
  apply (step_one it st s1 F) in H1. eapply steps_cons; [exact H1|]. apply IH; [apply (ss_fresh _ _ _ H1)|exact H].
Qed.
Lemma of_members_nil its : (forall n, zlookup fields n <> Some ZMembers) -> of_members its = [].
Proof. intro H. induction its as [|[l|n k] its IH]; cbn [of_members flat_map]; auto. destruct (zlookup fields n) as [[| |]|] eqn:E; auto. now apply H in E. Qed.

(** When reading succeeds. *)
Record readable (its : list item) (st : zst) : Prop := mk_readable {
  ra_field : forall f, In (ZField f) fields -> cont_free (zf_ics f) its /\
    match lines (zf_ics f) its with
    | [] => True
    | [l] => dict_get (zf_attr f) (z_vals st) = None /\ exists v ps, zread f l = Ok (v, ps)
    | _ => False
    end;
  ra_rules : forall n l, zlookup fields n = Some ZRules -> ~ In (ICont n l) its;
  ra_cont : forall l, In (ILine l) its -> zlookup fields (cl_name l) <> Some ZMembers;
  ra_mem : exists ms, Forall2 (fun p m => load_o (fst p) (snd p) = Ok m) (of_members its) ms
}.
Lemma pops_ok its : forall st, fresh st -> readable its st -> exists st', pops its st = Ok st'.
Proof.
  induction its as [|it its IH]; intros st F [A1 A2 A3 (ms & A4)]; cbn [zpopulate_all]; [eauto|].
  assert (exists s1, pop it st = Ok s1) as (s1 & E1).
  { unfold zpopulate. destruct (zlookup fields (item_name it)) as [[f| |]|] eqn:L; [| | |destruct it; eauto].
    - destruct (look_in _ _ L) as [I [EN|[]]]. destruct (A1 f I) as [C H]. destruct it as [l|n k]; [|exfalso; cbn [item_name] in EN; subst n; apply (C k); now left].
      cbn [item_name] in EN. rewrite EN, lines_cons, lines_here in H. cbn [app] in H. destruct (lines (cl_name l) its); [|contradiction]. destruct H as (N & v & ps & R).
      exact (proj2 (pop_field f l st I F) v ps N R).
    - destruct it as [l|n k]; [eauto|]. exfalso. apply (A2 n k L). now left.
    - destruct it as [l|n k]; [exfalso; apply (A3 l (or_introl eq_refl) L)|]. cbn [item_name] in L. unfold of_members in A4. cbn [flat_map] in A4. rewrite L in A4. cbn [app] in A4.
      inversion A4 as [|? m ? q H1 H2]. subst. cbn [fst snd] in H1. rewrite H1. cbn [bind]. eauto. }
  rewrite E1. cbn [bind]. pose proof (step_one it st s1 F E1) as S1. apply IH; [apply (ss_fresh _ _ _ S1)|]. constructor.
  - intros f I. destruct (A1 f I) as [C H]. split; [intros l J; apply (C l); now right|]. rewrite lines_cons in H. destruct (ss_field _ _ _ S1 f I) as [_ K].
    destruct (lines (zf_ics f) [it]) as [|l [|? ?]]; cbn [app] in H.
    + destruct K as [-> _]. exact H.
    + destruct (lines (zf_ics f) its); [exact Logic.I|contradiction].
    + contradiction.
  - intros n l E J. apply (A2 n l E). now right.
  - intros l J. apply A3. now right.
  - unfold of_members in A4. cbn [flat_map] in A4. apply Forall2_app_inv_l in A4 as (m1 & m2 & _ & H & _). eauto.
Qed.
Lemma fresh0 : fresh z0. Proof. now intros f _ _ _. Qed.
End Pop.

(** ** The two tables *)
Ltac field_cases := repeat match goal with
  | H : In (ZField _) _ |- _ => cbn in H; repeat destruct H as [[= <-]|H]; try discriminate H; try contradiction
  end.
Lemma good_obs : good obs_fields.
Proof.
  constructor.
  - intros i n I J. cbn [obs_fields In] in I. repeat destruct I as [<-|I]; try contradiction; cbn [znames zf_ics ff In] in J; repeat destruct J as [<-|J]; try contradiction; reflexivity.
  - intros f g I J. cbn [obs_fields ff In] in I, J. repeat destruct I as [[= <-]|I]; try contradiction; repeat destruct J as [[= <-]|J]; try contradiction; intros [E|E]; (reflexivity || discriminate E).
  - intros f g I J. cbn [obs_fields ff In] in I, J. repeat destruct I as [[= <-]|I]; try contradiction; discriminate.
Qed.
Lemma good_zone : good zone_fields.
Proof.
  constructor.
  - intros i n I J. cbn [zone_fields In] in I. repeat destruct I as [<-|I]; try contradiction; cbn [znames zf_ics ff In] in J; repeat destruct J as [<-|J]; try contradiction; reflexivity.
  - intros f g I J. cbn [zone_fields ff In] in I, J. repeat destruct I as [[= <-]|I]; try contradiction; repeat destruct J as [[= <-]|J]; try contradiction; intros [E|E]; (reflexivity || discriminate E).
  - intros f g I J. cbn [zone_fields ff In] in I, J. repeat destruct I as [[= <-]|I]; try contradiction; repeat destruct J as [[= <-]|J]; try contradiction; (reflexivity || discriminate).
Qed.
Lemma others_same a b its : (forall n, In n a <-> In n b) -> others a its = others b its.
Proof.
  intro H. unfold others. apply filter_ext. intro it. f_equal. apply Bool.eq_iff_eq_true. rewrite !existsb_exists. split; intros (n & I & E); exists n; (split; [now apply H|exact E]).
Qed.
Lemma look_rules n : zlookup obs_fields n = Some ZRules <-> In n S_ZoneRead.RULE_NAMES.
Proof.
  split.
  - intro H. apply look_in in H as [_ H]. exact H.
  - intro H. apply (gd_look _ good_obs ZRules n); [cbn; tauto|exact H].
Qed.
Lemma of_rules_eq its : of_rules obs_fields its = rule_lines its.
Proof.
  unfold of_rules, rule_lines. apply flat_map_ext. intros [l|n k]; [|reflexivity]. destruct (existsb (str_eqb (cl_name l)) S_ZoneRead.RULE_NAMES) eqn:E.
  - apply existsb_exists in E as (n & I & E). apply str_eqb_eq in E. rewrite E, (proj2 (look_rules n) I). reflexivity.
  - destruct (zlookup obs_fields (cl_name l)) as [[| |]|] eqn:L; try reflexivity. exfalso. apply look_rules in L.
    assert (K : existsb (str_eqb (cl_name l)) S_ZoneRead.RULE_NAMES = true) by (apply existsb_exists; exists (cl_name l); split; [exact L|apply str_eqb_refl]). congruence.
Qed.
Lemma look_members n : zlookup zone_fields n = Some ZMembers <-> In n [py "STANDARD"; py "DAYLIGHT"].
Proof.
  split.
  - intro H. apply look_in in H as [_ H]. exact H.
  - intro H. apply (gd_look _ good_zone ZMembers n); [cbn; tauto|exact H].
Qed.
Lemma of_members_eq its : of_members zone_fields its = obs_parts its.
Proof.
  unfold of_members, obs_parts. apply flat_map_ext. intros [l|n k]; [reflexivity|]. destruct (str_eqb n (py "STANDARD") || str_eqb n (py "DAYLIGHT")) eqn:E.
  - rewrite (proj2 (look_members n)); [reflexivity|]. apply Bool.orb_true_iff in E as [E|E]; apply str_eqb_eq in E; subst; cbn; tauto.
  - destruct (zlookup zone_fields n) as [[| |]|] eqn:L; try reflexivity. exfalso. apply look_members in L as [<-|[<-|[]]]; discriminate E.
Qed.

(** ** From a field to the description of its line *)
Section Field.
Variable A : Type.
Variable f : zfield.
Variable inj : A -> zval.
Variable means : list N -> xp -> A -> xp -> Prop.
Hypothesis HM : forall s ps v rest, zmeans (zf_conv f) s ps v rest <-> exists a, v = inj a /\ means s ps a rest.
Hypothesis HI : forall a b, inj a = inj b -> a = b.
Lemma field_of {O} its (st : zst O) : field_step O f its z0 st ->
  exists o, dict_get (zf_attr f) (z_vals st) = option_map inj o /\ field_read (zf_ics f) (ztype (zf_conv f)) means (key f) its (z_pars st) o.
Proof.
  intros [C H]. unfold field_read. destruct (lines (zf_ics f) its) as [|l [|? ?]] eqn:EL; [| |contradiction].
  - exists None. destruct H as [H1 H2]. split; [exact H1|]. exists []. split; [split; [now rewrite EL|exact C]|]. split; [reflexivity|exact H2].
  - destruct H as (_ & v & ps & R & V & P). apply zread_iff in R as [T R]. apply HM in R as (a & -> & R). exists (Some a). split; [exact V|]. exists [l]. split; [split; [now rewrite EL|exact C]|].
    exists a, ps. split; [exact T|]. split; [exact R|]. split; [reflexivity|]. rewrite P. now destruct ps.
Qed.
Lemma field_readable its pars o : field_read (zf_ics f) (ztype (zf_conv f)) means (key f) its pars o ->
  cont_free (zf_ics f) its /\ match lines (zf_ics f) its with [] => True | [l] => exists v ps, zread f l = Ok (v, ps) | _ => False end.
Proof.
  intros (ls & [-> C] & H). split; [exact C|]. destruct (lines (zf_ics f) its) as [|l [|? ?]]; [exact Logic.I| |contradiction]. destruct H as (v & rest & T & R & _). exists (inj v), rest. apply zread_iff. split; [exact T|]. apply HM. eauto.
Qed.
Lemma field_det its p q o o' : field_read (zf_ics f) (ztype (zf_conv f)) means (key f) its p o -> field_read (zf_ics f) (ztype (zf_conv f)) means (key f) its q o' ->
  o = o' /\ dict_get (key f) p = dict_get (key f) q.
Proof.
  intros (ls & [-> _] & H) (ls' & [-> _] & K). destruct (lines (zf_ics f) its) as [|l [|? ?]]; [| |contradiction].
  - destruct H as [-> ->], K as [-> ->]. now split.
  - destruct H as (v & rest & T & R & -> & ->), K as (w & rest' & _ & R' & -> & ->).
    assert (E : zread f l = Ok (inj v, rest)) by (apply zread_iff; split; [exact T|]; apply HM; eauto). assert (E' : zread f l = Ok (inj w, rest')) by (apply zread_iff; split; [exact T|]; apply HM; eauto).
    rewrite E in E'. injection E' as E1 <-. apply HI in E1. subst. now split.
Qed.
End Field.
End ZoneRead.
