(** * Proofs about time zone definitions (C50): whole zones and their text *)
From Verif Require Import M_Base M_Text M_Line M_Codec M_Cal M_Time M_Span M_Dt M_Tree M_Comp M_Rrule M_Zone M_Vtz M_Fold.
From Verif Require Import S_Text S_Codec S_Line S_Fold S_Dt S_Tree S_Comp S_Store S_Ref S_Wire S_Vtz.
From Verif Require Import P_Base P_Text P_Codec P_Dt P_Attr P_Tree P_Comp P_Rt P_Field P_Out P_Wire P_Calendar P_Rrule P_Vtz.
From Coq Require Import Lia ZifyBool ZifyNat ZifyN.
Open Scope N_scope.

Ltac eqs := repeat match goal with |- context [str_eqb (py ?a) (py ?b)] =>
  let r := eval vm_compute in (str_eqb (py a) (py b)) in change (str_eqb (py a) (py b)) with r; cbv iota end.
Ltac gets := repeat (rewrite vset_get; eqs).
Section Zone.
Variable X : ext.
Hypothesis UE : utc_env X.
Variable rule_parse : option Z -> list N -> res rule.
Variable date_parse : list N -> res Z.
Hypothesis RD : reads_dates date_parse.

Lemma all_obs l : Forall (storable_obs rule_parse) l -> exists its,
  dump_all X l = Ok its /\
  (forall its' st, Forall2 item_eq its its' -> exists l',
     zpopulate_all X observance (load_obs X rule_parse date_parse) zone_fields its' st =
       Ok (mk_zst (z_vals st) (z_lines st) (z_rules st) (z_mem st ++ l') (z_extra st) (z_pars st) (z_zones st)) /\
     Forall2 obs_back l l') /\
  (Forall wire_obs l -> Forall (wf_item ok_line) its).
Proof.
  induction 1 as [|o l H F (its & D & IH & W)].
  - exists []. split; [easy|]. split; [|constructor]. intros its' st R. inversion R; subst. exists []. destruct st. cbn. rewrite app_nil_r. now split.
  - destruct (obs_rt X UE rule_parse date_parse RD o H) as (sub & D1 & R1 & W1).
    exists (ICont (obs_name (o_dst o)) sub :: its). split; [cbn [dump_all]; rewrite D1; cbn [bind]; now rewrite D|]. split.
    + intros its' st R. inversion R as [|? it' ? r I R']; subst. apply item_eq_cont in I as (sub' & -> & E).
      destruct (R1 sub' E) as (o' & L & B). cbn [zpopulate_all]. unfold zpopulate. cbn [item_name].
      assert (K : zlookup zone_fields (obs_name (o_dst o)) = Some ZMembers) by now destruct (o_dst o). rewrite K. cbv iota. rewrite L. cbn [bind].
      match goal with |- context [zpopulate_all _ _ _ _ r ?s] => destruct (IH r s R') as (l' & P & Q) end. rewrite P.
      exists (o' :: l'). cbn [z_vals z_lines z_rules z_mem z_extra z_pars z_zones]. rewrite <- app_assoc. split; [reflexivity|now constructor].
    + intro WA. inversion WA; subst. constructor; [|auto]. apply wf_cont. destruct (o_dst o); repeat split; auto; try discriminate;
      intros c Hc I; cbn in Hc; vm_compute in I; intuition congruence.
Qed.
Lemma same_is z : same_tz (Some z) (Some (x_utc X)) = true -> z = x_utc X.
Proof. destruct z, (x_utc X); try easy. cbn. intro E. apply N.eqb_eq in E. now subst. Qed.
Lemma to_utc d d' : storable_dt X d -> utc_ok X (VDt d) -> eq_dt X d d' -> dt_astimezone (x_env X) d' (Some (x_utc X)) = Ok d.
Proof.
  intros (HF & HW & _) (w & [= ->]) (E1 & E2 & E3). cbn [wall fold dtz] in *. destruct d' as [w' f' z']. cbn [wall fold dtz] in *. subst w' f'.
  assert (exists z, z' = Some z /\ z_is_utc (x_zdb X) z = true) as (z & -> & HZ).
  { destruct E3 as [<-|[_ U]]; [exists (x_utc X); split; [easy|apply UE]|]. cbn in U. destruct z' as [z|]; [eauto|easy]. }
  unfold dt_astimezone. cbn [dtz naive negb andb]. destruct (same_tz (Some z) (Some (x_utc X))) eqn:ES; [apply same_is in ES; now subst|].
  unfold utcoffset. cbn [wall fold dtz]. rewrite (ue_off X UE z w false HZ), Z.sub_0_r. rewrite HW, (ue_from X UE). now rewrite HW.
Qed.
Lemma posts_zone (st : zst observance) x : dict_get (py "tzid") (z_vals st) = Some x ->
  zposts rule_parse date_parse observance zone_fields st = Ok st.
Proof. intros H. unfold zone_fields, ff. cbn [zposts zpost zf_required zf_attr andb]. unfold dict_mem. rewrite H. reflexivity. Qed.

Lemma zone_rt z : storable_zone X rule_parse z -> exists sub,
  dump_zone X z = Ok (ICont (py "VTIMEZONE") sub) /\
  (forall sub', Forall2 item_eq sub sub' -> exists z', load_zone X rule_parse date_parse (py "VTIMEZONE") sub' = Ok z' /\ zone_back z z') /\
  (wire_zone X z -> wf_item ok_line (ICont (py "VTIMEZONE") sub)).
Proof.
  intros [HO HU HM HP HX]. set (pars := t_params z) in *.
  set (al := [(py "TZID", [])] ++ if_set (t_url z) (py "TZURL", []) ++ if_set (t_modified z) (py "LAST_MODIFIED", [py "TZID"])) in *.
  assert (ND : NoDup (map fst al)).
  { unfold al. destruct (t_url z), (t_modified z); cbn [if_set app map fst]; repeat constructor; cbn [In]; intuition discriminate. }
  assert (NE : forall k p, dict_get k pars = Some p -> p <> []) by (intros k p G; now apply HP in G).
  pose proof (field_rt X UE observance (load_obs X rule_parse date_parse) zone_fields (py "tzid") (py "TZID") ZCText true eq_refl eq_refl
    (Some (ZText (t_id z))) pars) as F1.
  destruct F1 as (a & A1 & A2 & A3); [now intros v [= <-]|easy|change (upper (py "tzid")) with (py "TZID"); apply (par_ok_of _ _ _ _ HP ND); unfold al; rewrite !in_app_iff; cbn; auto|].
  destruct (all_obs _ HO) as (obs & B1 & B2 & B3).
  pose proof (field_rt X UE observance (load_obs X rule_parse date_parse) zone_fields (py "tzurl") (py "TZURL") ZCUri false eq_refl eq_refl
    (option_map ZUrl (t_url z)) pars) as F3.
  assert (N3 : t_url z = None -> dict_get (py "TZURL") pars = None).
  { intro E. apply (par_ok_absent _ _ _ HP). unfold al. rewrite E. destruct (t_modified z); cbn [if_set app map fst In]; intuition discriminate. }
  destruct F3 as (u & C1 & C2 & C3); [| |change (upper (py "tzurl")) with (py "TZURL")|].
  { intros v. destruct (t_url z); intros [= <-]. now apply HU. }
  { change (upper (py "tzurl")) with (py "TZURL"). intro E. apply N3. now destruct (t_url z). }
  { destruct (t_url z) eqn:E; [|intros m _; now apply absent_keys, N3]. apply (par_ok_of _ _ _ _ HP ND); unfold al; rewrite !in_app_iff; cbn; auto. }
  pose proof (field_rt X UE observance (load_obs X rule_parse date_parse) zone_fields (py "last_modified") (py "LAST-MODIFIED") ZCDatetime false eq_refl eq_refl
    (option_map ZDt (t_modified z)) pars) as F4.
  assert (N4 : t_modified z = None -> dict_get (py "LAST_MODIFIED") pars = None).
  { intro E. apply (par_ok_absent _ _ _ HP). unfold al. rewrite E. destruct (t_url z); cbn [if_set app map fst In]; intuition discriminate. }
  destruct F4 as (m & D1 & D2 & D3); [| |change (upper (py "last_modified")) with (py "LAST_MODIFIED")|].
  { intros v. destruct (t_modified z); intros [= <-]. now apply HM. }
  { change (upper (py "last_modified")) with (py "LAST_MODIFIED"). intro E. apply N4. now destruct (t_modified z). }
  { destruct (t_modified z) eqn:E; [|intros i _; now apply absent_keys, N4]. apply (par_ok_of _ _ _ _ HP ND); unfold al; rewrite !in_app_iff; cbn; auto. }
  exists (a ++ obs ++ u ++ m ++ t_extra z). split; [|split].
  - unfold dump_zone. fold pars. destruct (A1 []) as (z1 & ->). cbn [bind]. rewrite B1. cbn [bind]. destruct (C1 z1) as (z2 & ->). cbn [bind].
    destruct (D1 z2) as (z3 & ->). reflexivity.
  - intros sub' F. apply Forall2_app_inv_l' in F as (a' & f1 & -> & FA & F). apply Forall2_app_inv_l' in F as (o' & f2 & -> & FO & F).
    apply Forall2_app_inv_l' in F as (u' & f3 & -> & FU & F). apply Forall2_app_inv_l' in F as (m' & x' & -> & FM & FX).
    unfold load_zone, zload. change (str_eqb (py "VTIMEZONE") (py "VTIMEZONE")) with true. cbv iota.
    destruct (A2 a' z0 FA eq_refl) as (v1 & p1 & s1 & A & E1 & Q1).
    rewrite zpopulate_app, A. cbn [bind z_vals z_lines z_rules z_mem z_extra z_pars z_zones].
    rewrite zpopulate_app. edestruct (B2 o') as (l' & B & OB); [exact FO|rewrite B].
    cbn [bind z_vals z_lines z_rules z_mem z_extra z_pars z_zones z0 app].
    rewrite zpopulate_app. edestruct (C2 u') as (v3 & p3 & s3 & C & E3 & Q3); [exact FU| |rewrite C].
    { cbn [z_vals]. gets. reflexivity. }
    cbn [bind]. rewrite zpopulate_app. edestruct (D2 m') as (v4 & p4 & s4 & D & E4 & Q4); [exact FM| |rewrite D].
    { cbn [z_vals]. gets. reflexivity. }
    cbn [bind]. rewrite zpopulate_extra; [|apply (extra_names _ ZONE_NAMES) with (l := t_extra z); [|exact HX|exact FX]].
    2:{ intros i I j J. unfold zone_fields, ff in I. cbn [In] in I. unfold ZONE_NAMES. repeat (destruct I as [<-|I]; [cbn [znames zf_ics In] in J; unfold STANDARD, DAYLIGHT in J; cbn [In]; tauto|]). destruct I. }
    cbn [bind z_vals z_lines z_rules z_mem z_extra z_pars z_zones app].
    destruct v1 as [w1|]; [|easy]. cbn [eq_opt] in E1. destruct w1; try easy. cbn [back_zval] in E1. injection E1 as <-.
    assert (V3 : v3 = option_map ZUrl (t_url z)). { destruct (t_url z), v3 as [[]|]; cbn in E3; try easy; cbn; congruence. }
    erewrite posts_zone; [|cbn [z_vals]; gets; reflexivity].
    cbn [bind z_vals z_lines z_rules z_mem z_extra z_pars z_zones]. gets. cbv iota.
    match goal with |- context [bind ?r _] => assert (V4 : r = Ok (t_modified z)) end.
    { destruct (t_modified z) as [d|] eqn:EM, v4 as [[| | |d']|]; cbn [option_map eq_opt back_zval] in E4; try easy.
      destruct (HM d eq_refl) as [H1 H2]. rewrite (to_utc d d' H1 H2 E4). reflexivity. }
    rewrite V4. cbn [bind].
    eexists. split; [reflexivity|]. constructor; cbn [t_id t_obs t_url t_modified t_extra t_params]; try easy.
    + rewrite V3. now destruct (t_url z).
    + intro k. rewrite !padd_get. cbn [z0 z_pars]. fold pars.
      change (upper (py "tzid")) with (py "TZID") in *. change (upper (py "tzurl")) with (py "TZURL") in *.
      change (upper (py "last_modified")) with (py "LAST_MODIFIED") in *.
      destruct (str_eqb k (py "LAST_MODIFIED")) eqn:K4; [apply str_eqb_eq in K4; subst k; eqs; pose proof (par_back _ _ _ (NE _) Q4); destruct p1, p3, p4; assumption|].
      destruct (str_eqb k (py "TZURL")) eqn:K3; [apply str_eqb_eq in K3; subst k; eqs; pose proof (par_back _ _ _ (NE _) Q3); destruct p1, p3, p4; assumption|].
      destruct (str_eqb k (py "TZID")) eqn:K1; [apply str_eqb_eq in K1; subst k; eqs; pose proof (par_back _ _ _ (NE _) Q1); destruct p1, p3, p4; assumption|].
      apply str_eqb_neq in K1, K3, K4. rewrite (par_ok_absent _ _ k HP).
      * destruct p1, p3, p4; exact I.
      * unfold al. destruct (t_url z), (t_modified z); cbn [if_set app map fst In]; intuition congruence.
  - intros [W1 W2 W3 W4]. fold pars in W3. apply wf_cont. split; [discriminate|]. split; [reflexivity|]. split.
    { intros c Hc I. cbn in Hc. vm_compute in I. intuition congruence. }
    rewrite !Forall_app. repeat split; auto.
    + apply A3; [now intros v [= <-]|now apply wire_par_of|reflexivity].
    + apply C3; [intros v; destruct (t_url z); intros [= <-]; now apply W2|now apply wire_par_of|reflexivity].
    + apply D3; [intros v; destruct (t_modified z); now intros [= <-]|now apply wire_par_of|reflexivity].
Qed.

(** ** Text *)
Lemma zone_text hy resplit W nl z : splitter resplit -> width_ok W -> storable_zone X rule_parse z -> wire_zone X z -> exists it txt sub z',
  dump_zone X z = Ok it /\ item_serialize hy resplit W it nl = Ok txt /\
  string_to_containers txt = ([ICont (py "VTIMEZONE") sub], None) /\
  load_zone X rule_parse date_parse (py "VTIMEZONE") sub = Ok z' /\ zone_back z z'.
Proof.
  intros HS HW H WZ. destruct (zone_rt z H) as (sub & D & L & WF). specialize (WF WZ).
  destruct (tree_roundtrip hy resplit W _ nl HS HW WF) as (txt & it' & T1 & T2 & T3).
  inversion T3 as [|? xs ys F]; subst. assert (F' : Forall2 item_eq sub xs).
  { clear -F. induction F; constructor; auto. now apply item_eq_sym. }
  destruct (L xs F') as (z' & L1 & L2). exists (ICont (py "VTIMEZONE") sub), txt, xs, z'. auto.
Qed.
(** ** Calendars *)
Lemma zone_contract zone_of tz_of id z z' : defined_by X rule_parse date_parse zone_of tz_of ->
  storable_zone X rule_parse (zone_of z') -> wire_zone X (zone_of z') -> t_id (zone_of z') = id ->
  (forall t, zone_back (zone_of z') t -> tz_of t = z) -> zone_stored X id z z'.
Proof.
  intros [D L] H W I T. destruct (zone_rt _ H) as (sub & D' & L' & WF). exists sub. rewrite D. split; [exact D'|]. split; [auto|].
  intros sub' F. destruct (L' sub' F) as (t & E & B). rewrite L, E. cbn [rmap bind]. rewrite (T t B), (bz_id _ _ B), I. reflexivity.
Qed.
End Zone.

(** ** Lookups *)
Definition sim (a b : obs) : Prop :=
  ob_from a = ob_from b /\ ob_to a = ob_to b /\ ob_dst a = ob_dst b /\ ob_name a = ob_name b /\ forall t, ob_before a t = ob_before b t.
Definition sim_res {A B} (R : A -> B -> Prop) (a : res A) (b : res B) : Prop :=
  match a, b with Ok x, Ok y => R x y | Err e, Err f => e = f | _, _ => False end.
Definition sim_kc (a b : Z * obs) : Prop := fst a = fst b /\ sim (snd a) (snd b).
Lemma sim_onset a b w f : sim a b -> onset_before a w f = onset_before b w f.
Proof. intros (E1 & E2 & E3 & E4 & E5). unfold onset_before, ob_diff. now rewrite E1, E2, !E5. Qed.
Lemma sim_last l l' w f : Forall2 sim l l' -> forall a b, eq_opt sim_kc a b -> sim_res (eq_opt sim_kc) (find_last l w f a) (find_last l' w f b).
Proof.
  induction 1 as [|c c' l l' S F IH]; intros a b E; [exact E|]. cbn [find_last]. rewrite <- (sim_onset c c' w f S).
  destruct (onset_before c w f) as [[x|]|e]; cbn [bind]; [|now apply IH|easy]. apply IH. destruct a as [[y a]|], b as [[y' b]|]; cbn in E; try easy.
  destruct E as [E1 E2]. cbn in E1. subst y'. destruct (y <? x)%Z; cbn; [now split|now split].
Qed.
Lemma sim_standard l l' : Forall2 sim l l' -> eq_opt sim (first_standard l) (first_standard l').
Proof.
  induction 1 as [|c c' l l' S F IH]; [exact I|]. cbn [first_standard]. assert (E : ob_dst c = ob_dst c') by apply S. rewrite <- E. now destruct (ob_dst c).
Qed.
Lemma sim_cachable l l' w f : Forall2 sim l l' -> sim_res sim (find_cachable l w f) (find_cachable l' w f).
Proof.
  intro F. unfold find_cachable. pose proof (sim_last l l' w f F None None I) as H. destruct (find_last l w f None) as [a|e], (find_last l' w f None) as [b|e']; try easy.
  cbn [bind]. cbn in H. destruct a as [[y a]|], b as [[y' b]|]; try easy; [apply H|]. pose proof (sim_standard _ _ F) as G.
  destruct (first_standard l), (first_standard l'); try easy. destruct F; easy.
Qed.
Lemma sim_get m m' k : Forall2 sim_kc m m' -> eq_opt sim (cache_get k m) (cache_get k m').
Proof. induction 1 as [|[a c] [b c'] m m' [E S] F IH]; [exact I|]. cbn in *. subst b. now destruct (k =? a)%Z. Qed.
Lemma sim_del m m' k : Forall2 sim_kc m m' -> Forall2 sim_kc (cache_del k m) (cache_del k m').
Proof. induction 1 as [|[a c] [b c'] m m' [E S] F IH]; [constructor|]. cbn in *. subst b. destruct (k =? a)%Z; [exact F|]. constructor; [now split|exact IH]. Qed.
Lemma sim_firstn n : forall m m', Forall2 sim_kc m m' -> Forall2 sim_kc (firstn n m) (firstn n m').
Proof. induction n as [|n IH]; intros m m' F; [constructor|]. destruct F; [constructor|]. cbn. constructor; auto. Qed.
Lemma sim_find l l' m m' w f : Forall2 sim l l' -> Forall2 sim_kc m m' ->
  Forall2 sim_kc (fst (find_observance l m w f)) (fst (find_observance l' m' w f)) /\
  sim_res sim (snd (find_observance l m w f)) (snd (find_observance l' m' w f)).
Proof.
  intros F G. assert (HC : Forall2 sim_kc (fst (cached (find_cachable l) m w f)) (fst (cached (find_cachable l') m' w f)) /\
    sim_res sim (snd (cached (find_cachable l) m w f)) (snd (cached (find_cachable l') m' w f))).
  { unfold cached. pose proof (sim_get m m' w G) as H. destruct (cache_get w m) as [a|], (cache_get w m') as [b|]; try easy.
    - cbn [fst snd]. split; [constructor; [now split|now apply sim_del]|exact H].
    - pose proof (sim_cachable l l' w f F) as K. destruct (find_cachable l w f), (find_cachable l' w f); try easy; cbn [fst snd]; split; auto.
      apply sim_firstn. constructor; [now split|exact G]. }
  destruct F as [|c c' l l' S F]; [now split|]. destruct F as [|c2 c2' l l' S2 F]; [now split|]. exact HC.
Qed.
Lemma sim_answer q a b : sim a b -> answer_of q a = answer_of q b.
Proof. intros (E1 & E2 & E3 & E4 & E5). destruct q; cbn; unfold ob_diff; now rewrite ?E1, ?E2, ?E3, ?E4. Qed.
Lemma sim_ask l l' m m' q w f : Forall2 sim l l' -> Forall2 sim_kc m m' ->
  Forall2 sim_kc (fst (ask l m q w f)) (fst (ask l' m' q w f)) /\ snd (ask l m q w f) = snd (ask l' m' q w f).
Proof.
  intros F G. destruct (sim_find l l' m m' w f F G) as [A B]. unfold ask. destruct (find_observance l m w f) as [n r], (find_observance l' m' w f) as [n' r'].
  cbn [fst snd] in *. split; [exact A|]. destruct r, r'; try easy; cbn in B; [cbn; f_equal; now apply sim_answer|now subst].
Qed.
Lemma sim_after l l' h : Forall2 sim l l' -> forall m m', Forall2 sim_kc m m' -> Forall2 sim_kc (after l m h) (after l' m' h).
Proof.
  intro F. induction h as [|[[q w] f] h IH]; intros m m' G; [exact G|]. cbn [after]. apply IH. now apply sim_ask.
Qed.
Lemma lookups_same occurs before l l' h q w f : before_right occurs before -> Forall2 obs_back l l' ->
  (forall o, In o l -> starts_count occurs (o_rules o)) ->
  snd (ask (map (as_obs before) l') (after (map (as_obs before) l') [] h) q w f) =
  snd (ask (map (as_obs before) l) (after (map (as_obs before) l) [] h) q w f).
Proof.
  intros HB F HC. assert (S : Forall2 sim (map (as_obs before) l') (map (as_obs before) l)).
  { induction F as [|o o' l l' B F IH]; [constructor|]. cbn [map]. constructor; [|apply IH; intros; apply HC; now right].
    destruct B as [B1 B2 B3 B4 B5 B6 B7 B8]. unfold sim, as_obs. cbn [ob_from ob_to ob_dst ob_name ob_before]. repeat split; try easy.
    intro t. apply (before_same occurs); auto. apply HC. now left. }
  apply sim_ask; [exact S|]. apply sim_after; [exact S|constructor].
Qed.

(** ** DTSTART *)
Lemma no_start_lines l : Forall (fun cl => cl_name cl <> py "DTSTART") l -> start_lines (map ILine l) = [].
Proof.
  unfold start_lines. induction 1 as [|cl l H F IH]; [easy|]. cbn [map flat_map]. apply str_eqb_neq in H. now rewrite H.
Qed.
Lemma start_lines_app a b : start_lines (a ++ b) = start_lines a ++ start_lines b.
Proof. unfold start_lines. apply flat_map_app. Qed.
Lemma write_start_ok l : forall s, (exists ls, write_start l s = Ok ls) <->
  match s with
  | Some d => forall r e, In r l -> r_start r = Some e -> e = d
  | None => forall r r' d e, In r l -> In r' l -> r_start r = Some d -> r_start r' = Some e -> d = e
  end.
Proof.
  induction l as [|r l IH]; intro s; [destruct s; (split; [easy|intros _; eexists; reflexivity])|]. cbn [write_start].
  destruct (r_start r) as [d|] eqn:E.
  - destruct s as [s|].
    + unfold guard. destruct (s =? d)%Z eqn:K; cbn [negb bind].
      * rewrite IH. assert (s = d) as -> by lia. split; [intros H q e [<-|I] G; [congruence|eauto]|intros H q e I G; eapply H; [right; exact I|exact G]].
      * split; [now intros (? & ?)|]. intro H. specialize (H r d (or_introl eq_refl) E). lia.
    + specialize (IH (Some d)). cbn in IH. split.
      * intros (ls & H). destruct (write_start l (Some d)) as [q|] eqn:Q; [|easy]. assert (J : forall r e, In r l -> r_start r = Some e -> e = d) by (apply IH; eauto).
        intros a b x y [<-|A] [<-|B] GA GB; try congruence.
        -- apply J in GB; congruence.
        -- apply J in GA; congruence.
        -- apply J in GA; auto. apply J in GB; congruence.
      * intro H. assert (J : exists ls, write_start l (Some d) = Ok ls).
        { apply IH. intros a e I G. symmetry. eapply (H r a); [now left|now right|exact E|exact G]. }
        destruct J as (ls & ->). cbn [bind]. eauto.
  - rewrite IH. destruct s as [s|].
    + split; [intros H q e [<-|I] G; [congruence|eauto]|intros H q e I G; eapply H; [right; exact I|exact G]].
    + split; [intros H a b x y [<-|A] [<-|B] GA GB; try congruence; eauto|intros H a b x y A B; apply H; now right].
Qed.
Lemma write_start_err l : forall s e, write_start l s = Err e -> e = ValueError.
Proof.
  induction l as [|r l IH]; intros s e; [easy|]. cbn [write_start]. destruct (r_start r) as [d|]; [|apply IH]. destruct s as [s|].
  - unfold guard. destruct (negb _); cbn [bind]; [congruence|apply IH].
  - destruct (write_start l (Some d)) eqn:Q; [easy|]. intros [= <-]. eauto.
Qed.
Lemma write_rules_ok rs : (exists ls, write_rules rs None = Ok ls) <-> forall d e, starts rs d -> starts rs e -> d = e.
Proof.
  unfold write_rules. pose proof (write_start_ok (rs_rules rs ++ rs_exrules rs) None) as H. cbv beta iota in H.
  transitivity (exists ls, write_start (rs_rules rs ++ rs_exrules rs) None = Ok ls).
  - destruct (write_start _ None); cbn [bind]; split; intros (? & ?); try easy; eauto.
  - rewrite H. unfold starts. split; [intros G d e (a & A & A') (b & B & B'); eauto|intros G a b d e A B C D; apply G; eauto].
Qed.
Lemma write_rules_err rs e : write_rules rs None = Err e -> e = ValueError.
Proof. unfold write_rules. destruct (write_start _ None) eqn:E; [easy|]. intros [= <-]. now apply write_start_err in E. Qed.
Lemma write_start_lines l : forall ls, write_start l None = Ok ls ->
  (forall r d, In r l -> r_start r = Some d -> start_lines (map ILine ls) = [fmt_datetime d]) /\
  ((forall r, In r l -> r_start r = None) -> ls = []).
Proof.
  intros ls H. assert (G := proj1 (write_start_ok l None) (ex_intro _ ls H)). cbv beta iota in G. split.
  - intros r d I E. rewrite (write_start_first l d) in H; [injection H as <-; reflexivity|eauto|]. intros q J.
    destruct (r_start q) as [e|] eqn:Q; [right; f_equal; exact (G q r e d J I Q E)|now left].
  - intro N. rewrite write_start_none in H by exact N. now injection H as <-.
Qed.
Lemma rules_start_lines rs ls : write_rules rs None = Ok ls ->
  (forall d, starts rs d -> start_lines (map ILine ls) = [fmt_datetime d]) /\
  ((forall d, ~ starts rs d) -> start_lines (map ILine ls) = []).
Proof.
  unfold write_rules. intro H. destruct (write_start _ None) as [q|] eqn:E; [|easy]. injection H as <-.
  destruct (write_start_lines _ _ E) as [A B]. rewrite map_app, start_lines_app, (no_start_lines (map _ _ ++ _)), app_nil_r.
  - split; [intros d (r & I & S); eapply A; eauto|]. intro N. rewrite B; [easy|]. intros r I. destruct (r_start r) as [d|] eqn:S; [|easy]. exfalso. apply (N d). exists r. auto.
  - rewrite !Forall_app. repeat split; apply Forall_map, Forall_forall; intros x _; discriminate.
Qed.
Lemma field_no_start X attr ics c v pars zs its zs' : upper ics <> py "DTSTART" -> zdump_field X attr ics c v pars zs = Ok (its, zs') -> start_lines its = [].
Proof.
  intros N. unfold zdump_field. destruct v as [v|]; [|now intros [= <- <-]]. destruct (zserialize _ _ _ _ _) as [[[s p] z]|]; [|easy]. cbn [bind].
  intros [= <- <-]. apply str_eqb_neq in N. unfold start_lines, ContentLine. cbn [flat_map cl_name]. now rewrite N.
Qed.
Lemma obs_start_lines X o sub : dump_obs X o = Ok (ICont (obs_name (o_dst o)) sub) -> start_lines (o_extra o) = [] ->
  (forall d, starts (o_rules o) d -> start_lines sub = [fmt_datetime d]) /\
  ((forall d, ~ starts (o_rules o) d) -> start_lines sub = []).
Proof.
  unfold dump_obs. intros H N.
  destruct (zdump_field X (py "tzoffsetfrom") _ _ _ _ _) as [[a z1]|] eqn:A; [|easy]. cbn [bind] in H.
  destruct (zdump_field X (py "tzoffsetto") _ _ _ _ _) as [[b z2]|] eqn:B; [|easy]. cbn [bind] in H.
  destruct (write_rules _ _) as [r|] eqn:R; [|easy]. cbn [bind] in H.
  destruct (zdump_field X (py "tzname") _ _ _ _ _) as [[n z3]|] eqn:C; [|easy]. cbn [bind] in H.
  destruct (zdump_field X (py "comment") _ _ _ _ _) as [[c z4]|] eqn:D; [|easy]. cbn [bind] in H.
  assert (sub = a ++ b ++ map ILine r ++ n ++ c ++ o_extra o) as ->. { unfold Container in H. now destruct (o_dst o); injection H as <-. }
  apply field_no_start in A; [|discriminate]. apply field_no_start in B; [|discriminate]. apply field_no_start in C; [|discriminate]. apply field_no_start in D; [|discriminate].
  rewrite !start_lines_app, A, B, C, D, N, !app_nil_r. cbn [app]. now apply rules_start_lines.
Qed.
