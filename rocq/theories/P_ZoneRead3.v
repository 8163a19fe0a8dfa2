(** * Proofs: observances and zones are read exactly (C61) *)
From Verif Require Import M_Base M_Text M_Line M_Codec M_Cal M_Time M_Span M_Dt M_Tree M_Comp M_Rrule M_Vtz.
From Verif Require Import S_Text S_Codec S_Dt S_Comp S_Multi S_Read S_Vtz S_ZoneRead.
From Verif Require Import P_Base P_Text P_Codec P_Comp P_Multi P_Cat P_Value P_ReadVal P_Rrule P_Vtz P_ZoneRead P_ZoneRead2.
From Coq Require Import Lia ZifyBool ZifyNat ZifyN Sorting.Sorted.
Open Scope N_scope.

Section ZoneRead.
Variable X : ext.
Variable rule_parse : option Z -> list N -> res M_Rrule.rule.
Variable date_parse : list N -> res Z.
Local Notation obs_reads := (obs_reads rule_parse date_parse).
Local Notation zone_reads := (zone_reads X rule_parse date_parse).
Local Notation load_obs := (load_obs X rule_parse date_parse).
Local Notation load_zone := (load_zone X rule_parse date_parse).

Definition f_from := mk_zfield (py "tzoffsetfrom") (py "TZOFFSETFROM") ZCOffset true.
Definition f_to := mk_zfield (py "tzoffsetto") (py "TZOFFSETTO") ZCOffset true.
Definition f_name := mk_zfield (py "tzname") (py "TZNAME") ZCText false.
Definition f_comment := mk_zfield (py "comment") (py "COMMENT") ZCText false.
Definition f_id := mk_zfield (py "tzid") (py "TZID") ZCText true.
Definition f_url := mk_zfield (py "tzurl") (py "TZURL") ZCUri false.
Definition f_mod := mk_zfield (py "last_modified") (py "LAST-MODIFIED") ZCDatetime false.
Definition means_raw (s : list N) (ps : xp) (d : datetime) (rest : xp) : Prop := moment X [] datetime_text s ps d /\ rest = dict_del (py "TZID") ps.
Lemma inj_offset a b : ZOffset a = ZOffset b -> a = b. Proof. congruence. Qed.
Lemma inj_text a b : ZText a = ZText b -> a = b. Proof. congruence. Qed.
Lemma inj_url a b : ZUrl a = ZUrl b -> a = b. Proof. congruence. Qed.
Lemma inj_dt a b : ZDt a = ZDt b -> a = b. Proof. congruence. Qed.
Definition HM_offset f : zf_conv f = ZCOffset -> forall s ps v rest, zmeans X (zf_conv f) s ps v rest <-> exists a, v = ZOffset a /\ means_offset s ps a rest.
Proof. now intros ->. Qed.
Lemma HM_text f : zf_conv f = ZCText -> forall s ps v rest, zmeans X (zf_conv f) s ps v rest <-> exists a, v = ZText a /\ means_text s ps a rest.
Proof. now intros ->. Qed.
Lemma HM_url f : zf_conv f = ZCUri -> forall s ps v rest, zmeans X (zf_conv f) s ps v rest <-> exists a, v = ZUrl a /\ means_url X s ps a rest.
Proof. now intros ->. Qed.
Lemma HM_dt f : zf_conv f = ZCDatetime -> forall s ps v rest, zmeans X (zf_conv f) s ps v rest <-> exists a, v = ZDt a /\ means_raw s ps a rest.
Proof. now intros ->. Qed.

(** ** Observances *)
Lemma no_obs_members its : of_members obs_fields its = [].
Proof. apply of_members_nil. intros n H. apply look_in in H as [H _]. cbn in H. intuition discriminate. Qed.
Lemma obs_names_same n : In n (fnames obs_fields) <-> In n OBS_NAMES.
Proof. cbn [fnames obs_fields flat_map znames zf_ics ff app]. unfold OBS_NAMES. cbn [In]. tauto. Qed.
Lemma obs_sound n its o : load_obs n its = Ok o -> obs_reads n its o.
Proof.
  unfold M_Vtz.load_obs. destruct (str_eqb n STANDARD || str_eqb n DAYLIGHT) eqn:EN; [|discriminate]. intro H. apply bind_Ok in H as (st & H & HO). unfold zload in H. apply bind_Ok in H as (s1 & H1 & H2).
  pose proof (steps_of X Empty_set no_obs obs_fields good_obs its z0 s1 (fresh0 _ _) H1) as S1.
  assert (HF : forall f, In (ZField f) obs_fields -> field_step X Empty_set f its z0 s1) by (intros f I; now apply (ss_field _ _ _ _ _ _ _ S1)).
  destruct (field_of X Z f_from ZOffset means_offset (HM_offset f_from eq_refl) its s1 (HF f_from ltac:(cbn; tauto))) as (o1 & V1 & F1).
  destruct (field_of X Z f_to ZOffset means_offset (HM_offset f_to eq_refl) its s1 (HF f_to ltac:(cbn; tauto))) as (o2 & V2 & F2).
  destruct (field_of X _ f_name ZText means_text (HM_text f_name eq_refl) its s1 (HF f_name ltac:(cbn; tauto))) as (o3 & V3 & F3).
  destruct (field_of X _ f_comment ZText means_text (HM_text f_comment eq_refl) its s1 (HF f_comment ltac:(cbn; tauto))) as (o4 & V4 & F4).
  assert (NC : forall m l, In m S_ZoneRead.RULE_NAMES -> ~ In (ICont m l) its) by (intros m l I; apply (ss_rules _ _ _ _ _ _ _ S1), (look_rules date_parse); exact I).
  pose proof (ss_lines _ _ _ _ _ _ _ S1) as EL. rewrite (of_rules_eq date_parse) in EL. cbn [z0 z_lines app] in EL.
  assert (exists rs, set_read rule_parse date_parse its rs /\ st = mk_zst (z_vals s1) None (Some rs) (z_mem s1) (z_extra s1) (z_pars s1) (z_zones s1)) as (rs & SR & ->).
  { unfold obs_fields, ff in H2. cbn [zposts zpost zf_required andb] in H2. destruct (negb _); [discriminate|]. cbn [bind] in H2. destruct (negb _); [discriminate|]. cbn [bind] in H2.
    apply bind_Ok in H2 as (s2 & H2 & H3). cbn [bind] in H3. apply bind_Ok in H2 as (rs & HR & [= <-]). injection H3 as <-. exists rs. split; [|reflexivity].
    rewrite EL in HR. apply (rules_exact rule_parse date_parse its rs NC). destruct (rule_lines its); exact HR. }
  cbn [z_vals z_rules z_extra z_pars] in HO. cbn [f_from f_to f_name f_comment zf_attr] in V1, V2, V3, V4. rewrite V1, V2, V3, V4 in HO.
  destruct o1 as [x|]; [|discriminate]. destruct o2 as [y|]; [|discriminate]. injection HO as <-. constructor; cbn [o_dst o_from o_to o_rules o_name o_comment o_extra o_params].
  - apply Bool.orb_true_iff in EN as [EN|EN]; apply str_eqb_eq in EN; subst n; reflexivity.
  - exact F1.
  - exact F2.
  - exact SR.
  - now destruct o3.
  - now destruct o4.
  - pose proof (ss_extra _ _ _ _ _ _ _ S1) as E. cbn [z0 z_extra app] in E. rewrite E. apply others_same; intro; apply obs_names_same.
  - intros k K. destruct (ss_keys _ _ _ _ _ _ _ S1 k K) as [Q|(f & I & ->)]; [now cbn in Q|]. cbn [obs_fields ff In] in I. repeat destruct I as [[= <-]|I]; try contradiction; vm_compute; tauto.
Qed.
Lemma obs_complete n its o : obs_reads n its o -> exists o', load_obs n its = Ok o'.
Proof.
  intros [R1 R2 R3 R4 R5 R6 R7 R8]. unfold M_Vtz.load_obs. assert (str_eqb n STANDARD || str_eqb n DAYLIGHT = true) as -> by (rewrite R1; now destruct (o_dst o)).
  assert (exists s1, zpopulate_all X Empty_set no_obs obs_fields its z0 = Ok s1) as (s1 & E1).
  { apply pops_ok; [exact good_obs|apply fresh0|]. constructor.
    - intros f I. cut (cont_free (zf_ics f) its /\ match lines (zf_ics f) its with [] => True | [l] => exists v ps, zread X f l = Ok (v, ps) | _ => False end).
      { intros [C H]. split; [exact C|]. destruct (lines (zf_ics f) its) as [|l [|? ?]]; [exact Logic.I| |contradiction]. now split. }
      cbn [obs_fields ff In] in I. repeat destruct I as [[= <-]|I]; try contradiction.
      + exact (field_readable X Z f_from ZOffset means_offset (HM_offset f_from eq_refl) its _ _ R2).
      + exact (field_readable X Z f_to ZOffset means_offset (HM_offset f_to eq_refl) its _ _ R3).
      + exact (field_readable X _ f_name ZText means_text (HM_text f_name eq_refl) its _ _ R5).
      + exact (field_readable X _ f_comment ZText means_text (HM_text f_comment eq_refl) its _ _ R6).
    - intros m l L. apply (look_rules date_parse) in L. now apply (sr_lines _ _ _ _ R4).
    - intros l _ L. apply look_in in L as [L _]. cbn in L. intuition discriminate.
    - exists []. rewrite no_obs_members. constructor. }
  pose proof (steps_of X Empty_set no_obs obs_fields good_obs its z0 s1 (fresh0 _ _) E1) as S1.
  assert (HF : forall f, In (ZField f) obs_fields -> field_step X Empty_set f its z0 s1) by (intros f I; now apply (ss_field _ _ _ _ _ _ _ S1)).
  destruct (field_of X Z f_from ZOffset means_offset (HM_offset f_from eq_refl) its s1 (HF f_from ltac:(cbn; tauto))) as (o1 & V1 & F1).
  destruct (field_of X Z f_to ZOffset means_offset (HM_offset f_to eq_refl) its s1 (HF f_to ltac:(cbn; tauto))) as (o2 & V2 & F2).
  destruct (field_det X Z f_from ZOffset means_offset (HM_offset f_from eq_refl) inj_offset its _ _ _ _ R2 F1) as [<- _].
  destruct (field_det X Z f_to ZOffset means_offset (HM_offset f_to eq_refl) inj_offset its _ _ _ _ R3 F2) as [<- _].
  cbn [f_from f_to zf_attr option_map] in V1, V2.
  pose proof (ss_lines _ _ _ _ _ _ _ S1) as EL. rewrite (of_rules_eq date_parse) in EL. cbn [z0 z_lines app] in EL.
  assert (ER : read_rules rule_parse date_parse (z_lines s1) = Ok (o_rules o)).
  { rewrite EL. apply (rules_exact rule_parse date_parse its (o_rules o)) in R4; [|exact (sr_lines _ _ _ _ R4)]. destruct (rule_lines its); exact R4. }
  unfold zload. rewrite E1. cbn [bind]. unfold obs_fields, ff. cbn [zposts zpost zf_required zf_attr andb bind]. unfold dict_mem. rewrite V1. cbn [negb bind]. rewrite V2. cbn [negb bind]. rewrite ER. cbn [bind z_vals]. cbn [z_vals z_rules]. rewrite V1, V2. eauto.
Qed.
Lemma obs_det n its o o' : obs_reads n its o -> obs_reads n its o' -> same_obs o o'.
Proof.
  intros [R1 R2 R3 R4 R5 R6 R7 R8] [Q1 Q2 Q3 Q4 Q5 Q6 Q7 Q8].
  destruct (field_det X Z f_from ZOffset means_offset (HM_offset f_from eq_refl) inj_offset its _ _ _ _ R2 Q2) as [[= E1] P1].
  destruct (field_det X Z f_to ZOffset means_offset (HM_offset f_to eq_refl) inj_offset its _ _ _ _ R3 Q3) as [[= E2] P2].
  destruct (field_det X _ f_name ZText means_text (HM_text f_name eq_refl) inj_text its _ _ _ _ R5 Q5) as [E3 P3].
  destruct (field_det X _ f_comment ZText means_text (HM_text f_comment eq_refl) inj_text its _ _ _ _ R6 Q6) as [E4 P4].
  constructor; try congruence.
  - destruct (o_dst o), (o_dst o'); try reflexivity; rewrite R1 in Q1; discriminate.
  - pose proof (sr_lines _ _ _ _ R4) as NC. apply (rules_exact rule_parse date_parse its _ NC) in R4. apply (rules_exact rule_parse date_parse its _ NC) in Q4. congruence.
  - intro k. destruct (dict_get k (o_params o)) as [p|] eqn:K1.
    + assert (I : In k [py "TZOFFSETFROM"; py "TZOFFSETTO"; py "TZNAME"; py "COMMENT"]) by (apply R8; congruence).
      destruct I as [<-|[<-|[<-|[<-|[]]]]]; [rewrite <- K1; exact P1|rewrite <- K1; exact P2|rewrite <- K1; exact P3|rewrite <- K1; exact P4].
    + destruct (dict_get k (o_params o')) as [p|] eqn:K2; [|reflexivity]. assert (I : In k [py "TZOFFSETFROM"; py "TZOFFSETTO"; py "TZNAME"; py "COMMENT"]) by (apply Q8; congruence).
      destruct I as [<-|[<-|[<-|[<-|[]]]]]; [rewrite <- K1, <- K2; exact P1|rewrite <- K1, <- K2; exact P2|rewrite <- K1, <- K2; exact P3|rewrite <- K1, <- K2; exact P4].
Qed.
Theorem obs_exact n its : (forall o, load_obs n its = Ok o -> obs_reads n its o) /\
  (forall o, obs_reads n its o -> exists o', load_obs n its = Ok o' /\ same_obs o o').
Proof.
  split; [exact (obs_sound n its)|]. intros o R. destruct (obs_complete n its o R) as (o' & E). exists o'. split; [exact E|]. exact (obs_det n its o o' R (obs_sound n its o' E)).
Qed.

(** ** Zones *)
Lemma zone_names_same n : In n (fnames zone_fields) <-> In n ZONE_NAMES.
Proof. cbn [fnames zone_fields flat_map znames zf_ics ff app]. unfold ZONE_NAMES, STANDARD, DAYLIGHT. cbn [In]. tauto. Qed.
Lemma raw_utc its pars o m : field_read (py "LAST-MODIFIED") (py "DATE-TIME") means_raw (py "LAST_MODIFIED") its pars o ->
  match o with Some d => rmap Some (dt_astimezone (x_env X) d (Some (x_utc X))) | None => Ok None end = Ok m ->
  field_read (py "LAST-MODIFIED") (py "DATE-TIME") (means_utc X) (py "LAST_MODIFIED") its pars m.
Proof.
  intros (ls & OL & H) E. exists ls. split; [exact OL|]. destruct ls as [|l [|? ?]]; [| |contradiction].
  - destruct H as [-> H]. injection E as <-. now split.
  - destruct H as (v & rest & T & [R1 ->] & -> & P). destruct (dt_astimezone (x_env X) v (Some (x_utc X))) as [e|] eqn:EA; [|discriminate]. injection E as <-.
    exists e, (dict_del (py "TZID") (dict_del (py "VALUE") (cl_params l))). split; [exact T|]. split; [exists v; auto|]. split; [reflexivity|exact P].
Qed.
Lemma utc_raw its pars m : field_read (py "LAST-MODIFIED") (py "DATE-TIME") (means_utc X) (py "LAST_MODIFIED") its pars m ->
  exists o, field_read (py "LAST-MODIFIED") (py "DATE-TIME") means_raw (py "LAST_MODIFIED") its pars o /\
    match o with Some d => rmap Some (dt_astimezone (x_env X) d (Some (x_utc X))) | None => Ok None end = Ok m.
Proof.
  intros (ls & OL & H). destruct ls as [|l [|? ?]]; [| |contradiction].
  - destruct H as [-> H]. exists None. split; [|reflexivity]. exists []. split; [exact OL|now split].
  - destruct H as (e & rest & T & (d & R1 & -> & EA) & -> & P). exists (Some d). rewrite EA. split; [|reflexivity]. exists [l]. split; [exact OL|]. exists d, (dict_del (py "TZID") (dict_del (py "VALUE") (cl_params l))).
    split; [exact T|]. split; [now split|]. split; [reflexivity|exact P].
Qed.
Lemma zone_sound n its z : load_zone n its = Ok z -> n = py "VTIMEZONE" /\ zone_reads its z.
Proof.
  unfold M_Vtz.load_zone. destruct (str_eqb n (py "VTIMEZONE")) eqn:EN; [|discriminate]. apply str_eqb_eq in EN. subst n. intro H. split; [reflexivity|]. apply bind_Ok in H as (st & H & HO). unfold zload in H. apply bind_Ok in H as (s1 & H1 & H2).
  pose proof (steps_of X observance load_obs zone_fields good_zone its z0 s1 (fresh0 _ _) H1) as S1.
  assert (HF : forall f, In (ZField f) zone_fields -> field_step X observance f its z0 s1) by (intros f I; now apply (ss_field _ _ _ _ _ _ _ S1)).
  destruct (field_of X _ f_id ZText means_text (HM_text f_id eq_refl) its s1 (HF f_id ltac:(cbn; tauto))) as (o1 & V1 & F1).
  destruct (field_of X _ f_url ZUrl (means_url X) (HM_url f_url eq_refl) its s1 (HF f_url ltac:(cbn; tauto))) as (o2 & V2 & F2).
  destruct (field_of X _ f_mod ZDt means_raw (HM_dt f_mod eq_refl) its s1 (HF f_mod ltac:(cbn; tauto))) as (o3 & V3 & F3).
  assert (st = s1) as ->.
  { unfold zone_fields, ff in H2. cbn [zposts zpost zf_required andb] in H2. destruct (negb _); [discriminate|]. cbn [bind] in H2. now injection H2 as <-. }
  apply bind_Ok in HO as (m & HD & HO). cbn [f_id f_url f_mod zf_attr] in V1, V2, V3. rewrite V1, V2 in HO. rewrite V3 in HD. destruct o1 as [i|]; [|discriminate]. injection HO as <-.
  destruct (ss_mem _ _ _ _ _ _ _ S1) as (ms & MS & EM). cbn [z0 z_mem app] in EM. constructor; cbn [t_id t_obs t_url t_modified t_extra t_params].
  - exact F1.
  - intros l I K. apply (look_members date_parse) in K. now apply (ss_cont _ _ _ _ _ _ _ S1 l I).
  - rewrite EM. rewrite (of_members_eq date_parse) in MS. clear -MS. induction MS; constructor; auto. now apply obs_sound.
  - now destruct o2.
  - apply (raw_utc its (z_pars s1) o3 m F3). destruct o3; exact HD.
  - pose proof (ss_extra _ _ _ _ _ _ _ S1) as E. cbn [z0 z_extra app] in E. rewrite E. apply others_same; intro; apply zone_names_same.
  - intros k K. destruct (ss_keys _ _ _ _ _ _ _ S1 k K) as [Q|(f & I & ->)]; [now cbn in Q|]. cbn [zone_fields ff In] in I. repeat destruct I as [[= <-]|I]; try contradiction; try discriminate; vm_compute; tauto.
Qed.
Lemma zone_complete its z : zone_reads its z -> exists z', load_zone (py "VTIMEZONE") its = Ok z'.
Proof.
  intros [R1 R2 R3 R4 R5 R6 R7]. unfold M_Vtz.load_zone. rewrite str_eqb_refl. destruct (utc_raw its (t_params z) (t_modified z) R5) as (od & RD & ED).
  assert (exists s1, zpopulate_all X observance load_obs zone_fields its z0 = Ok s1) as (s1 & E1).
  { apply pops_ok; [exact good_zone|apply fresh0|]. constructor.
    - intros f I. cut (cont_free (zf_ics f) its /\ match lines (zf_ics f) its with [] => True | [l] => exists v ps, zread X f l = Ok (v, ps) | _ => False end).
      { intros [C H]. split; [exact C|]. destruct (lines (zf_ics f) its) as [|l [|? ?]]; [exact Logic.I| |contradiction]. now split. }
      cbn [zone_fields ff In] in I. repeat destruct I as [[= <-]|I]; try contradiction; try discriminate.
      + exact (field_readable X _ f_id ZText means_text (HM_text f_id eq_refl) its _ _ R1).
      + exact (field_readable X _ f_url ZUrl (means_url X) (HM_url f_url eq_refl) its _ _ R4).
      + exact (field_readable X _ f_mod ZDt means_raw (HM_dt f_mod eq_refl) its _ _ RD).
    - intros m l L. apply look_in in L as [L _]. cbn in L. intuition discriminate.
    - intros l I L. apply (look_members date_parse) in L. exact (R2 l I L).
    - rewrite (of_members_eq date_parse). clear -R3. induction R3 as [|p o ps os H _ (ms & IH)]; [exists []; constructor|]. destruct (obs_complete _ _ _ H) as (o' & E). exists (o' :: ms). constructor; auto. }
  pose proof (steps_of X observance load_obs zone_fields good_zone its z0 s1 (fresh0 _ _) E1) as S1.
  assert (HF : forall f, In (ZField f) zone_fields -> field_step X observance f its z0 s1) by (intros f I; now apply (ss_field _ _ _ _ _ _ _ S1)).
  destruct (field_of X _ f_id ZText means_text (HM_text f_id eq_refl) its s1 (HF f_id ltac:(cbn; tauto))) as (o1 & V1 & F1).
  destruct (field_of X _ f_mod ZDt means_raw (HM_dt f_mod eq_refl) its s1 (HF f_mod ltac:(cbn; tauto))) as (o3 & V3 & F3).
  destruct (field_det X _ f_id ZText means_text (HM_text f_id eq_refl) inj_text its _ _ _ _ R1 F1) as [<- _].
  destruct (field_det X _ f_mod ZDt means_raw (HM_dt f_mod eq_refl) inj_dt its _ _ _ _ RD F3) as [<- _].
  cbn [f_id f_mod zf_attr option_map] in V1, V3. unfold zload. rewrite E1. cbn [bind]. unfold zone_fields, ff. cbn [zposts zpost zf_required zf_attr andb bind]. unfold dict_mem. rewrite V1. cbn [negb bind]. rewrite V3.
  destruct od as [d|]; cbn [option_map]; rewrite ED; cbn [bind]; rewrite V1; eauto.
Qed.
Lemma zone_det its z z' : zone_reads its z -> zone_reads its z' -> same_zone z z'.
Proof.
  intros [R1 R2 R3 R4 R5 R6 R7] [Q1 Q2 Q3 Q4 Q5 Q6 Q7]. destruct (utc_raw _ _ _ R5) as (d1 & D1 & E1). destruct (utc_raw _ _ _ Q5) as (d2 & D2 & E2).
  destruct (field_det X _ f_id ZText means_text (HM_text f_id eq_refl) inj_text its _ _ _ _ R1 Q1) as [[= A1] P1].
  destruct (field_det X _ f_url ZUrl (means_url X) (HM_url f_url eq_refl) inj_url its _ _ _ _ R4 Q4) as [A2 P2].
  destruct (field_det X _ f_mod ZDt means_raw (HM_dt f_mod eq_refl) inj_dt its _ _ _ _ D1 D2) as [<- P3].
  constructor; try congruence.
  - clear -X R3 Q3. revert Q3. generalize (t_obs z') as ys. induction R3 as [|p o ps os H _ IH]; intros ys Q; inversion Q; subst; constructor; auto. eapply obs_det; eauto.
  - intro k. destruct (dict_get k (t_params z)) as [p|] eqn:K1.
    + assert (I : In k [py "TZID"; py "TZURL"; py "LAST_MODIFIED"]) by (apply R7; congruence).
      destruct I as [<-|[<-|[<-|[]]]]; [rewrite <- K1; exact P1|rewrite <- K1; exact P2|rewrite <- K1; exact P3].
    + destruct (dict_get k (t_params z')) as [p|] eqn:K2; [|reflexivity]. assert (I : In k [py "TZID"; py "TZURL"; py "LAST_MODIFIED"]) by (apply Q7; congruence).
      destruct I as [<-|[<-|[<-|[]]]]; [rewrite <- K1, <- K2; exact P1|rewrite <- K1, <- K2; exact P2|rewrite <- K1, <- K2; exact P3].
Qed.
Theorem zone_exact n its : (forall z, load_zone n its = Ok z -> n = py "VTIMEZONE" /\ zone_reads its z) /\
  (forall z, zone_reads its z -> exists z', load_zone (py "VTIMEZONE") its = Ok z' /\ same_zone z z').
Proof.
  split; [exact (zone_sound n its)|]. intros z R. destruct (zone_complete its z R) as (z' & E). exists z'. split; [exact E|]. exact (zone_det its z z' R (proj2 (zone_sound _ its z' E))).
Qed.
End ZoneRead.

(** ** Order *)
Section Order.
Variable X : ext.
Variable rule_parse : option Z -> list N -> res M_Rrule.rule.
Variable date_parse : list N -> res Z.
Lemma in_lines l its : In l (lines (cl_name l) its) <-> In (ILine l) its.
Proof.
  induction its as [|[k|n k] its IH]; [reflexivity| |]; cbn [lines flat_map app In].
  - destruct (str_eqb (cl_name k) (cl_name l)) eqn:E; [|rewrite IH; split; [auto|intros [[= ->]|H]; [now rewrite str_eqb_refl in E|exact H]]].
    cbn [app In]. rewrite IH. split; intros [H|H]; auto; left; congruence.
  - rewrite IH. split; [auto|intros [[=]|H]; exact H].
Qed.
Lemma reordered_sym N a b : reordered N a b -> reordered N b a.
Proof. intros [A C D E]. constructor; auto; intros; symmetry; auto. Qed.
Lemma field_order A nm n w (means : list N -> xp -> A -> xp -> Prop) k its its' pars o : reordered nm its its' ->
  field_read n w means k its pars o -> field_read n w means k its' pars o.
Proof.
  intros R (ls & [-> C] & H). rewrite (ro_lines _ _ _ R) in H. exists (lines n its'). split; [|exact H]. split; [reflexivity|]. intros l I. apply (C l), (ro_conts _ _ _ R), I.
Qed.
Lemma set_order nm its its' rs : reordered nm its its' -> set_read rule_parse date_parse its rs -> set_read rule_parse date_parse its' rs.
Proof.
  intros R [A B C D E F G]. assert (L : forall n, lines n its = lines n its') by exact (ro_lines _ _ _ R). unfold start_is in D.
  repeat rewrite L in D. rewrite L in E. constructor; auto.
  - intros n l I K. apply (A n l I), (ro_conts _ _ _ R), K.
  - destruct B as (n & l & I & K). exists n, l. now rewrite <- L.
  - intros n l I K. rewrite <- L in K. eauto.
Qed.
Lemma obs_order n its its' o : reordered OBS_NAMES its its' -> obs_reads rule_parse date_parse n its o -> obs_reads rule_parse date_parse n its' o.
Proof.
  intros R [R1 R2 R3 R4 R5 R6 R7 R8]. constructor; auto; try (eapply field_order; [exact R|assumption]); [eapply set_order; eauto|]. rewrite R7. apply (ro_others _ _ _ R).
Qed.
Lemma zone_order its its' z : reordered ZONE_NAMES its its' -> zone_reads X rule_parse date_parse its z -> zone_reads X rule_parse date_parse its' z.
Proof.
  intros R [R1 R2 R3 R4 R5 R6 R7]. constructor; auto; try (eapply field_order; [exact R|assumption]).
  - intros l I. apply (R2 l). apply in_lines. rewrite (ro_lines _ _ _ R). now apply in_lines.
  - rewrite <- (ro_parts _ _ _ R). exact R3.
  - rewrite R6. apply (ro_others _ _ _ R).
Qed.
Theorem zone_reordered its its' z : reordered ZONE_NAMES its its' -> load_zone X rule_parse date_parse (py "VTIMEZONE") its = Ok z ->
  exists z', load_zone X rule_parse date_parse (py "VTIMEZONE") its' = Ok z' /\ same_zone z z'.
Proof.
  intros R E. apply zone_sound in E as [_ E]. apply (zone_order _ _ _ R) in E. exact (proj2 (zone_exact X rule_parse date_parse (py "VTIMEZONE") its') z E).
Qed.
Theorem obs_reordered n its its' o : reordered OBS_NAMES its its' -> load_obs X rule_parse date_parse n its = Ok o ->
  exists o', load_obs X rule_parse date_parse n its' = Ok o' /\ same_obs o o'.
Proof.
  intros R E. apply obs_sound in E. apply (obs_order _ _ _ _ R) in E. exact (proj2 (obs_exact X rule_parse date_parse n its') o E).
Qed.
End Order.
