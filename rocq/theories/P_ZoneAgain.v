(** * Proofs: time zone definitions that were read can be written and read again (C62) *)
From Verif Require Import M_Base M_Text M_Line M_Codec M_Cal M_Time M_Span M_Dt M_Fold M_Tree M_Comp M_Open M_Serial M_Rrule M_Vtz.
From Verif Require Import S_Text S_Codec S_Line S_Fold S_Dt S_Tree S_Comp S_Multi S_Store S_Ref S_Wire S_Read S_Vtz S_Again S_ZoneRead S_ZoneAgain.
From Verif Require Import P_Base P_Text P_Codec P_Comp P_Multi P_Cat P_Person P_Value P_ReadVal P_ReadSpan P_Rrule P_Vtz P_Vtz2 P_Again P_Again3 P_Again4 P_ZoneRead P_ZoneRead2 P_ZoneRead3.
From Coq Require Import Lia ZifyBool ZifyNat ZifyN Sorting.Sorted.
Open Scope N_scope.

Section Again.
Variable X : ext.
Hypothesis HU : utc_env X.
Hypothesis HT : text_env X.
Variable rule_parse : option Z -> list N -> res M_Rrule.rule.
Variable date_parse : list N -> res Z.
Hypothesis RD : reads_dates date_parse.
Hypothesis RE : rules_env rule_parse.
Local Notation set_read := (set_read rule_parse date_parse).
Local Notation obs_reads := (obs_reads rule_parse date_parse).
Local Notation zone_reads := (zone_reads X rule_parse date_parse).

(** ** Recurrence sets *)
Lemma rule_from its rs r : set_read its rs -> In r (rs_rules rs ++ rs_exrules rs) ->
  exists s l, start_is date_parse its s /\ In (ILine l) its /\ In (cl_name l) [py "RRULE"; py "EXRULE"] /\ rule_parse s (cl_value l) = Ok r.
Proof.
  intros R I. destruct (sr_all _ _ _ _ R) as (s & ds & S & F1 & F2 & _). apply in_app_iff in I as [I|I].
  - destruct (Forall2_both _ _ _ _ F1 I) as (l & J & E). apply lines_In in J as [J K]. exists s, l. rewrite K. repeat split; auto. now left.
  - destruct (Forall2_both _ _ _ _ F2 I) as (l & J & E). apply lines_In in J as [J K]. exists s, l. rewrite K. repeat split; auto. right. now left.
Qed.
Lemma start_fun its s s' : start_is date_parse its s -> start_is date_parse its s' -> s = s'.
Proof.
  intros (ds & F & ->) (es & G & ->). f_equal. f_equal. revert es G. induction F as [|l d ls ds H F IH]; intros es G; inversion G as [|? e ? es' H1 H2]; subst; [reflexivity|]. f_equal; [|now apply IH].
  apply dates_on_iff in H, H1. congruence.
Qed.
Lemma last_some (ds : list Z) : ds <> [] -> exists d, last (map Some ds) None = Some d.
Proof. induction ds as [|a [|b ds] IH]; intro H; [now contradiction H|now exists a|]. destruct IH as (d & E); [discriminate|]. exists d. exact E. Qed.
Lemma start_some its s l : start_is date_parse its s -> In (ILine l) its -> cl_name l = py "DTSTART" -> exists d, s = Some d.
Proof.
  intros (ds & F & ->) I E. apply last_some. intros ->. inversion F as [K|]. assert (J : In l (lines (py "DTSTART") its)) by (rewrite <- E; now apply in_lines). rewrite <- K in J. contradiction.
Qed.
Lemma dates_some l ds : dates_on date_parse l ds -> exists d, In d ds.
Proof. intros (ss & C & _ & F). destruct C; inversion F; subst; eexists; now left. Qed.
Lemma F2_left {A B} (R : A -> B -> Prop) l l' a : Forall2 R l l' -> In a l -> exists b, In b l' /\ R a b.
Proof. induction 1 as [|x y l l' H F IH]; intros []; [subst; exists y; split; [now left|assumption]|]. destruct (IH H0) as (b & I & J). exists b. split; [now right|exact J]. Qed.
Lemma set_some its rs : set_read its rs -> rs <> mk_set [] [] [] [].
Proof.
  intros R ->. destruct (sr_any _ _ _ _ R) as (n & l & I & J). destruct (sr_all _ _ _ _ R) as (s & ds & S & F1 & F2 & F3 & F4). destruct (sr_exall _ _ _ _ R) as (es & F5 & F6). cbn [rs_rules rs_exrules rs_dates rs_exdates] in *.
  assert (HD : forall m ls xs, Forall2 (dates_on date_parse) (lines m its) xs -> In l (lines m its) -> (forall t, In t [] <-> In t (concat xs) \/ ls = Some t) -> False).
  { intros m ls xs F K H. destruct (F2_left _ _ _ _ F K) as (x & L & D). apply dates_some in D as (d & D). apply (H d). left. apply in_concat. eauto. }
  unfold S_ZoneRead.RULE_NAMES in I. destruct I as [<-|[<-|[<-|[<-|[<-|[]]]]]].
  - inversion F1 as [K|]. rewrite <- K in J. contradiction.
  - now apply (HD _ s ds F3).
  - inversion F2 as [K|]. rewrite <- K in J. contradiction.
  - apply (HD _ None es F5 J). intro t. rewrite <- F6. split; [intros []|]. intros [[]|[=]].
  - apply lines_In in J as [J E]. destruct (start_some its s l S J E) as (d & ->). apply (F4 d). now right.
Qed.
Lemma set_storable its o : set_read its (o_rules o) -> keepable_obs o -> storable_rules rule_parse (o_rules o).
Proof.
  intros R K. constructor; [|apply (ko_dates _ K)|apply (ko_exdates _ K)|exact (set_some its _ R)].
  destruct (all_rules o) as [|r0 rs0] eqn:E.
  - exists None. split; [easy|]. unfold all_rules in E. rewrite E. intros r [].
  - assert (I0 : In r0 (all_rules o)) by (rewrite E; now left). exists (r_start r0). split; [intros d Hd; exact (ko_starts _ K r0 d I0 Hd)|]. intros r I. split; [exact (ko_one _ K r r0 I I0)|].
    rewrite <- (ko_one _ K r r0 I I0). destruct (rule_from _ _ _ R I) as (s & l & _ & _ & _ & P). exact (re_again _ RE _ _ _ P).
Qed.
Lemma set_starts its rs : set_read its rs -> (exists l, In (ILine l) its /\ cl_name l = py "DTSTART") ->
  exists d, In d (rs_dates rs) /\ forall r, In r (rs_rules rs ++ rs_exrules rs) -> r_start r = Some d.
Proof.
  intros R (l & I & E). destruct (sr_all _ _ _ _ R) as (s & ds & S & _ & _ & _ & F4). destruct (start_some _ _ _ S I E) as (d & ->). exists d. split; [apply F4; now right|].
  intros r J. destruct (rule_from _ _ _ R J) as (s' & l' & S' & _ & _ & P). rewrite (start_fun _ _ _ S' S) in P. exact (re_start _ RE _ _ _ P).
Qed.
Lemma rules_same rs rs' : rules_back rs rs' -> StronglySorted Z.lt (rs_dates rs) -> StronglySorted Z.lt (rs_exdates rs) -> (forall d, starts rs d -> In d (rs_dates rs)) -> rs' = rs.
Proof.
  intros [B1 B2 B3 B4 B5 B6] S1 S2 H. destruct rs as [a b c d], rs' as [a' b' c' d']. cbn [rs_rules rs_exrules rs_dates rs_exdates] in *. subst. f_equal.
  - apply lt_sorted_ext; auto. intro t. rewrite B3. split; [intros [J|J]; auto; exact (H t J)|auto].
  - apply lt_sorted_ext; auto.
Qed.

(** ** Fields *)
Lemma field_from A n w (means : list N -> xp -> A -> xp -> Prop) k its pars o p : field_read n w means k its pars o -> dict_get k pars = Some p ->
  p <> [] /\ exists l v, o = Some v /\ In (ILine l) its /\ means (cl_value l) (dict_del (py "VALUE") (cl_params l)) v p.
Proof.
  intros (ls & OL & H) E. destruct ls as [|l [|? ?]]; [destruct H; congruence| |contradiction]. destruct H as (v & rest & _ & M & -> & P). rewrite E in P. destruct rest as [|q rest]; [discriminate|]. injection P as ->.
  split; [easy|]. exists l, v. split; [reflexivity|]. split; [|exact M]. destruct OL as [OL _]. assert (I : In l (lines n its)) by (rewrite <- OL; now left). now apply lines_In in I.
Qed.
Lemma field_val A n w (means : list N -> xp -> A -> xp -> Prop) k its pars v : field_read n w means k its pars (Some v) ->
  exists l rest, In (ILine l) its /\ means (cl_value l) (dict_del (py "VALUE") (cl_params l)) v rest.
Proof.
  intros (ls & OL & H). destruct ls as [|l [|? ?]]; [destruct H; congruence| |contradiction]. destruct H as (v' & rest & _ & M & [= <-] & _). exists l, rest.
  split; [|exact M]. destruct OL as [OL _]. assert (I : In l (lines n its)) by (rewrite <- OL; now left). now apply lines_In in I.
Qed.
Lemma no_value its l n : Forall (wf_item ok_line) its -> In (ILine l) its -> In n [py "VALUE"] -> ~ In n (keys (dict_del (py "VALUE") (cl_params l))).
Proof. intros F I [<-|[]]. apply del_not_In. eapply wf_nodup; eauto. Qed.
Lemma no_value_tzid its l n : Forall (wf_item ok_line) its -> In (ILine l) its -> In n [py "VALUE"; py "TZID"] -> ~ In n (keys (dict_del (py "TZID") (dict_del (py "VALUE") (cl_params l)))).
Proof.
  intros F I [<-|[<-|[]]] J; [apply del_incl in J; revert J|revert J]; apply del_not_In; [|apply keys_del]; eapply wf_nodup; eauto.
Qed.
Lemma wire_value its l : Forall (wf_item ok_line) its -> In (ILine l) its -> wire_par (dict_del (py "VALUE") (cl_params l)) /\ no_break (cl_value l).
Proof. intros F I. destruct (ok_wire l (line_ok its l F I)). split; [now apply wire_del|assumption]. Qed.
Lemma means_offset_whole s ps x rest : means_offset s ps x rest -> (x mod US_SEC = 0)%Z.
Proof. intros (v & _ & -> & _). now apply Z.mod_mul. Qed.

(** ** Observances *)
Lemma obs_kept_ok n its o : Forall (wf_item ok_line) its -> obs_reads n its o -> keepable_obs o -> storable_obs rule_parse o /\ wire_obs o.
Proof.
  intros F [R1 R2 R3 R4 R5 R6 R7 R8] K.
  assert (OT : forall it, In it (o_extra o) -> In it its /\ ~ In (item_name it) OBS_NAMES).
  { intros it I. rewrite R7 in I. apply filter_In in I as [I J]. split; [exact I|]. intro L. apply Bool.negb_true_iff in J. assert (existsb (str_eqb (item_name it)) OBS_NAMES = true) by (apply existsb_exists; exists (item_name it); split; [exact L|apply str_eqb_refl]). congruence. }
  assert (PA : forall k p, dict_get k (o_params o) = Some p -> p <> [] /\ wire_par p /\ (forall m, In m [py "VALUE"] -> ~ In m (keys p)) /\
    In (k, []) ([(py "TZOFFSETFROM", []); (py "TZOFFSETTO", [])] ++ if_set (o_name o) (py "TZNAME", []) ++ if_set (o_comment o) (py "COMMENT", []))).
  { intros k p E. assert (I : In k [py "TZOFFSETFROM"; py "TZOFFSETTO"; py "TZNAME"; py "COMMENT"]) by (apply R8; congruence). destruct I as [<-|[<-|[<-|[<-|[]]]]].
    - destruct (field_from _ _ _ _ _ _ _ _ _ R2 E) as (NE & l & v & _ & I & (u & _ & _ & ->)). split; [exact NE|]. split; [now apply (wire_value its)|]. split; [intros m J; now apply (no_value its)|]. cbn [app]. now left.
    - destruct (field_from _ _ _ _ _ _ _ _ _ R3 E) as (NE & l & v & _ & I & (u & _ & _ & ->)). split; [exact NE|]. split; [now apply (wire_value its)|]. split; [intros m J; now apply (no_value its)|]. cbn [app]. right. now left.
    - destruct (field_from _ _ _ _ _ _ _ _ _ R5 E) as (NE & l & v & -> & I & (_ & ->)). split; [exact NE|]. split; [now apply (wire_value its)|]. split; [intros m J; now apply (no_value its)|]. cbn [app if_set]. right. right. now left.
    - destruct (field_from _ _ _ _ _ _ _ _ _ R6 E) as (NE & l & v & -> & I & (_ & ->)). split; [exact NE|]. split; [now apply (wire_value its)|]. split; [intros m J; now apply (no_value its)|]. rewrite !in_app_iff. right. right. now left. }
  split; constructor.
  - destruct (field_val _ _ _ _ _ _ _ _ R2) as (l & rest & _ & M). split; [exact (ko_from _ K)|exact (means_offset_whole _ _ _ _ M)].
  - destruct (field_val _ _ _ _ _ _ _ _ R3) as (l & rest & _ & M). split; [exact (ko_to _ K)|exact (means_offset_whole _ _ _ _ M)].
  - exact (set_storable its o R4 K).
  - intros k p E. destruct (PA k p E) as (A & _ & C & D). split; [exact A|]. exists []. split; [exact D|exact C].
  - apply Forall_forall. intros it I. now apply OT.
  - intros r I. destruct (rule_from _ _ _ R4 I) as (s & l & _ & J & _ & P). apply (re_text _ RE _ _ _ P). now apply (wire_value its).
  - intros k p E. now apply (PA k p E).
  - apply Forall_forall. intros it I. apply OT in I as [I _]. rewrite Forall_forall in F. now apply F.
Qed.
Lemma parts_wf its p : Forall (wf_item ok_line) its -> In p (obs_parts its) -> Forall (wf_item ok_line) (snd p) /\ In (ICont (fst p) (snd p)) its /\ In (fst p) [py "STANDARD"; py "DAYLIGHT"].
Proof.
  intros F I. unfold obs_parts in I. apply in_flat_map in I as ([l|n l] & I & J); [contradiction|]. destruct (_ || _) eqn:E; [|contradiction]. destruct J as [<-|[]]. cbn [fst snd]. rewrite Forall_forall in F.
  split; [apply (wf_items n), F, I|]. split; [exact I|]. apply Bool.orb_true_iff in E as [E|E]; apply str_eqb_eq in E; subst n; cbn [In]; auto.
Qed.

(** ** Zones *)
Lemma zone_kept_ok its z : Forall (wf_item ok_line) its -> zone_reads its z -> keepable_zone X z -> storable_zone X rule_parse z /\ wire_zone X z.
Proof.
  intros F [R1 R2 R3 R4 R5 R6 R7] K.
  assert (OT : forall it, In it (t_extra z) -> In it its /\ ~ In (item_name it) ZONE_NAMES).
  { intros it I. rewrite R6 in I. apply filter_In in I as [I J]. split; [exact I|]. intro L. apply Bool.negb_true_iff in J. assert (existsb (str_eqb (item_name it)) ZONE_NAMES = true) by (apply existsb_exists; exists (item_name it); split; [exact L|apply str_eqb_refl]). congruence. }
  assert (OB : forall o, In o (t_obs z) -> storable_obs rule_parse o /\ wire_obs o).
  { intros o I. destruct (Forall2_both _ _ _ _ R3 I) as (p & J & R). destruct (parts_wf its p F J) as (FP & _). apply (obs_kept_ok (fst p) (snd p) o FP R). pose proof (kz_obs _ _ K) as KO. rewrite Forall_forall in KO. now apply KO. }
  assert (PA : forall k p, dict_get k (t_params z) = Some p -> p <> [] /\ wire_par p /\ exists ab, (forall m, In m (py "VALUE" :: ab) -> ~ In m (keys p)) /\
    In (k, ab) ([(py "TZID", [])] ++ if_set (t_url z) (py "TZURL", []) ++ if_set (t_modified z) (py "LAST_MODIFIED", [py "TZID"]))).
  { intros k p E. assert (I : In k [py "TZID"; py "TZURL"; py "LAST_MODIFIED"]) by (apply R7; congruence). destruct I as [<-|[<-|[<-|[]]]].
    - destruct (field_from _ _ _ _ _ _ _ _ _ R1 E) as (NE & l & v & _ & I & (_ & ->)). split; [exact NE|]. split; [now apply (wire_value its)|]. exists []. split; [intros m J; now apply (no_value its)|]. cbn [app]. now left.
    - destruct (field_from _ _ _ _ _ _ _ _ _ R4 E) as (NE & l & v & -> & I & (_ & ->)). split; [exact NE|]. split; [now apply (wire_value its)|]. exists []. split; [intros m J; now apply (no_value its)|]. cbn [app if_set]. right. now left.
    - destruct (field_from _ _ _ _ _ _ _ _ _ R5 E) as (NE & l & v & -> & I & (d & _ & -> & _)). split; [exact NE|]. split; [now apply wire_del, (wire_value its)|]. exists [py "TZID"]. split; [intros m J; now apply (no_value_tzid its)|].
      rewrite !in_app_iff. right. right. now left. }
  split; constructor.
  - apply Forall_forall. intros o I. now apply OB.
  - exact (kz_url _ _ K).
  - intros d E. rewrite E in R5. destruct (field_val _ _ _ _ _ _ _ _ R5) as (l & rest & _ & (d0 & M & _ & A)). destruct (astimezone_utc X [] HU _ _ _ _ _ M A) as [E1 E2].
    split; [apply dt_storable; [now rewrite E1|exact E2|exact (kz_modified _ _ K d E)]|]. exists (wall d). now rewrite <- E1.
  - intros k p E. destruct (PA k p E) as (A & _ & ab & C & D). split; [exact A|]. exists ab. split; [exact D|exact C].
  - apply Forall_forall. intros it I. now apply OT.
  - apply Forall_forall. intros o I. now apply OB.
  - intros u E. rewrite E in R4. destruct (field_val _ _ _ _ _ _ _ _ R4) as (l & rest & I & (P & _)). destruct (wire_value its l F I) as [_ NB]. intros c HC J.
    apply (te_url X HT _ _ c P); [cbn in HC |- *; tauto|exact (NB c HC)|exact J].
  - intros k p E. now apply (PA k p E).
  - apply Forall_forall. intros it I. apply OT in I as [I _]. rewrite Forall_forall in F. now apply F.
Qed.
Lemma obs_same n its o o' : obs_reads n its o -> obs_back o o' -> ((exists l, In (ILine l) its /\ In (cl_name l) [py "RRULE"; py "EXRULE"]) -> exists l, In (ILine l) its /\ cl_name l = py "DTSTART") -> obs_kept o o'.
Proof.
  intros R B ST. pose proof (or_rules _ _ _ _ _ R) as SR. constructor; [exact B|]. apply rules_same; [exact (bo_rules _ _ B)|apply SR|apply SR|]. intros d (r & I & E).
  destruct (rule_from _ _ _ SR I) as (s & l & _ & J & N & _). destruct (set_starts _ _ SR (ST (ex_intro _ l (conj J N)))) as (d' & D1 & D2). rewrite (D2 r I) in E. now injection E as <-.
Qed.
Lemma back_kept its z z' : Forall (wf_item ok_line) its -> zone_reads its z -> zone_back z z' -> started its -> zone_kept z z'.
Proof.
  intros WF R E5. intro ST. constructor; [exact E5|]. pose proof (bz_obs _ _ E5) as B. pose proof (zr_obs _ _ _ _ _ R) as P.
  assert (HP : forall p, In p (obs_parts its) -> (exists l, In (ILine l) (snd p) /\ In (cl_name l) [py "RRULE"; py "EXRULE"]) -> exists l, In (ILine l) (snd p) /\ cl_name l = py "DTSTART").
  { intros p I (l & J & Q). destruct (parts_wf its p WF I) as (_ & J1 & J2). exact (ST _ _ l J1 J2 J Q). }
  clear -P B HP RE. revert B. generalize (t_obs z') as os'. induction P as [|p o ps os H P IH]; intros os' B; inversion B as [|? o' ? os'' B1 B2]; subst; constructor.
  - apply (obs_same (fst p) (snd p)); auto. apply HP. now left.
  - apply IH; auto. intros q I. apply HP. now right.
Qed.
Theorem zone_again hy resplit W nl n its z : splitter resplit -> width_ok W -> wf_item ok_line (ICont n its) -> load_zone X rule_parse date_parse n its = Ok z -> keepable_zone X z ->
  exists it txt sub z', dump_zone X z = Ok it /\ item_serialize hy resplit W it nl = Ok txt /\
    string_to_containers txt = ([ICont (py "VTIMEZONE") sub], None) /\ load_zone X rule_parse date_parse (py "VTIMEZONE") sub = Ok z' /\ zone_back z z' /\ (started its -> zone_kept z z').
Proof.
  intros HS HW WF L K. apply zone_sound in L as [-> R]. apply wf_items in WF. destruct (zone_kept_ok its z WF R K) as [S1 S2].
  destruct (zone_text X HU rule_parse date_parse RD hy resplit W nl z HS HW S1 S2) as (it & txt & sub & z' & E1 & E2 & E3 & E4 & E5). exists it, txt, sub, z'. do 5 (split; [assumption|]).
  intro ST. exact (back_kept its z z' WF R E5 ST).
Qed.
Theorem zone_text_again hy resplit W nl txt0 n its z : splitter resplit -> width_ok W -> string_to_containers txt0 = ([ICont n its], None) -> load_zone X rule_parse date_parse n its = Ok z -> keepable_zone X z ->
  exists it txt sub z', dump_zone X z = Ok it /\ item_serialize hy resplit W it nl = Ok txt /\
    string_to_containers txt = ([ICont (py "VTIMEZONE") sub], None) /\ load_zone X rule_parse date_parse (py "VTIMEZONE") sub = Ok z' /\ zone_back z z' /\ (started its -> zone_kept z z').
Proof.
  intros HS HW T. apply zone_again; auto. unfold string_to_containers in T. eapply lines_wf; [exact T|now left].
Qed.
End Again.
