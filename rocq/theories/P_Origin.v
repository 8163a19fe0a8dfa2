(** * Proofs for C63: the zones of a calendar that was read *)
From Verif Require Import M_Base M_Text M_Line M_Codec M_Cal M_Time M_Span M_Dt M_Fold M_Tree M_Comp M_Open M_Serial M_Rrule M_Vtz.
From Verif Require Import S_Text S_Codec S_Dt S_Line S_Fold S_Tree S_Comp S_Multi S_Store S_Ref S_Wire S_Vtz S_Read S_Again S_ZoneRead S_ZoneAgain S_Origin.
From Verif Require Import P_Base P_Attr P_Person P_StoreEx P_ReadAll P_ReadSpan P_Calendar P_Again P_Again3 P_Again4 P_Vtz2 P_ZoneRead3 P_ZoneAgain.
From Coq Require Import Lia ZifyBool ZifyNat ZifyN.
Open Scope N_scope.

Lemma get_In {V} k (d : dict V) v : dict_get k d = Some v -> In (k, v) d.
Proof. induction d as [|[j w] d IH]; [discriminate|]. cbn [dict_get In]. destruct (str_eqb k j) eqn:E; [apply str_eqb_eq in E; intros [= ->]; left; congruence|right; auto]. Qed.

Section Origin.
Variable X : ext.
Variable zs : zones.

(** What a component gets its zones from. *)
Definition source (its : list item) (z : tz) : Prop :=
  z = z_utc (x_zdb X) \/ z = x_utc X \/ dtz (x_now X) = Some z \/
  exists id, mentions id its /\ id <> [] /\ zone_named X zs id z.
Lemma source_sub n sub its z : In (ICont n sub) its -> source sub z -> source its z.
Proof. intros I [H|[H|[H|(id & H1 & H2)]]]; [now left|now (right; left)|now (right; right; left)|]. right. right. right. exists id. split; [eapply ME_sub; eauto|assumption]. Qed.
Lemma astimezone_zone d z e : dt_astimezone (x_env X) d (Some z) = Ok e -> dtz e = Some z.
Proof.
  unfold dt_astimezone. destruct (negb (naive d) && same_tz (dtz d) (Some z))%bool eqn:S.
  - intros [= <-]. apply Bool.andb_true_iff in S as [_ S]. destruct (dtz d) as [[]|], z; try discriminate S. apply N.eqb_eq in S. now subst.
  - cbn zeta. destruct (wall_ok _); [|discriminate]. destruct (tz_fromutc _ _ _). destruct (wall_ok _); [|discriminate]. now intros [= <-].
Qed.
Lemma moment_zone text l its d z : In (ILine l) its -> moment X zs text (cl_value l) (dict_del (py "VALUE") (cl_params l)) d -> dtz d = Some z -> source its z.
Proof.
  intros I (_ & _ & _ & _ & t & T & [(_ & _ & E)|(_ & E)]) Z.
  - left. congruence.
  - destruct t as [id|]; [|congruence]. destruct E as (z' & N & E). assert (z' = z) as -> by congruence. right. right. right. exists id.
    unfold tzid_is in T. rewrite get_del_other in T by discriminate. destruct (dict_get (py "TZID") (cl_params l)) as [[|p [|]]|] eqn:G; [discriminate| |contradiction|discriminate].
    destruct (pval_str p) as [|c s] eqn:P; [discriminate|]. injection T as ->. split; [|split; [easy|exact N]]. eapply ME_line; eauto.
Qed.
Lemma no_dates t s ps v rest : t <> Datetime -> denotes X zs t s ps v rest -> val_dts v = [].
Proof. intros N D. now destruct D. Qed.
Lemma denotes_zone t l ss its v rest d z : (t = Datetime -> ss = cl_value l) -> In (ILine l) its -> denotes X zs t ss (dict_del (py "VALUE") (cl_params l)) v rest -> In d (val_dts v) -> dtz d = Some z -> source its z.
Proof.
  intros HS I D J Z. inversion D as [| | |s0 ps0 d0 M| | | | | |]; subst; try contradiction. destruct J as [<-|[]]. rewrite (HS eq_refl) in M. eapply moment_zone; eauto.
Qed.
Lemma values_dates t ss ps vs qs : t <> Datetime -> values_read X zs t ss ps vs qs -> flat_map val_dts vs = [].
Proof. intros N H. induction H; cbn [flat_map]; rewrite (no_dates _ _ _ _ _ N H); [reflexivity|assumption]. Qed.
Lemma lines_dates ts ls vs qs : (forall w t, In (w, t) ts -> t <> Datetime) -> lines_read X zs ts ls vs qs -> flat_map val_dts vs = [].
Proof.
  intros N H. induction H as [|l ls vs qs vs' qs' (t & ss & T & _ & _ & V) H IH]; [reflexivity|]. rewrite flat_map_app, IH, app_nil_r. refine (values_dates t ss _ vs qs _ V).
  unfold typed in T. destruct (dict_get _ _) as [[|p [|]]|]; try contradiction; [destruct T as (w & ts' & ->)|eapply N; exact T|destruct T as (w & ts' & ->)]; eapply N; now left.
Qed.
Lemma multiples_dates c f w t : In f (multiples c) -> In (w, t) (h_types f) -> t <> Datetime.
Proof.
  intros I J. assert (H : forallb (fun f => forallb (fun p => match snd p with Datetime => false | _ => true end) (h_types f)) (multiples c) = true) by (destruct c; reflexivity).
  rewrite forallb_forall in H. specialize (H f I). rewrite forallb_forall in H. specialize (H (w, t) J). intros ->. discriminate H.
Qed.
Lemma time_zone n key its M (x : comp M) p d z : time_read X zs n key its x p (Some d) -> dtz d = Some z -> source its z.
Proof.
  intros (ls & (OL & _) & H) Z. destruct ls as [|l [|? ?]]; [destruct H; discriminate| |contradiction]. destruct H as (q & d' & rest & (_ & T) & _ & [= <-] & _).
  assert (I : In (ILine l) its) by (assert (J : In l (lines n its)) by (rewrite <- OL; now left); now apply lines_In in J).
  destruct (option_map _ _) as [w|]; [destruct T as [(_ & _ & T)|(_ & _ & e & _ & ->)]; [|discriminate]|destruct T as [_ T]]; eapply moment_zone; eauto.
Qed.
Lemma reads_zone M (RM : mkind -> list item -> M -> Prop) c its x k a d z : reads X zs RM c its x -> dict_get k (c_attrs x) = Some a -> In d (attr_dts a) -> dtz d = Some z -> source its z.
Proof.
  intros R G J Z. assert (I : In k (attr_names c)) by (apply (rd_attrs _ _ _ _ _ _ R); congruence). unfold attr_names in I. rewrite !in_app_iff in I. destruct I as [I|[I|I]].
  - apply in_map_iff in I as (f & <- & I). destruct (rd_one _ _ _ _ _ _ R f I) as (ls & (OL & _) & H). destruct ls as [|l [|? ?]]; [| |contradiction].
    + destruct H as (_ & H & _). rewrite H in G. injection G as <-. unfold initial in J. destruct (str_eqb _ _); [contradiction|]. destruct (str_eqb _ _); [|contradiction]. destruct J as [<-|[]]. right. right. now left.
    + destruct H as (t & v & w & rest & _ & D & K & H & _). rewrite H in G. injection G as <-. cbn [attr_dts] in J.
      assert (IL : In (ILine l) its) by (assert (JL : In l (lines (g_name f) its)) by (rewrite <- OL; now left); now apply lines_In in JL).
      destruct (g_rule f); cbn [kept] in K.
      * subst w. eapply denotes_zone; eauto.
      * destruct K as (s & _ & -> & _). contradiction.
      * destruct K as (d0 & e & _ & -> & A). destruct J as [<-|[]]. apply astimezone_zone in A. right. left. congruence.
      * destruct K as (n & -> & -> & _). contradiction.
  - apply in_map_iff in I as (f & <- & I). destruct (rd_many _ _ _ _ _ _ R f I) as (ls & vs & qs & _ & L & H & _). rewrite H in G. injection G as <-. cbn [attr_dts] in J.
    rewrite (lines_dates (h_types f) ls vs qs (fun w t => multiples_dates c f w t I) L) in J. contradiction.
  - destruct (is_entry c) eqn:E; [|contradiction]. destruct I as [<-|[]]. pose proof (rd_span _ _ _ _ _ _ R E) as S. unfold span_read in S.
    assert (S' : exists k0 own key p b e dd, time_read X zs (py "DTSTART") (py "BEGIN") its x p b /\ time_read X zs own key its x p e /\ dict_get (py "timespan") (c_attrs x) = Some (AOne (VSpan (mk_ts k0 b e dd (match p with Some q => q | None => PNone end))))).
    { destruct c; try discriminate E; destruct S as (p & b & e & e' & dd & T1 & T2 & _ & _ & _ & _ & _ & T3); do 7 eexists; (split; [exact T1|split; [exact T2|exact T3]]). }
    destruct S' as (k0 & own & key & p & b & e & dd & T1 & T2 & T3). rewrite T3 in G. injection G as <-. cbn [attr_dts val_dts ts_begin ts_end] in J. apply in_app_iff in J as [J|J].
    + destruct b as [b|]; [|contradiction]. destruct J as [<-|[]]. eapply time_zone; eauto.
    + destruct e as [e|]; [|contradiction]. destruct J as [<-|[]]. eapply time_zone; eauto.
Qed.
Lemma comp_zone M (RM : mkind -> list item -> M -> Prop) (DM : M -> datetime -> Prop) c its x d z :
  (forall m sub y, RM m sub y -> DM y d -> source sub z) -> reads X zs RM c its x -> has_date DM x d -> dtz d = Some z -> source its z.
Proof.
  intros HM R [(k & a & G & J)|(k & l & m & G & J & D)] Z; [exact (reads_zone M RM c its x k a d z R G J Z)|].
  assert (I : In k (map (fun m => fst (fst m)) (members c))) by (apply (rd_mems _ _ _ _ _ _ R); congruence). apply in_map_iff in I as ([[a n] mk] & <- & I). cbn [fst] in *.
  destruct (rd_members _ _ _ _ _ _ R a n mk I) as (_ & ms & E & F). rewrite E in G. injection G as ->. destruct (Forall2_both _ _ _ _ F J) as (sub & S & RS).
  unfold subs in S. apply in_flat_map in S as ([?|n' sub'] & S1 & S2); [contradiction|]. destruct (str_eqb n' n); [|contradiction]. destruct S2 as [<-|[]].
  eapply source_sub; [exact S1|]. eapply HM; eauto.
Qed.
Lemma alarm_zone its x d z : alarm_reads X zs its x -> alarm_date x d -> dtz d = Some z -> source its z.
Proof. intros (c & _ & R) D Z. eapply comp_zone; [|exact R|exact D|exact Z]. intros m sub y []. Qed.
Lemma entry_zone c its x d z : entry_reads X zs c its x -> entry_date x d -> dtz d = Some z -> source its z.
Proof. intros R D Z. eapply comp_zone; [|exact R|exact D|exact Z]. intros m sub y R' D'. exact (alarm_zone sub y d z R' D' Z). Qed.
Lemma calendar_zone its x d z : reads X zs (in_calendar_reads X zs) CCalendar its x -> calendar_date x d -> dtz d = Some z -> source its z.
Proof. intros R D Z. eapply comp_zone; [|exact R|exact D|exact Z]. intros m sub y R' D'. destruct m; [contradiction|exact (entry_zone CEvent sub y d z R' D' Z)|exact (entry_zone CTodo sub y d z R' D' Z)]. Qed.
End Origin.

(** ** The zones of the definitions of a calendar *)
Section Calendar.
Variable X : ext.
Lemma zones_found its zs : Forall2 (fun sub z => x_tz_load X sub = Ok z) (subs (py "VTIMEZONE") its) zs -> forall id,
  match dict_get id zs with Some z => defines X its id z | None => undefined X its id end.
Proof.
  revert zs. induction its as [|[l|n sub] its IH]; intros zs F id.
  - inversion F; subst. cbn [dict_get]. intros sub z [].
  - specialize (IH zs F id). destruct (dict_get id zs) as [z|].
    + destruct IH as (l1 & sub & l2 & -> & L & U). exists (ILine l :: l1), sub, l2. split; [reflexivity|]. split; [exact L|]. intros sub' z' [J|J]; [discriminate|now apply U].
    + intros sub z [J|J]; [discriminate|now apply IH].
  - unfold subs in F. cbn [flat_map] in F. fold (subs (py "VTIMEZONE") its) in F. destruct (str_eqb n (py "VTIMEZONE")) eqn:E.
    + apply str_eqb_eq in E. subst n. cbn [app] in F. inversion F as [|? [id1 z1] ? zs' L F']; subst. specialize (IH zs' F' id). cbn [dict_get].
      destruct (str_eqb id id1) eqn:E1; [apply str_eqb_eq in E1; subst id1|].
      * exists [], sub, its. split; [reflexivity|]. split; [exact L|]. intros ? ? [].
      * assert (N : forall z', x_tz_load X sub <> Ok (id, z')) by (intros z' L'; rewrite L in L'; injection L' as -> ->; now rewrite str_eqb_refl in E1).
        destruct (dict_get id zs') as [z|].
        -- destruct IH as (l1 & sub1 & l2 & -> & L1 & U). exists (ICont (py "VTIMEZONE") sub :: l1), sub1, l2. split; [reflexivity|]. split; [exact L1|].
           intros sub' z' [[= <-]|J]; [apply N|now apply U].
        -- intros sub' z' [[= <-]|J]; [apply N|now apply IH].
    + specialize (IH zs F id). assert (NE : forall sub', ICont n sub <> ICont (py "VTIMEZONE") sub') by (intros sub' [= -> _]; now rewrite str_eqb_refl in E). destruct (dict_get id zs) as [z|].
      * destruct IH as (l1 & sub1 & l2 & -> & L & U). exists (ICont n sub :: l1), sub1, l2. split; [reflexivity|]. split; [exact L|]. intros sub' z' [J|J]; [now apply NE in J|now apply U].
      * intros sub' z' [J|J]; [now apply NE in J|now apply IH].
Qed.
Lemma defines_fun its id z z' : defines X its id z -> defines X its id z' -> z = z'.
Proof.
  intros (l1 & sub & l2 & E & L & U) (k1 & sub' & k2 & E' & L' & U'). rewrite E in E'. clear E. revert l1 U E'. induction k1 as [|x k1 IH]; intros l1 U E'.
  - destruct l1 as [|y l1]; [injection E' as -> ->; congruence|]. injection E' as -> _. exfalso. apply (U sub' z'); [now left|exact L'].
  - destruct l1 as [|y l1]; [injection E' as <- _; exfalso; apply (U' sub z); [now left|exact L]|]. injection E' as -> E'. apply (IH (fun s t I => U' s t (or_intror I)) l1 (fun s t I => U s t (or_intror I)) E').
Qed.
Lemma find_known id z : find_zone (x_zdb X) id = Ok z -> known X id z.
Proof.
  unfold find_zone, known. destruct (z_from_tzid _ id) as [z'|[]]; try discriminate; [intros [= ->]; now left|]. destruct (z_gettz _ id); [|discriminate]. intros [= ->]. now right.
Qed.
Lemma calendar_origin n its c d z : load_calendar X n its = Ok c -> calendar_date c d -> dtz d = Some z -> origin X its z.
Proof.
  intros L D Z. apply calendar_sound in L as (_ & zs & F & R). destruct (calendar_zone X zs its c d z R D Z) as [->|[->|[H|(id & M & N & [H|[H1 H2]])]]].
  - constructor.
  - constructor 2.
  - now constructor 3.
  - pose proof (zones_found its zs F id) as HF. rewrite H in HF. eapply OR_defined; eauto.
  - pose proof (zones_found its zs F id) as HF. rewrite H1 in HF. eapply OR_known; eauto. now apply find_known.
Qed.
End Calendar.

(** ** Dates and zones used *)
Section Uses.
Variable X : ext.
Lemma comp_uses_date M (UM : M -> list N -> tz -> tz -> Prop) (DM : M -> datetime -> Prop) x id z z' :
  (forall m, UM m id z z' -> exists d, DM m d /\ dt_uses X d id z z') -> comp_uses X UM x id z z' -> exists d, has_date DM x d /\ dt_uses X d id z z'.
Proof.
  intros HM [(k & a & d & G & J & U)|(k & l & m & G & J & U)]; [exists d; split; [left; eauto|exact U]|].
  destruct (HM m U) as (d & D & U'). exists d. split; [right; eauto 6|exact U'].
Qed.
Lemma calendar_uses_date c id z z' : calendar_uses X c id z z' -> exists d, calendar_date c d /\ dt_uses X d id z z'.
Proof. apply comp_uses_date. intro x. apply comp_uses_date. intro m. apply comp_uses_date. intros _ []. Qed.
Lemma keep_date M (KM : M -> Prop) (DM : M -> datetime -> Prop) x d : (forall m, KM m -> DM m d -> keepable_dt X d) -> keepable X KM x -> has_date DM x d -> keepable_dt X d.
Proof.
  intros HM K [(k & a & G & J)|(k & l & m & G & J & D)]; [|eapply HM; [exact (ke_mem X _ _ K k l m G J)|exact D]].
  pose proof (ke_attrs X _ _ K k a G) as KA. assert (HV : forall v, keepable_val X v -> In d (val_dts v) -> keepable_dt X d).
  { intros v KV I. destruct v; try contradiction; [destruct I as [<-|[]]; exact KV|exact (KV d I)]. }
  destruct a as [|v|l]; [contradiction|exact (HV v KA J)|]. cbn [attr_dts] in J. apply in_flat_map in J as (v & I & J). cbn [keepable_attr] in KA. rewrite Forall_forall in KA. exact (HV v (proj1 (KA v I)) J).
Qed.
Lemma keep_calendar_date c d : keepable_calendar X c -> calendar_date c d -> keepable_dt X d.
Proof. apply keep_date. intro x. apply keep_date. intro m. apply keep_date. intros _ _ []. Qed.
End Uses.

(** ** Kept definitions *)
Section Kept.
Variable X : ext.
Hypothesis HU : utc_env X.
Hypothesis HT : text_env X.
Variable rule_parse : option Z -> list N -> res M_Rrule.rule.
Variable date_parse : list N -> res Z.
Hypothesis RD : reads_dates date_parse.
Hypothesis RE : rules_env rule_parse.
Variable zone_of : tz -> timezone.
Variable tz_of : timezone -> tz.
Hypothesis DB : defined_by X rule_parse date_parse zone_of tz_of.

Lemma kept_stored sub t : Forall (wf_item ok_line) sub -> kept_def X rule_parse date_parse zone_of tz_of sub t -> zone_stored X (t_id t) (tz_of t) (tz_of t).
Proof.
  intros WF (L & ST & K & O). pose proof (proj2 (zone_sound X rule_parse date_parse _ _ _ L)) as R. destruct (zone_kept_ok X HU HT rule_parse date_parse RE sub t WF R K) as [S1 S2].
  destruct (zone_rt X HU rule_parse date_parse RD t S1) as (out & E1 & E2 & E3). exists out. destruct DB as [D1 D2]. split; [rewrite D1, (ob_of _ _ _ _ O); exact E1|]. split; [now apply E3|].
  intros sub' F. destruct (E2 sub' F) as (t' & E & B). rewrite D2, E. cbn [rmap]. f_equal. f_equal; [exact (bz_id _ _ B)|]. apply (ob_same _ _ _ _ O).
  exact (back_kept X rule_parse date_parse RE sub t t' WF R B ST).
Qed.
Lemma mentions_wf id its : Forall (wf_item ok_line) its -> mentions id its -> ~ In 13 id.
Proof.
  intros WF M. revert WF. induction M as [its l p I G <-|its n sub I M IH]; intro WF.
  - destruct (ok_wire l (line_ok its l WF I)) as [[_ W] _]. apply get_In in G. destruct (W _ _ G) as (_ & _ & _ & W1 & _). exact (W1 p (or_introl eq_refl)).
  - apply IH. rewrite Forall_forall in WF. exact (wf_items n _ (WF _ I)).
Qed.
Section Read.
Variable n : list N.
Variable its : list item.
Variable c : calendar.
Hypothesis WF : wf_item ok_line (ICont n its).
Hypothesis L : load_calendar X n its = Ok c.
Hypothesis K : keepable_calendar X c.
Hypothesis KD : kept_defs X rule_parse date_parse zone_of tz_of its.
Lemma def_of id z : defines X its id z -> exists sub t, Forall (wf_item ok_line) sub /\ kept_def X rule_parse date_parse zone_of tz_of sub t /\ t_id t = id /\ z = tz_of t.
Proof.
  intros (l1 & sub & l2 & E & LZ & _). destruct DB as [_ D2]. rewrite D2 in LZ. destruct (load_zone X rule_parse date_parse (py "VTIMEZONE") sub) as [t|] eqn:LT; [|discriminate]. injection LZ as I1 I2.
  assert (I : In (ICont (py "VTIMEZONE") sub) its) by (rewrite E; apply in_or_app; right; now left). exists sub, t. split.
  - apply wf_items in WF. rewrite Forall_forall in WF. exact (wf_items _ _ (WF _ I)).
  - destruct (KD sub t I LT) as (H1 & H2 & H3). split; [exact (conj LT (conj H1 (conj H2 H3)))|]. split; congruence.
Qed.
Lemma uses_def id z z' : kept_known X rule_parse date_parse zone_of tz_of its -> calendar_uses X c id z z' ->
  exists sub t, Forall (wf_item ok_line) sub /\ kept_def X rule_parse date_parse zone_of tz_of sub t /\ id = t_id t /\ z = tz_of t /\ z' = tz_of t /\ ~ In 13 id /\ id <> [] /\
    (defines X its id z \/ exists id', mentions id' its /\ id' <> [] /\ undefined X its id' /\ known X id' z).
Proof.
  intros KK U. destruct (calendar_uses_date X c id z z' U) as (d & D & U1 & U2 & U3). assert (NE : id <> []).
  { destruct (keep_calendar_date X c d K D) as (_ & _ & KZ). rewrite U1 in KZ. destruct KZ as [KZ|(id2 & z2 & (_ & _ & E) & N)]; congruence. }
  assert (H : exists sub t, Forall (wf_item ok_line) sub /\ kept_def X rule_parse date_parse zone_of tz_of sub t /\ z = tz_of t /\ (t_id t = id -> ~ In 13 id) /\
    (defines X its (t_id t) z \/ exists id', mentions id' its /\ id' <> [] /\ undefined X its id' /\ known X id' z)).
  { pose proof (calendar_origin X n its c d z L D U1) as O. inversion O as [E|E|z0 E|id0 z0 M N DF|id0 z0 M N UN KN]; subst.
    - rewrite (ue_utc X HU) in U2. discriminate.
    - rewrite (ue_ics X HU) in U2. discriminate.
    - destruct (te_now X HT) as (w & EN & _). rewrite EN in E. injection E as <-. rewrite (ue_ics X HU) in U2. discriminate.
    - destruct (def_of id0 z DF) as (sub & t & F & KT & <- & ->). exists sub, t. do 3 (split; auto). split; [|now left]. intros <-. apply (mentions_wf _ its); [exact (wf_items _ _ WF)|exact M].
    - destruct (KK id0 z M N UN KN) as [E|(sub & t & F & KT & -> & CR)]; [congruence|]. exists sub, t. split; [exact (wf_items _ _ F)|]. do 2 (split; auto). split; [now intros <-|]. right. eauto. }
  destruct H as (sub & t & F & KT & -> & CR & O). pose proof (ob_self _ _ _ _ (proj2 (proj2 (proj2 KT)))) as E. rewrite U3 in E. injection E as -> ->. exists sub, t. do 5 (split; [auto|]). split; [exact (CR eq_refl)|]. now split.
Qed.
Lemma closed_known : closed X rule_parse date_parse its -> kept_known X rule_parse date_parse zone_of tz_of its.
Proof.
  intros C id z M N UN _. exfalso. destruct (C id M N) as (sub & t & I & LT & E). destruct DB as [_ D2]. apply (UN sub (tz_of t) I). rewrite D2, LT. cbn [rmap]. now rewrite E.
Qed.
Lemma closed_distinct : closed X rule_parse date_parse its -> distinct_zones X c.
Proof.
  intros C id z1 z1' z2 z2' U1 U2. assert (H : forall z z', calendar_uses X c id z z' -> z' = z /\ defines X its id z).
  { intros z z' U. destruct (uses_def id z z' (closed_known C) U) as (sub & t & _ & _ & -> & -> & -> & _ & N & [O|(id' & M & N' & UN & KN)]); [now split|].
    exfalso. destruct (C id' M N') as (sub' & t' & I & LT & E). destruct DB as [_ D2]. apply (UN sub' (tz_of t') I). rewrite D2, LT. cbn [rmap]. now rewrite E. }
  apply H in U1 as [-> D1], U2 as [-> D2]. exact (defines_fun X its id z1 z2 D1 D2).
Qed.
Lemma known_stored : kept_known X rule_parse date_parse zone_of tz_of its -> distinct_zones X c -> zones_stored X c.
Proof.
  intros KK D. split; [|exact D]. intros id z z' U. destruct (uses_def id z z' KK U) as (sub & t & F & KT & -> & -> & -> & _). exact (kept_stored sub t F KT).
Qed.
Lemma known_ids : kept_known X rule_parse date_parse zone_of tz_of its -> wire_ids X c.
Proof. intros KK id z z' U. destruct (uses_def id z z' KK U) as (sub & t & F & KT & _ & _ & _ & H1 & H2 & _). now split. Qed.
End Read.
Variable hy : bool.
Variable resplit : list N -> list (list N).
Variable W : option nat.
Hypothesis HS : splitter resplit.
Hypothesis HW : width_ok W.
Theorem known_again n its c : wf_item ok_line (ICont n its) -> load_calendar X n its = Ok c -> keepable_calendar X c -> kept_defs X rule_parse date_parse zone_of tz_of its ->
  kept_known X rule_parse date_parse zone_of tz_of its -> distinct_zones X c ->
  exists txt d, calendar_serialize X hy resplit W c = Ok txt /\ read_calendar X (FromStr txt) = Ok d /\ equal_calendar X c d.
Proof.
  intros WF L K KD KK D. exact (container_again X hy resplit W HU HT HS HW n its c WF L K (known_stored n its c WF L K KD KK D) (known_ids n its c WF L K KD KK)).
Qed.
Theorem closed_again n its c : wf_item ok_line (ICont n its) -> load_calendar X n its = Ok c -> keepable_calendar X c -> kept_defs X rule_parse date_parse zone_of tz_of its ->
  closed X rule_parse date_parse its ->
  exists txt d, calendar_serialize X hy resplit W c = Ok txt /\ read_calendar X (FromStr txt) = Ok d /\ equal_calendar X c d.
Proof. intros WF L K KD C. apply (known_again n its c WF L K KD); [now apply closed_known|exact (closed_distinct n its c WF L K KD C)]. Qed.
Lemma text_container txt c : read_calendar X (FromStr txt) = Ok c -> exists n its, string_to_containers txt = ([ICont n its], None) /\ wf_item ok_line (ICont n its) /\ load_calendar X n its = Ok c.
Proof.
  intro H. change (import_stream (load_calendar X) (string_to_containers txt) = Ok c) in H. destruct (string_to_containers txt) as [its e] eqn:E. unfold import_stream in H. destruct its as [|[l|n sub] rest]; [now destruct e|discriminate|].
  destruct (load_calendar X n sub) as [c'|] eqn:L; [|discriminate]. cbn [bind] in H. destruct rest; [|discriminate]. destruct e; [discriminate|]. injection H as <-.
  exists n, sub. split; [reflexivity|]. split; [|exact L]. eapply lines_wf; [exact E|now left].
Qed.
Theorem known_text_again txt n its c : string_to_containers txt = ([ICont n its], None) -> read_calendar X (FromStr txt) = Ok c -> keepable_calendar X c ->
  kept_defs X rule_parse date_parse zone_of tz_of its -> kept_known X rule_parse date_parse zone_of tz_of its -> distinct_zones X c ->
  exists txt' d, calendar_serialize X hy resplit W c = Ok txt' /\ read_calendar X (FromStr txt') = Ok d /\ equal_calendar X c d.
Proof. intros T R. destruct (text_container txt c R) as (n' & its' & T' & WF & L). rewrite T in T'. injection T' as -> ->. exact (known_again n' its' c WF L). Qed.
Theorem closed_text txt n its c : string_to_containers txt = ([ICont n its], None) -> read_calendar X (FromStr txt) = Ok c -> keepable_calendar X c ->
  kept_defs X rule_parse date_parse zone_of tz_of its -> closed X rule_parse date_parse its ->
  exists txt' d, calendar_serialize X hy resplit W c = Ok txt' /\ read_calendar X (FromStr txt') = Ok d /\ equal_calendar X c d.
Proof. intros T R. destruct (text_container txt c R) as (n' & its' & T' & WF & L). rewrite T in T'. injection T' as -> ->. exact (closed_again n' its' c WF L). Qed.
End Kept.

