(** * Proofs: every zone reference of a written calendar is defined *)
From Verif Require Import M_Base M_Text M_Line M_Codec M_Cal M_Time M_Span M_Dt M_Tree M_Comp.
From Verif Require Import S_Text S_Codec S_Comp S_Store S_Ref P_Base P_Text P_Codec P_Dt P_Comp P_Multi P_Out.
From Coq Require Import Lia.
Open Scope N_scope.

Lemma dict_get_del_other {V} k j (d : dict V) : k <> j -> dict_get k (dict_del j d) = dict_get k d.
Proof.
  intros H. induction d as [|[a v] d IH]; [reflexivity|]. cbn. destruct (str_eqb j a) eqn:E.
  - apply str_eqb_eq in E as <-. destruct (str_eqb k j) eqn:E2; [apply str_eqb_eq in E2; congruence|]. reflexivity.
  - cbn. now rewrite IH.
Qed.
Section Ref.
Variable X : ext.
Variable U : list N -> tz -> tz -> Prop.
Definition TP (zs : zones) (p : xp) : Prop :=
  forall vs, dict_get (py "TZID") p = Some vs -> exists id z z', vs = raw [id] /\ U id z z' /\ dict_get id zs <> None.
Definition TI (zs : zones) (it : item) : Prop := forall id, In id (refs it) -> dict_get id zs <> None /\ exists z z', U id z z'.
Definition TC (zs : zones) (it : item) : Prop := TI zs it /\ ~ zone_part it.

Lemma step_some zs zs' id : step U zs zs' -> dict_get id zs <> None -> dict_get id zs' <> None.
Proof. intros [H _] E. destruct (dict_get id zs) as [z|] eqn:G; [|congruence]. apply H in G. congruence. Qed.
Lemma get_update k (q : xp) : forall p, dict_get k (dict_update p q) = None \/ dict_get k (dict_update p q) = dict_get k p \/ exists v, dict_get k q = Some v.
Proof.
  unfold dict_update. induction q as [|[j v] q IH]; intros p; cbn [fold_left]; [auto|]. cbn [dict_get].
  destruct (str_eqb k j) eqn:E; [right; right; eauto|]. specialize (IH (dict_set j v p)). apply str_eqb_neq in E.
  rewrite dict_get_set_other in IH by congruence. exact IH.
Qed.
Lemma refs_wanted (OK : zones -> item -> Prop) :
  (forall zs it, OK zs it <-> TI zs it) \/ (forall zs it, OK zs it <-> TC zs it) -> wanted X U TP clean_par (fun _ => True) OK.
Proof.
  intros HO. split.
  - intros zs vs H. discriminate.
  - intros zs zs' p HS HP vs H. apply HP in H as (id & z & z' & H1 & H2 & H3). exists id, z, z'. repeat split; auto. eapply step_some; eauto.
  - intros zs p t _ _ HP vs H. rewrite dict_get_set_other in H by discriminate. now apply HP.
  - intros zs p HP vs H. apply HP. rewrite <- H. symmetry. apply dict_get_del_other. discriminate.
  - intros zs p id z z' HU HZ HP vs H. rewrite dict_get_set_same in H. injection H as <-. exists id, z, z'. auto.
  - intros zs p q HP HQ vs H. destruct (get_update (py "TZID") q p) as [E|[E|[v E]]]; [congruence| |unfold clean_par in HQ; congruence].
    apply HP. congruence.
  - auto.
  - auto.
  - auto.
  - intros zs n p v HN HP _. assert (T : TI zs (ILine (mk_line n p v))).
    { intros id H. cbn in H. unfold line_refs in H. cbn [cl_params] in H. destruct (dict_get (py "TZID") p) as [vs|] eqn:E; [|destruct H].
      apply HP in E as (i & z & z' & -> & H2 & H3). destruct H as [<-|[]]. eauto. }
    destruct HO as [HO|HO]; apply HO; [exact T|]. split; [exact T|]. intros [its E]. discriminate.
  - intros zs zs' it HS H. assert (T : TI zs it -> TI zs' it).
    { intros HT id Hi. destruct (HT id Hi) as [H1 H2]. split; [|exact H2]. eapply step_some; eauto. }
    destruct HO as [HO|HO]; apply HO in H; apply HO; [auto|]. split; [apply T, H|apply H].
Qed.
Lemma cont_refs zs c its : Forall (TI zs) its -> TI zs (ICont (NAME c) its).
Proof.
  intros F id H. cbn [refs] in H. destruct (str_eqb (NAME c) (py "VTIMEZONE")) eqn:E; [destruct H|]. apply in_flat_map in H as (it & H1 & H2).
  rewrite Forall_forall in F. now apply (F it).
Qed.
Lemma clean_good (OK : zones -> item -> Prop) {M} (CM GM : M -> Prop) UM (x : comp M) : clean CM x -> (forall id z z', comp_uses X UM x id z z' -> U id z z') ->
  (forall m, CM m -> (forall id z z', UM m id z z' -> U id z z') -> GM m) ->
  Forall (fun it => forall zs, OK zs it) (c_extra x) ->
  good_comp X U TP clean_par (fun _ => True) OK GM x.
Proof.
  intros HC HU HM HX. split.
  - apply HC.
  - auto.
  - intros k a Ha. pose proof (cl_attrs _ _ HC k a Ha) as HA.
    assert (HD : forall d, In d (attr_dts a) -> good_dt X U d) by (intros d Hd id z z' Hu; apply HU; left; eauto 6).
    assert (HV : forall v, clean_val v -> (forall d, In d (val_dts v) -> good_dt X U d) -> good_val X U clean_par (fun _ => True) v).
    { intros v Hv Hd. destruct v; cbn [good_val]; auto.
      - apply Hd. now left.
      - cbn [val_dts] in Hd. split; intros e He; apply Hd; rewrite He; apply in_app_iff; [left|right]; now left. }
    destruct a as [|v|l]; cbn [good_attr clean_attr attr_dts] in *; [auto|auto|]. apply Forall_forall. intros v Hv.
    rewrite Forall_forall in HA. apply HV; [now apply HA|]. intros d Hd. apply HD. apply in_flat_map. eauto.
  - intros k l m Hl Hm. apply HM; [now apply (cl_mem _ _ HC k l)|]. intros id z z' Hu. apply HU. right. eauto 6.
  - intros k p Hp. apply (cl_pars _ _ HC) in Hp. destruct p as [p|l]; cbn in *.
    + intros zs vs E. congruence.
    + eapply Forall_impl; [|exact Hp]. intros p H zs vs E. unfold clean_par in H. congruence.
  - exact HX.
Qed.
Lemma no_refs it : refs it = [] -> forall zs, TI zs it.
Proof. intros E zs id H. rewrite E in H. destruct H. Qed.
Lemma clean_alarm_good m : clean_alarm m -> (forall id z z', alarm_uses X m id z z' -> U id z z') -> good_alarm X U TP clean_par (fun _ => True) TI m.
Proof.
  intros HC HU. eapply clean_good; [exact HC|exact HU|auto|]. eapply Forall_impl; [|apply (cl_extra _ _ HC)]. exact no_refs.
Qed.
Lemma clean_entry_good m : clean_entry m -> (forall id z z', entry_uses X m id z z' -> U id z z') -> good_entry X U TP clean_par (fun _ => True) TI m.
Proof.
  intros [_ HC] HU. eapply clean_good; [exact HC|exact HU|exact clean_alarm_good|]. eapply Forall_impl; [|apply (cl_extra _ _ HC)]. exact no_refs.
Qed.
Lemma entry_named x zs it zs' : clean_entry x -> dump_entry X x zs = Ok (it, zs') -> entry_part it.
Proof.
  intros [HC HN] H. unfold dump_entry, dump_comp in H. unbind2 H. unbind H. injection H as <- <-. unfold Container in Ha0. rewrite (cl_cname _ _ HN) in Ha0.
  cbn in HC. destruct HC as [E|[E|[]]]; rewrite <- E in Ha0; injection Ha0 as <-; eexists; [left|right]; reflexivity.
Qed.
End Ref.

Lemma zone_items X : zone_writer X -> forall zs tzs, NoDup (keys zs) ->
  (forall id z', In (id, z') zs -> exists z, z_from_tzinfo (x_zdb X) z = Ok (Some (id, z'))) -> dump_zones X zs = Ok tzs ->
  Forall zone_part tzs /\ Forall (fun it => forall id, defines id it -> In id (keys zs)) tzs /\
  forall id z', dict_get id zs = Some z' -> exists t pre post, x_tz_dump X z' = Ok t /\ tzs = pre ++ t :: post /\ defines id t /\ Forall (fun it => ~ defines id it) (pre ++ post).
Proof.
  intros HW. induction zs as [|[i z] zs IH]; intros tzs HN HF H; cbn [dump_zones] in H.
  - injection H as <-. repeat split; try constructor. intros id z' E. discriminate.
  - unbind H. unbind H. injection H as <-. inversion HN as [|? ? N1 N2]; subst. destruct (IH a0 N2 (fun id z' I => HF id z' (or_intror I)) Ha0) as (I1 & I2 & I3).
    destruct (HF i z (or_introl eq_refl)) as [z0 HZ]. destruct (HW i z0 z a HZ Ha) as [W1 W2]. split; [|split].
    + now constructor.
    + constructor; [intros id D; apply W2 in D as ->; now left|]. eapply Forall_impl; [|exact I2]. intros it D id Hi. right. now apply D.
    + intros id z' E. cbn [dict_get] in E. destruct (str_eqb id i) eqn:EI.
      * injection E as <-. apply str_eqb_eq in EI as ->. exists a, [], a0. repeat split; auto; [now apply W2|]. cbn. eapply Forall_impl; [|exact I2].
        intros it D Hi. apply D in Hi. contradiction.
      * destruct (I3 id z' E) as (t & pre & post & T1 & -> & T3 & T4). exists t, (a :: pre), post. repeat split; auto.
        cbn. constructor; [|exact T4]. intros D. apply W2 in D. apply str_eqb_neq in EI. congruence.
Qed.

Lemma comp_uses_from X {M} (UM : M -> list N -> tz -> tz -> Prop) (x : comp M) id z z' : (forall m, UM m id z z' -> z_from_tzinfo (x_zdb X) z = Ok (Some (id, z'))) ->
  comp_uses X UM x id z z' -> z_from_tzinfo (x_zdb X) z = Ok (Some (id, z')).
Proof. intros H [(k & a & d & _ & _ & HU)|(k & l & m & _ & _ & HU)]; [apply HU|now apply (H m)]. Qed.
Lemma calendar_refs X c it : zone_writer X -> clean_calendar c -> dump_calendar X c = Ok it ->
  exists its, it = ICont (py "VCALENDAR") its /\
    forall id, In id (refs it) -> exists z z', calendar_uses X c id z z' /\ exists t, x_tz_dump X z' = Ok t /\ defined_once id its t.
Proof.
  intros HW (HC & HK & HX) H. unfold dump_calendar in H. unbind2 H. unbind2 H. unbind H.
  set (U := calendar_uses X c) in *.
  assert (HG : good_comp X U (TP U) clean_par (fun _ => True) (TC U) (fun m => clean_entry m /\ forall id z z', entry_uses X m id z z' -> U id z z') c).
  { eapply clean_good; [exact HK| |intros m H1 H2; exact (conj H1 H2)|]; [auto|]. pose proof (cl_extra _ _ HK) as HE. rewrite Forall_forall in HX, HE |- *.
    intros i Hi zs. split; [apply no_refs; auto|auto]. }
  assert (HM : forall m zs it zs', (clean_entry m /\ forall id z z', entry_uses X m id z z' -> U id z z') -> dump_entry X m zs = Ok (it, zs') -> out U (TC U) zs zs' [it]).
  { intros m zs i zs' [M1 M2] HD. destruct (entry_out X U (TP U) clean_par (fun _ => True) (TI U) (refs_wanted X U _ (or_introl (fun _ _ => iff_refl _)))
      (cont_refs U) m zs i zs' (clean_entry_good X U m M1 M2) HD) as [O1 O2]. split; [exact O1|]. inversion O2; subst. constructor; [|constructor].
    split; [assumption|]. apply entry_named in HD; [|exact M1]. destruct HD as [its [E|E]]; subst i; intros [j Ej]; discriminate. }
  pose proof (refs_wanted X U (TC U) (or_intror (fun _ _ => iff_refl _))) as WA.
  assert (O1 : out U (TC U) [] b a).
  { refine (convs_out X U _ _ _ _ WA _ _ HM c HG _ _ _ _ _ Ha). apply Forall_forall. intros k Hk. apply (converters_named CCalendar). revert k Hk.
    apply Forall_forall. repeat (constructor; [vm_compute; tauto|]). constructor. }
  assert (O2 : out U (TC U) b b0 a0).
  { refine (convs_out X U _ _ _ _ WA _ _ HM c HG _ _ _ _ _ Ha0). apply Forall_forall. intros k Hk. apply (converters_named CCalendar). revert k Hk.
    apply Forall_forall. repeat (constructor; [vm_compute; tauto|]). constructor. }
  assert (L1 : Forall is_line a).
  { refine (convs_lines X _ _ c _ _ _ _ _ Ha). repeat (constructor; [exact I|]). constructor. }
  destruct O1 as [S1 O1], O2 as [S2 O2]. pose proof (step_trans U _ _ _ S1 S2) as (S3 & S4 & S5).
  assert (ND : NoDup (keys b0)) by (apply S5; constructor).
  assert (HF : forall id z', dict_get id b0 = Some z' -> exists z, U id z z') by (intros id z' E; apply S4 in E as [E|E]; [discriminate|exact E]).
  assert (HFI : forall id z', In (id, z') b0 -> exists z, z_from_tzinfo (x_zdb X) z = Ok (Some (id, z'))).
  { intros id z' E. apply (dict_get_In_NoDup _ _ _ ND) in E. apply HF in E as [z E]. exists z.
    assert (UE : forall id z z', U id z z' -> z_from_tzinfo (x_zdb X) z = Ok (Some (id, z'))); [|now apply UE].
    clear. unfold U. intros id z z'. apply comp_uses_from. intros m. apply comp_uses_from. intros m2. apply comp_uses_from. intros []. }
  destruct (zone_items X HW b0 a1 ND HFI Ha1) as (Z1 & Z2 & Z3).
  unfold Container in H. rewrite (cl_cname _ _ HK), HC in H. injection H as <-. eexists. split; [reflexivity|].
  change (map upper_char (NAME CCalendar)) with (py "VCALENDAR") in *.
  intros id Hid. cbn [refs] in Hid. change (str_eqb (py "VCALENDAR") (py "VTIMEZONE")) with false in Hid. cbv iota in Hid.
  assert (HZ : dict_get id b0 <> None).
  { pose proof (cl_extra _ _ HK) as HE. apply in_flat_map in Hid as (i & I1 & I2). apply in_app_iff in I1 as [I1|I1]; [|apply in_app_iff in I1 as [I1|I1]; [|apply in_app_iff in I1 as [I1|I1]]].
    - rewrite Forall_forall in O1. destruct (O1 i I1) as [T _]. apply T in I2 as [I2 _]. eapply step_some; eauto.
    - rewrite Forall_forall in Z1. destruct (Z1 i I1) as [j ->]. destruct I2.
    - rewrite Forall_forall in O2. destruct (O2 i I1) as [T _]. apply T in I2 as [I2 _]. exact I2.
    - rewrite Forall_forall in HE. rewrite (HE i I1) in I2. destruct I2. }
  destruct (dict_get id b0) as [z'|] eqn:EZ; [|congruence]. destruct (HF id z' EZ) as [z Hz]. exists z, z'. split; [exact Hz|].
  destruct (Z3 id z' EZ) as (t & pre & post & T1 & -> & T3 & T4). exists t. split; [exact T1|]. exists (a ++ pre), (post ++ a0 ++ c_extra c).
  apply Forall_app in T4 as [T4 T5]. apply Forall_app in Z1 as [Z1 _]. split; [now rewrite <- !app_assoc|]. split; [exact T3|]. split.
  - rewrite !Forall_app. split; [split; [|exact T4]|split; [exact T5|split]].
    + eapply Forall_impl; [|exact L1]. intros i [l ->] (j & p & E & _). discriminate.
    + eapply Forall_impl; [|exact O2]. intros i [_ T] (j & p & E & _). apply T. now exists j.
    + eapply Forall_impl; [|exact HX]. intros i T (j & p & E & _). apply T. now exists j.
  - rewrite Forall_app. split.
    + eapply Forall_impl; [|exact L1]. intros i [l ->] (j & [E|E]); discriminate.
    + eapply Forall_impl; [|exact Z1]. intros i [j ->] (k & [E|E]); discriminate.
Qed.
Lemma calendar_zone X c it : zone_writer X -> clean_calendar c -> distinct_zones X c -> dump_calendar X c = Ok it ->
  exists its, it = ICont (py "VCALENDAR") its /\
    forall id z z', calendar_uses X c id z z' -> In id (refs it) -> exists t, x_tz_dump X z' = Ok t /\ defined_once id its t.
Proof.
  intros HW HC HD H. destruct (calendar_refs X c it HW HC H) as (its & E & HR). exists its. split; [exact E|]. intros id z z' HU Hi.
  destruct (HR id Hi) as (y & y' & HY & HT). now rewrite (HD id z z' y y' HU HY).
Qed.
