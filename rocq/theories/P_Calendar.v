(** * Proofs: calendars survive being written and read *)
From Verif Require Import M_Base M_Text M_Line M_Codec M_Cal M_Time M_Span M_Dt M_Fold M_Tree M_Comp M_Open M_Serial.
From Verif Require Import S_Text S_Codec S_Line S_Fold S_Tree S_Comp S_Store S_Ref S_Wire.
From Verif Require Import P_Base P_Text P_Codec P_Attr P_Tree P_Comp P_Multi P_Frame P_Rt P_Field P_Whole P_Store P_Back P_Out P_Ref P_Wire.
From Coq Require Import Lia.
Open Scope N_scope.

(** ** Pieces of a text *)
Lemma boundary_spec c : boundary c = true <-> line_boundary c.
Proof.
  unfold boundary, line_boundary. rewrite existsb_exists. split.
  - intros (d & Hd & E). apply N.eqb_eq in E as ->. exact Hd.
  - intros H. exists c. split; [exact H|apply N.eqb_refl].
Qed.
Lemma not_cr (c : N) cur s' : c <> 13 -> cur ++ [c] <> s' ++ [13].
Proof. intros H E. apply app_inj_tail in E. tauto. Qed.
Lemma splitlines_pieces n : forall s cur, (length s <= n)%nat -> (forall d, In d cur -> ~ line_boundary d) -> Pieces (cur ++ s) (splitlines_keep cur s).
Proof.
  induction n as [|n IH]; intros s cur HL HC.
  - destruct s; [|cbn in HL; lia]. cbn. rewrite app_nil_r. destruct cur; [constructor|]. constructor; [discriminate|exact HC].
  - destruct s as [|c s]; cbn [splitlines_keep].
    + rewrite app_nil_r. destruct cur; [constructor|]. constructor; [discriminate|exact HC].
    + cbn in HL. destruct (c =? c_cr) eqn:E.
      * apply N.eqb_eq in E as ->. assert (HB : line_boundary c_cr) by (unfold line_boundary, c_cr; cbn; tauto). destruct s as [|d s].
        -- rewrite <- (app_nil_r (cur ++ [c_cr])) at 1. constructor; [now constructor|discriminate|constructor].
        -- destruct (d =? c_lf) eqn:E2.
           ++ apply N.eqb_eq in E2 as ->. replace (cur ++ c_cr :: c_lf :: s) with ((cur ++ [c_cr; c_lf]) ++ s) by now rewrite <- app_assoc.
              constructor; [now apply WL_crlf| |].
              ** intros s' t' E. exfalso. apply (not_cr c_lf (cur ++ [c_cr]) s'); [discriminate|]. rewrite <- app_assoc. exact E.
              ** apply (IH s []); [cbn in HL; lia|intros ? []].
           ++ replace (cur ++ c_cr :: d :: s) with ((cur ++ [c_cr]) ++ d :: s) by now rewrite <- app_assoc.
              constructor; [now constructor| |apply (IH (d :: s) []); [cbn in HL |- *; lia|intros ? []]].
              intros s' t' _ E. injection E as -> _. discriminate E2.
      * destruct (boundary c) eqn:EB.
        -- apply boundary_spec in EB. replace (cur ++ c :: s) with ((cur ++ [c]) ++ s) by now rewrite <- app_assoc.
           constructor; [now constructor| |apply (IH s []); [lia|intros ? []]].
           intros s' t' E1. exfalso. apply (not_cr c cur s'); [|exact E1]. apply N.eqb_neq in E. exact E.
        -- replace (cur ++ c :: s) with ((cur ++ [c]) ++ s) by now rewrite <- app_assoc. apply IH; [lia|].
           intros d Hd. apply in_app_iff in Hd as [Hd|[<-|[]]]; [auto|]. intro HB. apply boundary_spec in HB. congruence.
Qed.
Lemma pieces_concat s ls : Pieces s ls -> concat ls = s.
Proof. induction 1; cbn; [reflexivity|apply app_nil_r|congruence]. Qed.

(** ** Skipping the zones *)
Lemma populate_items_cls X M load_m its : forall (st st' : lst M), populate_items X M load_m its st = Ok st' -> c_cls (l_comp st') = c_cls (l_comp st).
Proof.
  induction its as [|it its IH]; intros st st' H; cbn [populate_items] in H; [now injection H as ->|].
  unbind H. apply IH in H. rewrite H. clear -Ha. unfold populate_item in Ha. unbind2 Ha.
  assert (E : forall l it (st st' : lst M) b0 b, populate_convs X M load_m l it st b0 = Ok (st', b) -> c_cls (l_comp st') = c_cls (l_comp st)).
  { clear. induction l as [|c l IH]; intros it st st' b0 b H; cbn [populate_convs] in H; [now injection H as ->|]. unbind2 H. apply IH in H. rewrite H.
    now apply populate_conv_spec in Ha as ([F1 F2 F3] & _). }
  apply E in Ha0. destruct b; injection Ha as <-; exact Ha0.
Qed.
Lemma skip_zone_items X M load_m tz : Forall zone_part tz -> forall (st : lst M), c_cls (l_comp st) = CCalendar -> populate_items X M load_m tz st = Ok st.
Proof.
  induction 1 as [|it tz [sub ->] F IH]; intros st HC; cbn [populate_items]; [reflexivity|]. unfold populate_item. rewrite HC. cbn [item_name].
  change (lookup CCalendar (py "VTIMEZONE")) with [mk_aconv [] [py "VTIMEZONE"] 600 KZones]. cbn [populate_convs populate_conv a_kind bind].
  rewrite str_eqb_refl. cbn. now apply IH.
Qed.
Lemma skip_zones X M load_m i1 tz i2 (st st' : lst M) : Forall zone_part tz -> c_cls (l_comp st) = CCalendar ->
  populate_items X M load_m (i1 ++ i2) st = Ok st' -> populate_items X M load_m (i1 ++ tz ++ i2) st = Ok st'.
Proof.
  intros HT. revert st. induction i1 as [|it i1 IH]; intros st HC H; cbn [app] in *.
  - rewrite (populate_items_app X M load_m tz i2 st st); [exact H|now apply skip_zone_items].
  - cbn [populate_items] in *. unbind H. rewrite Ha. cbn [bind]. apply IH; [|exact H].
    rewrite <- HC. apply (populate_items_cls X M load_m [it]). cbn [populate_items]. now rewrite Ha.
Qed.

(** ** Equality of items *)
Lemma line_eq_sym a b : line_eq a b -> line_eq b a.
Proof. unfold line_eq. intuition congruence. Qed.
Lemma item_eq_sym : forall a b, item_eq a b -> item_eq b a.
Proof.
  fix IH 3. intros a b [x y H|n xs ys H]; [constructor; now apply line_eq_sym|]. constructor.
  induction H as [|x y xs ys H F IHF]; constructor; [now apply IH|exact IHF].
Qed.
Lemma item_eq_refl : forall a, item_eq a a.
Proof.
  fix IH 1. intros [l|n its]; constructor; [now repeat split|]. induction its as [|x its IHl]; constructor; [apply IH|exact IHl].
Qed.

(** ** The zones recorded have different identifiers *)
Section Zones.
Variable X : ext.
Definition TU (_ : list N) (_ _ : tz) : Prop := True.
Definition TPP (_ : zones) (_ : xp) : Prop := True.
Definition TGP (_ : xp) : Prop := True.
Definition TPV (_ : list N) : Prop := True.
Definition TOK (_ : zones) (_ : item) : Prop := True.
Lemma all_wanted : wanted X TU TPP TGP TPV TOK.
Proof. split; intros; exact I. Qed.
Lemma all_good {M} (GM : M -> Prop) SM (x : comp M) : storable X SM x -> (forall a m, SM a m -> GM m) -> good_comp X TU TPP TGP TPV TOK GM x.
Proof.
  intros HS HM. split; try (intros; exact I).
  - apply HS.
  - intros k a _. assert (V : forall v, good_val X TU TGP TPV v) by (intros []; cbn; unfold TPV, TGP, good_dt, TU; auto).
    destruct a; cbn; auto. apply Forall_forall. auto.
  - intros k l m Hl Hm. eapply HM. eapply (st_members _ _ _ HS); eauto.
  - intros k [p|l] _; cbn; [intros zs; exact I|]. apply Forall_forall. intros p _ zs. exact I.
  - apply Forall_forall. intros it _ zs. exact I.
Qed.
Lemma entry_all_good m : storable_entry X m -> good_entry X TU TPP TGP TPV TOK m.
Proof.
  intros HS. apply (all_good _ (fun _ => storable_alarm X)); [exact HS|]. intros _ n (_ & HA & _).
  now apply (all_good _ (fun _ _ => True)).
Qed.
Lemma calendar_zones_nodup c l its zs zs' : storable_calendar X c -> Forall named l -> serialize_convs X entry (dump_entry X) l c zs = Ok (its, zs') ->
  NoDup (keys zs) -> NoDup (keys zs').
Proof.
  intros [HC HS] HL H. assert (O : out TU TOK zs zs' its).
  { refine (convs_out X TU TPP TGP TPV TOK all_wanted (good_entry X TU TPP TGP TPV TOK) _ _ c _ l HL _ _ _ H).
    - intros m a it b HG HD. refine (entry_out X TU TPP TGP TPV TOK all_wanted _ m a it b HG HD). intros; exact I.
    - eapply all_good; [exact HS|]. intros a m [H1 _]. now apply entry_all_good. }
  apply O.
Qed.

(** ** Reading the zones *)
Lemma load_zones_app i1 : forall i2 zs zs1, load_zones X i1 zs = Ok zs1 -> load_zones X (i1 ++ i2) zs = load_zones X i2 zs1.
Proof.
  induction i1 as [|[l|n sub] i1 IH]; intros i2 zs zs1 H; cbn [load_zones app] in *; [now injection H as ->|eauto|].
  destruct (str_eqb n (py "VTIMEZONE")); [|eauto]. unbind2 H. rewrite Ha. cbn [bind]. eauto.
Qed.
Lemma load_no_zones its : Forall (fun it => ~ zone_part it) its -> forall zs, load_zones X its zs = Ok zs.
Proof.
  induction 1 as [|it its H F IH]; intro zs; [reflexivity|]. destruct it as [l|n sub]; cbn [load_zones]; [apply IH|].
  destruct (str_eqb n (py "VTIMEZONE")) eqn:E; [|apply IH]. apply str_eqb_eq in E as ->. exfalso. apply H. now exists sub.
Qed.
Lemma zone_part_eq a b : item_eq a b -> zone_part b -> zone_part a.
Proof. intros H [sub ->]. inversion H; subst. now eexists. Qed.
Lemma no_zones_eq xs ys : Forall2 item_eq xs ys -> Forall (fun it => ~ zone_part it) xs -> Forall (fun it => ~ zone_part it) ys.
Proof. induction 1 as [|x y xs ys H F IH]; intro G; inversion G; subst; constructor; [|auto]. intro Z. eauto using zone_part_eq. Qed.

Lemma zones_back (U : list N -> tz -> tz -> Prop) : (forall id z z', U id z z' -> zone_stored X id z z') ->
  forall zs, (forall id z', In (id, z') zs -> exists z, U id z z') -> exists tzs, dump_zones X zs = Ok tzs /\ Forall zone_part tzs /\
  forall tzs', Forall2 item_eq tzs tzs' -> forall acc, exists zsr, load_zones X tzs' acc = Ok zsr /\
    (forall id z, dict_get id acc = Some z -> dict_get id zsr = Some z) /\
    (forall id, In id (keys zs) -> dict_get id zsr <> None) /\
    (forall id z, dict_get id zsr = Some z -> dict_get id acc = Some z \/ exists z', U id z z').
Proof.
  intros HU. induction zs as [|[i z'] zs IH]; intros HF.
  - exists []. split; [reflexivity|]. split; [constructor|]. intros tzs' HE acc. inversion HE; subst. exists acc. cbn. repeat split; auto.
  - destruct IH as (tzs & D & Z & R); [intros; apply HF; now right|]. destruct (HF i z' (or_introl eq_refl)) as [z Hz].
    destruct (HU _ _ _ Hz) as (sub & S1 & S2 & S3). exists (ICont (py "VTIMEZONE") sub :: tzs). split; [cbn [dump_zones]; now rewrite S1; cbn [bind]; rewrite D|].
    split; [constructor; [now eexists|exact Z]|]. intros tzs' HE acc. inversion HE as [|? it ? r H1 H2]; subst. apply item_eq_cont in H1 as (sub' & -> & ES).
    cbn [load_zones]. rewrite str_eqb_refl, (S3 _ ES). cbn [bind].
    destruct (R r H2 (match dict_get i acc with Some _ => acc | None => dict_set i z acc end)) as (zsr & L & R1 & R2 & R3).
    exists zsr. split; [exact L|]. destruct (dict_get i acc) as [y|] eqn:EG.
    + split; [exact R1|]. split; [|exact R3]. intros id [<-|Hi]; [|auto]. cbn [fst]. rewrite (R1 _ _ EG). discriminate.
    + split; [|split].
      * intros id y Hy. apply R1. rewrite dict_get_set_other; [exact Hy|congruence].
      * intros id [<-|Hi]; [|auto]. cbn [fst]. rewrite (R1 i z); [discriminate|]. apply dict_get_set_same.
      * intros id y Hy. apply R3 in Hy as [Hy|Hy]; [|now right]. destruct (list_eq_dec N.eq_dec i id) as [<-|NE].
        -- rewrite dict_get_set_same in Hy. injection Hy as <-. right. eauto.
        -- rewrite dict_get_set_other in Hy by congruence. now left.
Qed.
End Zones.

(** ** Calendars *)
Section Calendars.
Variable X : ext.
Hypothesis UE : utc_env X.
Notation rtC := (rt X entry (back_entry X) (entry_uses X) (calendar_member X) (dump_entry X) CCalendar).
Definition kz : aconv := mk_aconv [] [py "VTIMEZONE"] 600 KZones.
Lemma calendar_order : converters CCalendar = before_zones (converters CCalendar) ++ kz :: after_zones (converters CCalendar).
Proof. reflexivity. Qed.
Lemma calendar_others a : In a (before_zones (converters CCalendar)) \/ In a (after_zones (converters CCalendar)) -> ~ In (py "VTIMEZONE") (a_names a).
Proof.
  intros H. assert (B : forallb (fun a => negb (existsb (str_eqb (py "VTIMEZONE")) (a_names a))) (before_zones (converters CCalendar) ++ after_zones (converters CCalendar)) = true) by (vm_compute; reflexivity).
  rewrite forallb_forall in B. specialize (B a). rewrite in_app_iff in B. apply B in H. apply negb_true_iff in H. intro I. apply existsb_str in I. congruence.
Qed.
Lemma outs_no_zones x l outs : (forall a, In a l -> ~ In (py "VTIMEZONE") (a_names a)) -> Forall2 (rtC x) l outs -> Forall (fun it => ~ zone_part it) (concat outs).
Proof.
  intros HN F. induction F as [|a its l outs ((_ & W) & _) F IH]; [constructor|]. cbn. apply Forall_app. split; [|apply IH; intros; apply HN; now right].
  eapply Forall_impl; [|exact W]. intros it Hi [sub ->]. cbn in Hi. now apply (HN a (or_introl eq_refl)).
Qed.
Lemma calendar_rt c : storable_calendar X c -> zones_stored X c -> exists it, dump_calendar X c = Ok it /\
  forall it', item_eq it it' -> exists its' d, it' = ICont (py "VCALENDAR") its' /\ load_calendar X (py "VCALENDAR") its' = Ok d /\ back_calendar X c d.
Proof.
  intros HSC [HZ HD]. pose proof HSC as [HC HS].
  assert (HStd : std CCalendar) by discriminate.
  assert (HR : forall a, In a (class_fields CCalendar) -> conv_rt X entry (back_entry X) (entry_uses X) (calendar_member X) (dump_entry X) CCalendar a c).
  { intros a Ha. eapply (matched X UE); [exact HStd|exact HS|exact HC|intros [E|[E|[E|[E|[]]]]]; discriminate| |exact Ha].
    intros b m Hb HK v [HV HCv]. cbn [class_fields calendar_fields In] in Hb.
    repeat (destruct Hb as [<-|Hb]; [try discriminate HK|]); [| |destruct Hb]; injection HK as <-; cbn in HCv.
    all: destruct (entry_rt X UE v) as (its & W & R); [now tauto|exact HV|]; rewrite HCv in W, R; exists (NAME (c_cls v)), its; rewrite HCv; (split; [exact W|]; split; [now left|exact R]). }
  destruct (rt_outs X entry (back_entry X) (entry_uses X) (calendar_member X) (dump_entry X) CCalendar c (converters CCalendar)) as (outs & FO).
  { intros a Ha. apply HR. now apply converters_In. }
  assert (UC : forall id z z', calendar_uses X c id z z' <-> list_uses X entry (entry_uses X) (converters CCalendar) c id z z').
  { intros id z z'. unfold calendar_uses. apply (uses_comp X entry (entry_uses X) _ c CCalendar HS HC). }
  pose proof FO as FO'. rewrite calendar_order in FO'. apply Forall2_app_inv_l in FO' as (outs1 & r & F1 & F2 & EO). inversion F2 as [|? o ? outs2 Hkz F3]; subst. clear F2.
  change (Forall2 (rtC c) (after_zones (converters CCalendar)) outs2) in F3.
  assert (o = []) as ->.
  { destruct Hkz as ((W & _) & _). destruct (W []) as (zs' & E & _). cbn in E. now injection E as <- _. }
  destruct (write_all X entry _ _ _ _ CCalendar c _ _ F1 []) as (zs1 & E1 & W1). destruct (write_all X entry _ _ _ _ CCalendar c _ _ F3 zs1) as (zs2 & E2 & W2).
  assert (WW : wrote (calendar_uses X c) [] zs2).
  { eapply wrote_trans; [exact W1|exact W2|]. intros id z z'. rewrite UC, calendar_order. unfold list_uses. split.
    - intros (a & Ha & HU). apply in_app_iff in Ha as [Ha|[<-|Ha]]; [left; eauto| |right; eauto].
      exfalso. destruct HU as [(E & _)|(E & _)]; discriminate.
    - intros [(a & Ha & HU)|(a & Ha & HU)]; exists a; (split; [|exact HU]); apply in_app_iff; cbn; tauto. }
  assert (NM : forall l, (forall a, In a l -> In a (converters CCalendar)) -> Forall named l).
  { intros l H. apply Forall_forall. intros a Ha. now apply (converters_named CCalendar), H. }
  assert (ND : NoDup (keys zs2)).
  { eapply calendar_zones_nodup; [exact HSC| |exact E2|]. 2: eapply calendar_zones_nodup; [exact HSC| |exact E1|constructor].
    all: apply NM; intros a Ha; rewrite calendar_order; apply in_app_iff; cbn; tauto. }
  assert (HF : forall id z', In (id, z') zs2 -> exists z, calendar_uses X c id z z').
  { intros id z' Hi. apply (dict_get_In_NoDup _ _ _ ND) in Hi. apply WW in Hi as [Hi|Hi]; [discriminate|exact Hi]. }
  destruct (zones_back X (calendar_uses X c) HZ zs2 HF) as (tzs & DZ & ZP & LZ).
  exists (ICont (py "VCALENDAR") (concat outs1 ++ tzs ++ concat outs2 ++ c_extra c)). split.
  { unfold dump_calendar. rewrite E1. cbn [bind]. rewrite E2. cbn [bind]. rewrite DZ. cbn [bind].
    assert (HN : c_name c = NAME (c_cls c)) by apply HS. rewrite HN, HC. reflexivity. }
  intros it' HE. apply item_eq_cont in HE as (its' & -> & HE). exists its'.
  apply Forall2_app_inv_l in HE as (i1 & r1 & Q1 & HE & ->). apply Forall2_app_inv_l in HE as (t & r2 & Q2 & HE & ->). apply Forall2_app_inv_l in HE as (i2 & e & Q3 & Q4 & ->).
  assert (N1 : Forall (fun it => ~ zone_part it) i1) by (eapply no_zones_eq; [exact Q1|]; eapply outs_no_zones; [|exact F1]; intros; apply calendar_others; tauto).
  assert (N2 : Forall (fun it => ~ zone_part it) i2) by (eapply no_zones_eq; [exact Q3|]; eapply outs_no_zones; [|exact F3]; intros; apply calendar_others; tauto).
  assert (N3 : Forall (fun it => ~ zone_part it) e).
  { eapply no_zones_eq; [exact Q4|]. eapply Forall_impl; [|apply (st_extra _ _ _ HS)]. intros it HK [sub ->]. apply HK. rewrite HC. vm_compute. tauto. }
  assert (N4 : Forall zone_part t).
  { clear - Q2 ZP. induction Q2 as [|a b la lb H F IH]; inversion ZP; subst; constructor; [|auto]. eapply zone_part_eq; [apply item_eq_sym, H|assumption]. }
  destruct (LZ t Q2 []) as (zsr & L & R1 & R2 & R3).
  assert (LL : load_zones X (i1 ++ t ++ i2 ++ e) [] = Ok zsr).
  { rewrite (load_zones_app X i1 _ [] []) by now apply load_no_zones. rewrite (load_zones_app X t _ [] zsr L). apply load_no_zones. apply Forall_app. auto. }
  assert (RES : forall id z z', list_uses X entry (entry_uses X) (converters CCalendar) c id z z' -> resolves X zsr id z).
  { intros id z z' HU. apply UC in HU. left. assert (K : dict_get id zs2 <> None) by now apply WW in HU. apply keys_get in K. apply R2 in K.
    destruct (dict_get id zsr) as [y|] eqn:EY; [|congruence]. apply R3 in EY as [EY|[y' HY]]; [discriminate|].
    destruct (HZ _ _ _ HU) as (sub & S1 & _ & S3). destruct (HZ _ _ _ HY) as (sub2 & T1 & _ & T3). rewrite (HD id y y' z z' HY HU) in T1.
    assert (sub2 = sub) as -> by congruence. assert (RF : Forall2 item_eq sub sub) by (clear; induction sub; constructor; auto using item_eq_refl).
    specialize (S3 _ RF). specialize (T3 _ RF). congruence. }
  destruct (read_comp X entry (back_entry X) (entry_uses X) (calendar_member X) (dump_entry X) CCalendar _ c _ (i1 ++ i2 ++ e) zsr HStd HS HC FO) as (y & zs' & LC & Q & _).
  { rewrite concat_app. cbn [concat app]. rewrite <- app_assoc. repeat apply Forall2_app; assumption. }
  { exact RES. }
  exists y. split; [reflexivity|]. split; [|exact Q]. unfold load_calendar, populate_calendar. rewrite str_eqb_refl, LL. cbn [bind].
  unfold load_comp, populate_instance in LC. unfold populate_instance. change (c_cls (new_comp X entry CCalendar)) with CCalendar in *.
  change (NAME CCalendar) with (py "VCALENDAR") in *. rewrite str_eqb_refl in *. unbind LC. apply (skip_zones X entry _ i1 t (i2 ++ e)) in Ha; [|exact N4|reflexivity]. rewrite Ha. cbn [bind].
  unbind LC. injection LC as <- _. rewrite Ha0. reflexivity.
Qed.
End Calendars.

(** ** Text *)
Section Texts.
Variable X : ext.
Hypothesis UE : utc_env X.
Variable hy : bool.
Variable resplit : list N -> list (list N).
Variable W : option nat.
Hypothesis HS : splitter resplit.
Hypothesis HW : width_ok W.
Lemma calendar_item c : storable_calendar X c -> zones_stored X c -> wire_calendar X c -> exists it, dump_calendar X c = Ok it /\ wf_item ok_line it /\
  forall it', item_eq it it' -> exists its' d, it' = ICont (py "VCALENDAR") its' /\ load_calendar X (py "VCALENDAR") its' = Ok d /\ back_calendar X c d.
Proof.
  intros HC HZ HI. destruct (calendar_rt X UE c HC HZ) as (it & D & R). exists it. split; [exact D|]. split; [|exact R].
  eapply wire_calendar_wf; [exact HI|apply HC| |exact D]. intros id z z' t HU ET. destruct HZ as [HZ _]. destruct (HZ _ _ _ HU) as (sub & S1 & S2 & _).
  congruence.
Qed.
Lemma calendar_text c : storable_calendar X c -> zones_stored X c -> wire_calendar X c -> exists txt d,
  calendar_serialize X hy resplit W c = Ok txt /\ read_calendar X (FromStr txt) = Ok d /\ back_calendar X c d.
Proof.
  intros HC HZ HI. destruct (calendar_item c HC HZ HI) as (it & D & WF & R). destruct (tree_roundtrip hy resplit W it false HS HW WF) as (txt & it' & S1 & S2 & S3).
  destruct (R it' (item_eq_sym _ _ S3)) as (its' & d & -> & L & B). exists txt, d. split; [unfold calendar_serialize; now rewrite D|]. split; [|exact B].
  unfold read_calendar, Calendar. rewrite S2. unfold import_stream. now rewrite L.
Qed.
Lemma concat_ok (xs : list item) : forall txt, concat_res (map (fun i => item_serialize hy resplit W i true) xs) = Ok txt ->
  Forall (wf_item ok_line) xs -> exists ts, Forall2 (fun x t => item_serialize hy resplit W x false = Ok t) xs ts /\ txt = flat_map (fun t => t ++ [13; 10]) ts.
Proof.
  induction xs as [|x xs IH]; intros txt H HF; cbn [map concat_res] in H; [injection H as <-; exists []; split; [constructor|reflexivity]|].
  inversion HF; subst. unbind H. unbind H. injection H as <-. destruct (IH _ Ha0) as (ts & F & ->); [assumption|].
  destruct (tree_text hy resplit W HS HW x) as (t & lss & T1 & T2 & _); [assumption|]. exists (t :: ts). split; [now constructor|]. cbn. congruence.
Qed.
Lemma calendars_text cs : Forall (fun c => storable_calendar X c /\ zones_stored X c /\ wire_calendar X c) cs -> exists txts ds,
  Forall2 (fun c t => calendar_serialize X hy resplit W c = Ok t) cs txts /\
  read_calendars X (flat_map (fun t => t ++ [13; 10]) txts) = Ok ds /\ Forall2 (back_calendar X) cs ds.
Proof.
  intros HF. assert (HI : exists its, Forall2 (fun c it => dump_calendar X c = Ok it /\ wf_item ok_line it /\
    forall it', item_eq it it' -> exists its' d, it' = ICont (py "VCALENDAR") its' /\ load_calendar X (py "VCALENDAR") its' = Ok d /\ back_calendar X c d) cs its).
  { induction HF as [|c cs (H1 & H2 & H3) HF (its & IH)]; [exists []; constructor|]. destruct (calendar_item c H1 H2 H3) as (it & H). exists (it :: its). now constructor. }
  destruct HI as (its & HI). assert (HWF : Forall (wf_item ok_line) its) by (clear - HI; induction HI as [|? ? ? ? (_ & H & _)]; constructor; auto).
  destruct (forest_roundtrip hy resplit W its HS HW HWF) as (txt & its' & S1 & S2 & S3). destruct (concat_ok its txt S1 HWF) as (ts & T1 & ->).
  exists ts. assert (HD : exists ds, multiple (load_calendar X) (new_comp X entry CCalendar) its' None = Ok ds /\ Forall2 (back_calendar X) cs ds).
  { clear - HI S3. revert its' S3. induction HI as [|c it cs its (_ & _ & R) HI IH]; intros its' S3; inversion S3 as [|it' ? r ? E1 E2]; subst; [exists []; split; [reflexivity|constructor]|].
    destruct (R it' (item_eq_sym _ _ E1)) as (sub & d & -> & L & B). destruct (IH r E2) as (ds & M1 & M2). exists (d :: ds). split; [|now constructor].
    cbn [multiple imports_of Calendar]. rewrite L. cbn [bind]. now rewrite M1. }
  destruct HD as (ds & M1 & M2). exists ds. split; [|split; [|exact M2]].
  - clear - HI T1. revert ts T1. induction HI as [|c it cs its (D & _) HI IH]; intros ts T1; inversion T1; subst; constructor; auto.
    unfold calendar_serialize. now rewrite D.
  - unfold read_calendars, parse_multiple. rewrite S2. exact M1.
Qed.
Lemma iter_text c ls : calendar_iter X hy resplit W c = Ok ls -> exists txt, calendar_serialize X hy resplit W c = Ok txt /\ concat ls = txt /\ Pieces txt ls.
Proof.
  unfold calendar_iter. destruct (calendar_serialize X hy resplit W c) as [txt|]; [|discriminate]. intros [= <-]. exists txt. split; [easy|].
  assert (P : Pieces txt (splitlines_keep [] txt)) by (apply (splitlines_pieces (length txt) txt []); [lia|intros ? []]). split; [now apply pieces_concat|exact P].
Qed.
Lemma entry_text x : c_cls x = CEvent \/ c_cls x = CTodo -> storable_entry X x -> wire_entry X x ->
  (forall id z z', entry_uses X x id z z' -> resolves X [] id z) ->
  exists txt its' y, entry_serialize X hy resplit W x = Ok txt /\ string_to_containers txt = ([ICont (NAME (c_cls x)) its'], None) /\
    rmap fst (load_entry X (c_cls x) (NAME (c_cls x)) its' []) = Ok y /\ back_entry X x y.
Proof.
  intros HC HE HI HR. destruct (entry_rt X UE x HC HE) as (its & WR & RD). destruct (WR []) as (zs & D & _).
  assert (TC : M_Comp.to_container X x = Ok (ICont (NAME (c_cls x)) its)) by (unfold M_Comp.to_container; now rewrite D).
  destruct (tree_roundtrip hy resplit W _ false HS HW (wire_entry_wf X x _ HI TC)) as (txt & it' & S1 & S2 & S3).
  apply item_eq_sym, item_eq_cont in S3 as (its' & -> & S3). destruct (RD its' [] S3 HR) as (y & zs' & L & B & _). exists txt, its', y.
  split; [unfold entry_serialize; now rewrite TC|]. split; [exact S2|]. split; [now rewrite L|exact B].
Qed.
Lemma calendar_exact c d : (forall k l m, dict_get k (c_mem c) = Some l -> In m l -> annotated m /\ forall k' l' n, dict_get k' (c_mem m) = Some l' -> In n l' -> annotated n) ->
  annotated c -> back_calendar X c d -> eq_comp X (eq_comp X (eq_comp X (fun _ _ => True))) c d.
Proof.
  intros HM HA HB. unfold back_calendar in HB. assert (E : @noted entry c = c) by (now apply annotated_noted). rewrite E in HB. eapply eq_comp_members; [exact HB|].
  intros k l m m' H1 H2 H3. destruct (HM k l m H1 H2) as [A1 A2]. now apply back_exact.
Qed.
End Texts.
Lemma iter_fails X hy resplit W c e : calendar_iter X hy resplit W c = Err e <-> calendar_serialize X hy resplit W c = Err e.
Proof. unfold calendar_iter. destruct (calendar_serialize X hy resplit W c); cbn; split; congruence. Qed.
