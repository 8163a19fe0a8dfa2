(** * Proofs: alarms, events and todos survive writing and reading *)
From Verif Require Import M_Base M_Text M_Line M_Codec M_Cal M_Time M_Span M_Dt M_Tree M_Comp.
From Verif Require Import S_Text S_Codec S_Dt S_Tree S_Comp S_Line P_Base P_Text P_Codec P_Dt P_Comp P_Frame P_Multi S_Store P_Rt P_Field P_SpanRt P_Whole.
From Coq Require Import Lia ZifyBool ZifyNat ZifyN.
Open Scope N_scope.

Section Setters.
Variable X : ext.
Hypothesis UE : utc_env X.
Lemma set_plain types ok : set_ok X SPlain types ok.
Proof. intros t v v' _ _ _ E. exists v'. now split. Qed.
Ltac one_type H := cbn [In] in H; repeat (destruct H as [<-|H]); try contradiction.
Lemma set_str ok : set_ok X SStr [Text] ok.
Proof. intros t v v' HI HV _ E. one_type HI. inversion HV; subst. cbn in E. subst. eexists; split; [reflexivity|]. easy. Qed.
Lemma set_status : set_ok X SStatus [Text] status_ok.
Proof.
  intros t v v' HI HV HO E. one_type HI. inversion HV; subst. cbn in E. subst.
  destruct HO as [E|[E|[E|[]]]]; rewrite <- E; eexists; (split; [vm_compute; reflexivity|]); reflexivity.
Qed.
Lemma set_organizer ok : set_ok X SOrganizer [Organizer] ok.
Proof. intros t v v' HI HV _ E. one_type HI. inversion HV; subst. destruct v'; try easy. destruct E as (<- & E). eexists; split; [reflexivity|]. now split. Qed.
Lemma set_geo ok : set_ok X SGeo [Geo] ok.
Proof. intros t v v' HI HV _ E. one_type HI. inversion HV; subst. cbn in E. subst. eexists; split; [reflexivity|]. easy. Qed.
Lemma set_range hi : set_ok X (SRange hi) [Int] (range_ok hi).
Proof.
  intros t v v' HI HV (n & -> & H) E. cbn in E. subst. exists (VInt n). split; [|easy]. unfold apply_set.
  assert ((0 <=? n) && (n <=? hi) = true)%Z as -> by lia. reflexivity.
Qed.
Lemma set_datetime ok : set_ok X SDatetime [Datetime] ok.
Proof. intros t v v' HI HV _ E. one_type HI. inversion HV; subst. destruct v'; try easy. eexists; split; [reflexivity|]. exact E. Qed.
Lemma set_trigger ok : set_ok X STrigger [Duration; Datetime] ok.
Proof.
  intros t v v' HI HV _ E. one_type HI; inversion HV; subst; destruct v'; try easy; (eexists; split; [reflexivity|]); exact E.
Qed.
Lemma set_timedelta ok : set_ok X STimedelta [Duration] ok.
Proof. intros t v v' HI HV _ E. one_type HI. inversion HV; subst. cbn in E. subst. eexists; split; [reflexivity|]. easy. Qed.
Lemma set_utc : set_ok X SUtc [Datetime] (utc_ok X).
Proof.
  intros t v v' HI HV (w & ->) E. one_type HI. inversion HV as [| | |d (HF & HW & _)| | | | | |]; subst. destruct v' as [| | |d'| | | | | |]; try easy.
  destruct E as (E1 & E2 & E3). cbn [wall fold dtz] in *. destruct d' as [w' f' z']. cbn [wall fold dtz] in *. subst w' f'.
  assert (exists z, z' = Some z /\ z_is_utc (x_zdb X) z = true) as (z & -> & HZ).
  { destruct E3 as [<-|[_ U]]; [exists (x_utc X); split; [easy|apply UE]|]. cbn in U. destruct z' as [z|]; [eauto|easy]. }
  unfold apply_set, dt_astimezone. change (M_Comp.E X) with (x_env X). cbn [dtz naive negb andb].
  destruct (same_tz (Some z) (Some (x_utc X))) eqn:ES.
  { eexists. split; [reflexivity|]. repeat split; auto. }
  exists (VDt (mk_dt w false (Some (x_utc X)))). split; [|repeat split; now left].
  unfold utcoffset. cbn [wall fold dtz]. rewrite (ue_off X UE z w false HZ), Z.sub_0_r.
  cbn [wall] in HW. rewrite HW, (ue_from X UE). now rewrite HW.
Qed.
End Setters.

Section Match.
Variable X : ext.
Hypothesis UE : utc_env X.
Variable M : Type.
Variable EM : M -> M -> Prop.
Variable UM : M -> list N -> tz -> tz -> Prop.
Variable load_m : mkind -> list N -> list item -> zones -> res (M * zones).
Variable dump_m : M -> zones -> res (item * zones).
Variable SM : list N -> M -> Prop.
Notation conv_rt c := (conv_rt X M EM UM load_m dump_m c).
Notation member_rt := (member_rt X M EM UM load_m dump_m).

Lemma absent_par (x : comp M) k : storable X SM x -> existsb (str_eqb k) (par_keys X (c_cls x)) = false -> no_par x k.
Proof.
  intros HS HB. unfold no_par. destruct (dict_get k (c_params x)) eqn:E; [|easy]. exfalso.
  assert (I : In k (par_keys X (c_cls x))) by (apply (st_params _ _ _ HS); congruence). apply existsb_str in I. congruence.
Qed.

Ltac shape_in := unfold shapes, entry_shapes, alarm_shapes; cbn [app]; repeat (first [left; reflexivity|right]).
Ltac types_ok := split; [repeat constructor; cbn [In]; intuition discriminate|cbn [In]; intuition discriminate].
Ltac persons_ok := intros t HI HP; cbn [In] in HI; repeat (destruct HI as [<-|HI]); try contradiction; try reflexivity; destruct HP; discriminate.
Ltac note_ok := intros b HB HE; destruct HB as [<-|[<-|[<-|[]]]]; vm_compute in HE |- *; congruence.
Ltac setter_ok := first [apply set_plain|apply set_str|apply set_status|apply set_organizer|apply set_geo|apply set_range|
  apply set_datetime|apply set_trigger|apply set_timedelta|now apply set_utc].
Ltac single p q := 
  eapply (single_rt X UE) with (ok := p) (opt := q);
  [reflexivity|reflexivity|reflexivity|types_ok|persons_ok|setter_ok|try discriminate; intros _; split; reflexivity|note_ok|].
Ltac multi :=
  eapply (multi_rt X UE); [reflexivity|reflexivity|reflexivity|types_ok|persons_ok|reflexivity|vm_compute; tauto|].

Lemma matched (x : comp M) c : std c -> storable X SM x -> c_cls x = c ->
  (std_alarm c -> storable_par x (py "ACTION") []) ->
  (forall a m, In a (class_fields c) -> a_kind a = KMember m -> forall v, SM (a_attr a) v -> member_rt m (a_names a) v) ->
  forall a, In a (class_fields c) -> conv_rt c a x.
Proof.
  intros HStd HS HC HA HM a Ha. destruct (is_zones a) eqn:HZ.
  { unfold is_zones in HZ. destruct (a_kind a) eqn:HK; try discriminate. exists []. split.
    - split; [|constructor]. intros zs. exists zs. split; [unfold serialize_conv; now rewrite HK|]. apply wrote_nouse.
      intros id z z' [(E & _)|(E & _)]; [unfold has_attr in E|unfold has_members in E]; rewrite HK in E; discriminate.
    - intros its' st HE _ _. inversion HE; subst. exists st. split; [reflexivity|]. split; [|apply zext_refl].
      split; [unfold pkeys; rewrite HK; intros k []|now rewrite HK]. }
  pose proof (st_fields _ _ _ HS) as HF. rewrite HC in HF.
  assert (NP : forall k, existsb (str_eqb k) (par_keys X c) = false -> no_par x k).
  { intros k Hk. apply absent_par; [exact HS|now rewrite HC]. }
  assert (MEM : forall m, a_kind a = KMember m -> In (a_attr a, Members) (shapes X c) -> existsb (str_eqb (a_key a)) (par_keys X c) = false -> conv_rt c a x).
  { intros m HK HI HP. specialize (HF _ _ HI). cbn in HF. destruct (dict_get (a_attr a) (c_mem x)) as [l|] eqn:EM0; [|easy].
    eapply (members_rt X M EM UM load_m dump_m c x a m l HK); [now apply NP|exact EM0|]. intros v Hv. eapply HM; eauto. eapply (st_members _ _ _ HS); eauto. }
  assert (ACT : a = action_field -> std_alarm c -> conv_rt c a x).
  { intros -> HSA. destruct (action_rt X M EM UM load_m dump_m c x HSA HC (HA HSA)) as (q & W & R). eexists. split; eassumption. }
  assert (SPAN : forall k, a_kind a = KSpan k -> k = KEvent \/ k = KTodo -> incl [py "DTSTART"; ename k; py "DURATION"] (a_names a) ->
    existsb (str_eqb (py "DTEND")) (par_keys X c) = false -> existsb (str_eqb (py "END")) (par_keys X c) = false ->
    (k <> KTodo -> existsb (str_eqb (py "DUE")) (par_keys X c) = false) -> In (a_attr a, Span k) (shapes X c) -> conv_rt c a x).
  { intros k HK HKK HN H1 H2 H3 HI. apply (span_rt X UE M EM UM load_m dump_m c x a k); auto. }
  destruct c; [| | | |now contradict HStd| | |]; cbn [class_fields event_fields todo_fields calendar_fields entry_fields alarm_fields app In] in Ha.
  all: repeat (destruct Ha as [<-|Ha]); try contradiction; try discriminate HZ.
  all: try (apply ACT; [reflexivity|unfold std_alarm; cbn; tauto]).
  1: now (apply (SPAN KEvent); [reflexivity|tauto|intros n Hn; cbn in Hn |- *; tauto|vm_compute; reflexivity|vm_compute; reflexivity|intros _; vm_compute; reflexivity|shape_in]).
  all: try (eapply MEM; [reflexivity|shape_in|vm_compute; reflexivity]).
  all: try (apply (SPAN KTodo); [reflexivity|tauto|intros n Hn; cbn in Hn |- *; tauto|vm_compute; reflexivity|vm_compute; reflexivity|easy|shape_in]).
  all: try (multi; apply HF; shape_in).
  all: try (single any true; apply HF; shape_in).
  all: try (single any false; apply HF; shape_in).
  all: try (single status_ok true; apply HF; shape_in).
  all: try (single (utc_ok X) true; apply HF; shape_in).
  all: try (single (utc_ok X) false; apply HF; shape_in).
  all: try (single (range_ok 100) true; apply HF; shape_in).
  all: try (single (range_ok 9) true; apply HF; shape_in).
Qed.
Lemma uses_comp (x : comp M) c : storable X SM x -> c_cls x = c -> forall id z z',
  comp_uses X UM x id z z' <-> list_uses X M UM (converters c) x id z z'.
Proof.
  intros HS HC id z z'. split.
  - intros [(k & v & d & H1 & H2 & H3)|(k & l & m & H1 & H2 & H3)].
    + destruct (st_attrs _ _ _ HS k ltac:(congruence)) as (s & Hs & NM). apply shapes_names in Hs. rewrite HC in Hs.
      assert (Hs' : In k (attr_names c)) by (now destruct s). unfold attr_names in Hs'. apply in_map_iff in Hs' as (a & <- & Ha).
      apply filter_In in Ha as [Ha HH]. exists a. split; [exact Ha|]. left. split; [exact HH|]. exists v. split; [exact H1|]. now exists d.
    + pose proof (st_mem _ _ _ HS k ltac:(congruence)) as Hs. apply shapes_names in Hs. rewrite HC in Hs. cbn [memb] in Hs.
      unfold mem_names in Hs. apply in_map_iff in Hs as (a & <- & Ha). apply filter_In in Ha as [Ha HH]. exists a. split; [exact Ha|]. right. split; [exact HH|]. eauto.
  - intros (a & Ha & [(_ & v & H1 & d & H2 & H3)|(_ & l & m & H1 & H2 & H3)]); [left; exists (a_attr a), v, d; auto|right; exists (a_attr a), l, m; auto].
Qed.
End Match.

(** ** Alarms *)
Section Alarms.
Variable X : ext.
Hypothesis UE : utc_env X.
Definition EA := (fun _ _ : Empty_set => True).
Definition UA := (fun (_ : Empty_set) (_ : list N) (_ _ : tz) => False).
Notation rtA c := (rt X Empty_set EA UA (no_member) dump_none c).
Lemma alarm_convs c : std_alarm c -> exists rest, converters c = action_field :: rest.
Proof. unfold std_alarm. intros [<-|[<-|[<-|[<-|[]]]]]; eexists; vm_compute; reflexivity. Qed.
Lemma std_alarm_std c : std_alarm c -> std c /\ NAME c = py "VALARM" /\ forall a, In a (converters c) -> is_zones a = false /\ has_members a = false.
Proof.
  intro H. assert (B : forallb (fun a => negb (is_zones a) && negb (has_members a)) (converters c) = true).
  { destruct H as [<-|[<-|[<-|[<-|[]]]]]; vm_compute; reflexivity. }
  rewrite forallb_forall in B. split; [destruct H as [<-|[<-|[<-|[<-|[]]]]]; discriminate|]. split; [destruct H as [<-|[<-|[<-|[<-|[]]]]]; reflexivity|].
  intros a Ha. apply B in Ha. apply andb_true_iff in Ha. now rewrite !negb_true_iff in Ha.
Qed.
Lemma filter_none {A} (f : A -> bool) l : (forall a, In a l -> f a = false) -> filter f l = [].
Proof. induction l as [|a l IH]; cbn; intro H; [easy|]. rewrite H by auto. apply IH. auto. Qed.
Lemma filter_eq_names its its' n : Forall2 item_eq its its' -> Forall2 item_eq (filter (fun it => str_eqb (item_name it) n) its) (filter (fun it => str_eqb (item_name it) n) its').
Proof.
  induction 1 as [|a b la lb H F IH]; cbn [filter]; [constructor|]. rewrite <- (item_eq_name _ _ H). destruct (str_eqb (item_name a) n); [now constructor|exact IH].
Qed.
Lemma alarm_rt m : storable_alarm X m -> exists its,
  (forall zs, exists zs', dump_alarm X m zs = Ok (ICont (py "VALARM") its, zs') /\ wrote (alarm_uses X m) zs zs') /\
  forall its' zs, Forall2 item_eq its its' -> (forall id z z', alarm_uses X m id z z' -> resolves X zs id z) ->
    exists y zs', load_alarm X (py "VALARM") its' zs = Ok (y, zs') /\ back_alarm X m y /\ zext X zs zs'.
Proof.
  intros (HA & HS & HP). set (c := c_cls m) in *. destruct (std_alarm_std c HA) as (HStd & HN & HZ).
  assert (HR : forall a, In a (class_fields c) -> conv_rt X Empty_set EA UA no_member dump_none c a m).
  { intros a Ha. apply (matched X UE) with (SM := fun _ _ => True); auto.
    intros _ k _ _ []. }
  destruct (alarm_convs c HA) as (rest & EC).
  destruct (action_rt X Empty_set EA UA no_member dump_none c m HA eq_refl HP) as (q & AW & AR).
  destruct (rt_outs X Empty_set EA UA no_member dump_none c m rest) as (outs & FO).
  { intros a Ha. apply HR. apply converters_In. rewrite EC. now right. }
  set (al := ILine (mk_line (py "ACTION") q (action_name c))) in *.
  assert (FO' : Forall2 (rtA c m) (converters c) ([al] :: outs)) by (rewrite EC; constructor; [now split|exact FO]).
  assert (UE' : forall id z z', alarm_uses X m id z z' <-> list_uses X Empty_set UA (converters c) m id z z').
  { intros id z z'. unfold alarm_uses. rewrite <- (uses_comp X Empty_set UA (fun _ _ => True) m c HS eq_refl). reflexivity. }
  exists (concat ([al] :: outs) ++ c_extra m). split.
  - intro zs. destruct (write_comp X Empty_set EA UA no_member dump_none c m _ (st_name _ _ _ HS) eq_refl FO' zs) as (zs' & W & V).
    exists zs'. rewrite HN in W. split; [exact W|]. eapply wrote_ext; [exact V|]. intros id z z'. apply UE'.
  - intros its' zs HE HRes.
    destruct (read_comp X Empty_set EA UA no_member dump_none c (fun _ _ => True) m ([al] :: outs) its' zs HStd HS eq_refl) as (y & zs' & L & Q & Z); auto.
    { intros id z z' HU. apply (HRes id z z'). now apply UE'. }
    exists y, zs'. split; [|split; [exact Q|exact Z]]. rewrite HN in L. unfold load_alarm.
    assert (find_action its' = Ok (action_name c)) as ->; [|cbn [bind]].
    + unfold find_action. apply (filter_eq_names _ _ (py "ACTION")) in HE. cbn [concat app filter] in HE.
      change (str_eqb (item_name al) (py "ACTION")) with true in HE. cbn iota in HE. rewrite filter_none in HE.
      * inversion HE as [|? it ? r H1 H2]; subst. inversion H2; subst. apply item_eq_line in H1 as (l & -> & (_ & L2 & _)). cbn [cl_value] in L2. now rewrite <- L2.
      * assert (LA : forall a, In a (converters c) -> In (py "ACTION") (a_names a) -> a = action_field).
        { intros a Ha Hn. pose proof (one_lookup c a _ HStd Ha Hn) as L1.
          pose proof (one_lookup c action_field (py "ACTION") HStd ltac:(rewrite EC; now left) ltac:(now left)) as L2. congruence. }
        intros it Hit. destruct (str_eqb (item_name it) (py "ACTION")) eqn:EN; [|easy]. exfalso. apply str_eqb_eq in EN. apply in_app_iff in Hit as [Hit|Hit].
        -- apply in_concat in Hit as (o & Ho & Hit).
           assert (exists a, In a rest /\ rtA c m a o) as (a & Ha & ((_ & WN) & _)).
           { clear - FO Ho. induction FO as [|a b la lb H F IH]; [easy|]. destruct Ho as [<-|Ho]; [exists a; split; [now left|exact H]|]. destruct IH as (a' & H1 & H2); eauto. exists a'. split; [now right|exact H2]. }
           rewrite Forall_forall in WN. apply WN in Hit. rewrite EN in Hit. assert (a = action_field) by (apply LA; [rewrite EC; now right|exact Hit]). subst a.
           pose proof (class_pairwise c HStd) as PW. rewrite EC in PW. destruct PW as [PW _]. destruct (PW _ Ha) as (N1 & _). now apply N1.
        -- pose proof (st_extra _ _ _ HS) as HX. rewrite Forall_forall in HX. apply (HX it Hit). fold c.
           assert (KA : In (py "ACTION") (known_names c)) by (apply existsb_str; destruct HA as [<-|[<-|[<-|[<-|[]]]]]; vm_compute; reflexivity).
           destruct it as [l|n sub]; cbn [item_name known] in *; rewrite EN; [|exact KA]. split; [exact KA|]. intros [_ K]. discriminate K.
    + assert (type_from_action (action_name c) = c) as -> by (destruct HA as [<-|[<-|[<-|[<-|[]]]]]; reflexivity). exact L.
Qed.

(** ** Events and todos *)
Notation rtE c := (rt X alarm (back_alarm X) (alarm_uses X) (entry_member X) (dump_alarm X) c).
Lemma entry_conv c : c = CEvent \/ c = CTodo -> std c /\ ~ std_alarm c /\ forall a, In a (converters c) -> is_zones a = false /\ forall m, a_kind a = KMember m -> m = MAlarm /\ In (py "VALARM") (a_names a).
Proof.
  intro H. split; [destruct H as [-> | ->]; discriminate|]. split; [destruct H as [-> | ->]; intros [E|[E|[E|[E|[]]]]]; discriminate|].
  assert (B : forallb (fun a => negb (is_zones a) && match a_kind a with KMember MAlarm => existsb (str_eqb (py "VALARM")) (a_names a) | KMember _ => false | _ => true end) (converters c) = true).
  { destruct H as [-> | ->]; vm_compute; reflexivity. }
  rewrite forallb_forall in B. intros a Ha. apply B in Ha. apply andb_true_iff in Ha as [H1 H2]. rewrite negb_true_iff in H1. split; [exact H1|].
  intros m E. rewrite E in H2. destruct m; try discriminate. split; [easy|]. now apply existsb_str.
Qed.
Lemma entry_rt x : c_cls x = CEvent \/ c_cls x = CTodo -> storable_entry X x -> exists its,
  (forall zs, exists zs', dump_entry X x zs = Ok (ICont (NAME (c_cls x)) its, zs') /\ wrote (entry_uses X x) zs zs') /\
  forall its' zs, Forall2 item_eq its its' -> (forall id z z', entry_uses X x id z z' -> resolves X zs id z) ->
    exists y zs', load_entry X (c_cls x) (NAME (c_cls x)) its' zs = Ok (y, zs') /\ back_entry X x y /\ zext X zs zs'.
Proof.
  intros HC HS. set (c := c_cls x) in *. destruct (entry_conv c HC) as (HStd & HNA & HZ).
  assert (HR : forall a, In a (class_fields c) -> conv_rt X alarm (back_alarm X) (alarm_uses X) (entry_member X) (dump_alarm X) c a x).
  { intros a Ha. apply (matched X UE) with (SM := fun _ => storable_alarm X); auto; [easy|].
    intros b m Hb HK v HV. destruct (HZ b ltac:(now apply converters_In)) as (_ & HM). destruct (HM m HK) as (-> & HN).
    destruct (alarm_rt v HV) as (its & W & R). exists (py "VALARM"), its. split; [exact W|]. split; [exact HN|]. exact R. }
  destruct (rt_outs X alarm (back_alarm X) (alarm_uses X) (entry_member X) (dump_alarm X) c x (converters c)) as (outs & FO).
  { intros a Ha. apply HR. now apply converters_In. }
  assert (UE' : forall id z z', entry_uses X x id z z' <-> list_uses X alarm (alarm_uses X) (converters c) x id z z').
  { intros id z z'. unfold entry_uses. apply (uses_comp X alarm (alarm_uses X) _ x c HS eq_refl). }
  exists (concat outs ++ c_extra x). split.
  - intro zs. destruct (write_comp X alarm (back_alarm X) (alarm_uses X) (entry_member X) (dump_alarm X) c x _ (st_name _ _ _ HS) eq_refl FO zs) as (zs' & W & V).
    exists zs'. split; [exact W|]. eapply wrote_ext; [exact V|]. intros id z z'. apply UE'.
  - intros its' zs HE HRes.
    destruct (read_comp X alarm (back_alarm X) (alarm_uses X) (entry_member X) (dump_alarm X) c _ x outs its' zs HStd HS eq_refl) as (y & zs' & L & Q & Z); auto.
    { intros id z z' HU. apply (HRes id z z'). now apply UE'. }
    exists y, zs'. auto.
Qed.
End Alarms.
