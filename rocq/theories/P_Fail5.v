(** * Proofs for C71: the checks at the end, and whole components *)
From Verif Require Import M_Base M_Text M_Line M_Codec M_Cal M_Time M_Span M_Dt M_Tree M_Comp M_Merge M_Fail.
From Verif Require Import S_Text S_Codec S_Dt S_Comp S_Multi S_Reorder P_Base P_Text P_Multi P_Comp P_Cat P_Frame P_Whole P_Keep P_Local P_Reorder P_ReadGen S_Read P_Value P_ReadVal P_ReadSpan P_Read P_ReadAll S_Merge P_Merge P_Merge2 S_Fail P_Fail P_Fail2 P_Fail3 P_Fail4.
From Coq Require Import Lia ZifyBool ZifyNat ZifyN.
Open Scope N_scope.

Lemma one_span c a b k k' : In a (converters c) -> In b (converters c) -> a_kind a = KSpan k -> a_kind b = KSpan k' -> a = b.
Proof.
  intros IA IB KA KB. assert (L : (length (filter is_span (converters c)) <= 1)%nat) by (destruct c; vm_compute; lia).
  assert (JA : In a (filter is_span (converters c))) by (apply filter_In; split; [exact IA|unfold is_span; now rewrite KA]).
  assert (JB : In b (filter is_span (converters c))) by (apply filter_In; split; [exact IB|unfold is_span; now rewrite KB]).
  destruct (filter is_span (converters c)) as [|x [|y r]]; [contradiction| |cbn in L; lia]. destruct JA as [<-|[]], JB as [<-|[]]. reflexivity.
Qed.
Lemma converters_once c : NoDup (converters c).
Proof. apply pairwise_NoDup, class_pairwise_all. Qed.

Section Fail.
Variable X : ext.
Variable M : Type.
Variable load_m : mkind -> list N -> list item -> zones -> res (M * zones).
Variable x0 : comp M.
Let c := c_cls x0.
Variable zs : zones.
Variable RM : mkind -> list item -> M -> Prop.
Hypothesis MS : forall a n k l zs' x zs1, In (a, n, k) (members c) -> zeq X zs zs' -> load_m k n l zs' = Ok (x, zs1) -> RM k l x /\ zeq X zs zs1.
Hypothesis MZ : forall k n l z x z1, load_m k n l z = Ok (x, z1) -> zeq X z z1.
Local Notation lst := (lst M).
Local Notation sim := (P_Merge.sim M x0).
Local Notation part := (part X M c zs RM).

Lemma hooks_fail l : forall (s s' : lst) e, hooks_out X M l s = (s', Err e) -> exists l1 a l2, l = l1 ++ a :: l2 /\ post_convs X M l1 s = Ok s' /\ post_conv X M a s' = Err e.
Proof.
  induction l as [|b l IH]; intros s s' e H; cbn [hooks_out] in H; [discriminate|]. destruct (post_conv X M b s) as [s1|e'] eqn:E.
  - destruct (IH _ _ _ H) as (l1 & a & l2 & -> & H1 & H2). exists (b :: l1), a, l2. cbn [app post_convs]. rewrite E. auto.
  - injection H as <- <-. exists [], b, l. auto.
Qed.
Lemma posts_still l : (forall b, In b l -> is_span b = false) -> forall s s' : lst, post_convs X M l s = Ok s' ->
  l_comp s' = l_comp s /\ l_span s' = l_span s /\ forall k, (forall b, In b l -> a_attr b <> k) -> count k s' = count k s.
Proof.
  induction l as [|b l IH]; intros HL s s' H; cbn [post_convs] in H; [injection H as <-; auto|]. apply bind_Ok in H as (s1 & H1 & H).
  destruct (IH (fun b I => HL b (or_intror I)) _ _ H) as (E1 & E2 & E3). pose proof (HL b (or_introl eq_refl)) as NS. unfold post_conv in H1. unfold is_span in NS.
  destruct (a_kind b) as [convs m r st|k|m| |] eqn:K; try discriminate; try (injection H1 as <-; repeat split; auto; intros k HK; apply E3; intros b' I; apply HK; now right).
  destruct (r && _)%bool; [discriminate|]. injection H1 as <-. cbn [l_comp l_span] in *. repeat split; auto. intros k HK. rewrite E3 by (intros b' I; apply HK; now right).
  unfold count. cbn [l_count]. rewrite dict_get_set_other; [reflexivity|]. apply HK. now left.
Qed.
Lemma closing its (s t s' : lst) e : sim s t -> all_parts X M c zs part its t -> hooks_out X M (converters c) s = (s', Err e) -> l_comp s' = l_comp s /\ unclosed X zs M c its.
Proof.
  intros [C EN ES EZ] (P1 & P2 & P3) H. apply hooks_fail in H as (l1 & a & l2 & EL & H1 & H2).
  pose proof (converters_once c) as ND. rewrite EL in ND. pose proof (NoDup_remove_2 _ _ _ ND) as NI. rewrite in_app_iff in NI.
  assert (IA : In a (converters c)) by (rewrite EL, in_app_iff; right; now left).
  assert (I1 : forall b, In b l1 -> In b (converters c) /\ b <> a). { intros b I. split; [rewrite EL, in_app_iff; now left|]. intros ->. auto. }
  specialize (P3 a IA). unfold P_Read.part in P3. pose proof H2 as H3. unfold post_conv in H2. destruct (a_kind a) as [convs m r st|k|m| |] eqn:K; try discriminate.
  - destruct r; [|cbn [andb] in H2; discriminate]. destruct (Nat.eqb (count (a_attr a) s') 0) eqn:E0; [|cbn [andb] in H2; discriminate]. apply Nat.eqb_eq in E0.
    destruct m.
    { destruct (conv_multi c a IA) as (f & I & [_ _ (cs & V & _)]); [unfold is_multi; now rewrite K|]. congruence. }
    destruct (conv_single X c a IA) as (f & I & SC); [unfold is_single; now rewrite K|]. pose proof SC as [V1 V2 (cs & r & s0 & V3 & _ & _ & V4 & _)]. rewrite K in V3. injection V3 as _ <- _.
    assert (RQ : In (g_name f) (required c)) by (now apply V4).
    assert (NS : forall b, In b l1 -> is_span b = false).
    { intros b J. destruct (is_span b) eqn:SB; [|reflexivity]. exfalso. unfold is_span in SB. destruct (a_kind b) eqn:KB; try discriminate. destruct (I1 b J) as [J1 _]. destruct (conv_span c b _ J1 KB) as (IE & _).
      destruct c; try discriminate; contradiction. }
    destruct (posts_still l1 NS _ _ H1) as (E1 & _ & E3). split; [exact E1|]. left. exists f. split; [exact I|]. split; [exact RQ|].
    assert (EC : count (a_attr a) s = 0%nat).
    { rewrite <- E0. symmetry. apply E3. intros b J EQ. destruct (I1 b J) as [J1 NE]. pose proof (pairwise_indep (converters c) a b (class_pairwise_all c) IA J1 ltac:(congruence)) as D. apply (proj1 D). congruence. }
    unfold count in EC. rewrite EN, V1 in EC. destruct (P3 f SC) as (ls & [<- _] & HP). destruct ls as [|l [|]]; [reflexivity| |contradiction].
    destruct HP as (? & ? & ? & ? & _ & _ & _ & _ & _ & HP). unfold count in HP. rewrite HP in EC. discriminate.
  - destruct (conv_span c a k IA K) as (IE & EK & _).
    assert (NS : forall b, In b l1 -> is_span b = false).
    { intros b J. destruct (is_span b) eqn:SB; [|reflexivity]. exfalso. unfold is_span in SB. destruct (a_kind b) eqn:KB; try discriminate. destruct (I1 b J) as [J1 NE]. apply NE. eapply one_span; eauto. }
    destruct (posts_still l1 NS _ _ H1) as (E1 & E2 & _). split; [exact E1|]. right. split; [exact IE|]. intros x HR.
    destruct (span_post_go X M zs c IE a its t x) as (t' & HT); auto; [congruence|].
    unfold post_conv in H3, HT. rewrite K in H3, HT. rewrite E2, ES in H3. clear -H3 HT.
    apply bind_Ok in HT as (v & HV & HT). rewrite HV in H3. cbn [bind] in H3. apply bind_Ok in HT as (u & HU & HT). rewrite HU in H3. cbn [bind] in H3. apply bind_Ok in HT as (w & HW & HT). rewrite HW in H3. discriminate.
Qed.

(** ** Failing *)
Theorem instance_left n its zs0 x e : zeq X zs zs0 -> mergeable x0 -> instance_out X M load_m x0 n its zs0 = (x, Err e) ->
  (n <> title c /\ x = x0) \/
  (exists pre it post y, its = pre ++ it :: post /\ sofar X zs RM x0 pre y /\ stopped X zs pre it y x /\ forall post', instance_out X M load_m x0 n (pre ++ it :: post') zs0 = (x, Err e)) \/
  (sofar X zs RM x0 its x /\ unclosed X zs M c its).
Proof.
  intros Z0 HM H. unfold instance_out in *. rewrite <- title_NAME. fold c in H |- *. destruct (str_eqb n (NAME c)) eqn:EN.
  2: { injection H as <- _. left. split; [now apply str_eqb_neq|reflexivity]. }
  right. pose proof (sim_start X M x0 zs0 HM) as S0. destruct (items_out X M load_m its (mk_lst x0 [] sc0 zs0)) as [s [[]|e']] eqn:HO.
  - right. pose proof (items_tells X M load_m x0 its _ _ S0) as T. rewrite HO in T. cbn [tells] in T.
    pose proof (sim_items X M load_m x0 its _ _ S0) as B. destruct (populate_items X M load_m its (mk_lst x0 [] sc0 zs0)) as [s1|] eqn:E1; [|discriminate]. injection T as ->.
    destruct (populate_items X M load_m its (mk_lst (new_comp X M (c_cls x0)) [] sc0 zs0)) as [t1|] eqn:E2; [|contradiction]. cbn [both] in B.
    destruct (sofar_items X M load_m x0 zs RM MS MZ zs0 Z0 its s t1 HM E1 E2 B) as (HS & _ & HP).
    destruct (hooks_out X M (converters c) s) as [s' r] eqn:HH. injection H as <- ->. destruct (closing its s t1 s' e B HP HH) as [-> HU]. auto.
  - left. injection H as <- ->. destruct (items_fail X M load_m x0 its _ _ s e S0 HO) as (pre & it & post & s1 & t1 & -> & E1 & E2 & S1 & HI & HE).
    destruct (sofar_items X M load_m x0 zs RM MS MZ zs0 Z0 pre s1 t1 HM E1 E2 S1) as (HS & _ & HP). exists pre, it, post, (l_comp s1). split; [reflexivity|]. split; [exact HS|]. split.
    + eapply (stopped_item X M load_m x0 zs RM); eauto.
    + intro post'. now rewrite HE.
Qed.
End Fail.

(** ** What is left can be read into again *)
Lemma left_keys X zs c pre it k ps : left_over X zs c pre it k ps -> ~ In k (MK c).
Proof.
  intros [f l t v rest I _ _ _ _ _|l IE _ _|l EC _ _].
  - destruct (single_of X c f I) as (a & J & _ & [V1 _ (cs & r & s0 & V3 & _)]). pose proof (sep_fields c a (proj1 (converters_In a c) J)) as Q. rewrite V3 in Q. destruct Q as (_ & Q & _). unfold a_key in Q. now rewrite V1 in Q.
  - apply sep_keys. cbn [In]. tauto.
  - apply sep_keys. cbn [In]. tauto.
Qed.
Lemma added_many qs o p : (forall q, o <> Some (XOne q)) -> added qs o <> Some (XOne p).
Proof. intro H. destruct qs; [apply H|discriminate]. Qed.
Lemma sofar_mergeable X zs M RM (x0 : comp M) its x : mergeable x0 -> sofar X zs RM x0 its x -> mergeable x.
Proof.
  intros [B1 B2 B3] [S1 _ _ _ S5 S6 _ _ _ _ _ _]. constructor; rewrite S1.
  - intros f I. destruct (S5 f I) as (ls & vs & qs & old & _ & _ & _ & E & _). eauto.
  - intros f p I. destruct (S5 f I) as (ls & vs & qs & old & _ & _ & _ & _ & E). rewrite E. apply added_many. intro q. now apply B2.
  - intros a n k I. destruct (S6 a n k I) as (_ & old & ms & _ & E & _). congruence.
Qed.
Definition list_at (it : item) (k : list N) (g : multiple -> list N) (c : cls) : bool :=
  match it with ILine l => existsb (fun f => str_eqb (cl_name l) (h_name f) && str_eqb k (g f)) (multiples c) | _ => false end.
Lemma list_at_spec it k g c : if list_at it k g c then exists f l, list_of c it f l /\ k = g f else forall f l, list_of c it f l -> k <> g f.
Proof.
  unfold list_at. destruct it as [l|n its]; [|intros f l (_ & E & _); discriminate].
  destruct (existsb _ _) eqn:E.
  - apply existsb_exists in E as (f & I & E). apply Bool.andb_true_iff in E as [E1 E2]. apply str_eqb_eq in E1, E2. exists f, l. split; [split; auto|exact E2].
  - intros f l' (I & [= <-] & EN) EK. assert (existsb (fun f => str_eqb (cl_name l) (h_name f) && str_eqb k (g f)) (multiples c) = true); [|congruence].
    apply existsb_exists. exists f. split; [exact I|]. rewrite EN, EK, !str_eqb_refl. reflexivity.
Qed.
Lemma stopped_mergeable X zs M pre it (y x : comp M) : mergeable y -> stopped X zs pre it y x -> mergeable x.
Proof.
  intros [B1 B2 B3] [S1 _ _ S4 S5 S6 S7 S8]. constructor; rewrite S1.
  - intros f I. pose proof (list_at_spec it (h_attr f) h_attr (c_cls y)) as D. destruct (list_at _ _ _ _).
    + destruct D as (f' & l & HL & ->). destruct (S5 f' l HL) as (old & vs & qs & _ & _ & E & _). eauto.
    + rewrite (S6 _ D). auto.
  - intros f p I. pose proof (list_at_spec it (upper (h_attr f)) (fun f => upper (h_attr f)) (c_cls y)) as D. destruct (list_at _ _ _ _).
    + destruct D as (f' & l & HL & ->). destruct (S5 f' l HL) as (old & vs & qs & _ & _ & _ & E). cbv zeta in E. rewrite E. apply added_many. intro q. apply B2. apply HL.
    + rewrite S8; [now apply B2|exact D|]. intros ps HO. apply left_keys in HO. apply HO. apply (MK_multi M y). eauto.
  - intros a n k I. rewrite S4. eauto.
Qed.

(** ** Events, todos, alarms and calendars *)
Section Concrete.
Variable X : ext.
Theorem entry_left x0 n its x e : mergeable x0 -> is_entry (c_cls x0) = true -> entry_out X x0 n its = (x, Err e) ->
  (n <> title (c_cls x0) /\ x = x0) \/
  (exists pre it post y, its = pre ++ it :: post /\ sofar X [] (in_entry_reads X []) x0 pre y /\ stopped X [] pre it y x /\ forall post', entry_out X x0 n (pre ++ it :: post') = (x, Err e)) \/
  (sofar X [] (in_entry_reads X []) x0 its x /\ unclosed X [] alarm (c_cls x0) its).
Proof.
  intros HM IE H. eapply (instance_left X alarm (entry_member X) x0 [] (in_entry_reads X [])); eauto.
  - intros a m k l z u z1 I Z E. destruct (c_cls x0); try discriminate; cbn [members In] in I; destruct I as [[= _ _ <-]|[]]; cbn [entry_member] in E; apply (alarm_sound X []) in E as (_ & R & Z1); auto.
  - apply entry_member_zeq.
  - apply zeq_refl.
Qed.
Theorem alarm_left x0 n its x e : mergeable x0 -> is_alarm (c_cls x0) = true -> alarm_out X x0 n its = (x, Err e) ->
  (n <> title (c_cls x0) /\ x = x0) \/
  (exists pre it post y, its = pre ++ it :: post /\ sofar X [] (@no_reads) x0 pre y /\ stopped X [] pre it y x /\ forall post', alarm_out X x0 n (pre ++ it :: post') = (x, Err e)).
Proof.
  intros HM IA H. destruct (instance_left X Empty_set no_member x0 [] (@no_reads)) with (n := n) (its := its) (zs0 := @nil (list N * tz)) (x := x) (e := e) as [H1|[H1|[H1 H2]]]; auto.
  - discriminate.
  - discriminate.
  - apply zeq_refl.
  - exfalso. destruct H2 as [(f & _ & I & _)|[IE _]]; destruct (c_cls x0); try discriminate; contradiction.
Qed.
Lemma load_zones_subs its : forall its' d, subs (py "VTIMEZONE") its = subs (py "VTIMEZONE") its' -> load_zones X its d = load_zones X its' d.
Proof.
  assert (G : forall its d, load_zones X its d = load_zones X (map (ICont (py "VTIMEZONE")) (subs (py "VTIMEZONE") its)) d).
  { induction its0 as [|[l|n sub] its0 IH]; intro d; [reflexivity|apply IH|]. cbn [load_zones].
    change (subs (py "VTIMEZONE") (ICont n sub :: its0)) with ((if str_eqb n (py "VTIMEZONE") then [sub] else []) ++ subs (py "VTIMEZONE") its0).
    destruct (str_eqb n (py "VTIMEZONE")); cbn [app map load_zones]; [|apply IH]. rewrite str_eqb_refl. destruct (x_tz_load X sub) as [[id z]|]; [|reflexivity]. cbn [bind]. apply IH. }
  intros its' d E. rewrite (G its), (G its'), E. reflexivity.
Qed.
Lemma subs_app n a b : subs n (a ++ b) = subs n a ++ subs n b.
Proof. apply flat_map_app. Qed.
Theorem calendar_left c0 n its x e : mergeable c0 -> c_cls c0 = CCalendar -> calendar_out X c0 n its = (x, Err e) ->
  (n <> py "VCALENDAR" /\ x = c0) \/
  (exists sub, In (ICont (py "VTIMEZONE") sub) its /\ x_tz_load X sub = Err e) /\ x = c0 \/
  exists zs, Forall2 (fun sub z => x_tz_load X sub = Ok z) (subs (py "VTIMEZONE") its) zs /\
  ((exists pre it post y, its = pre ++ it :: post /\ sofar X zs (in_calendar_reads X zs) c0 pre y /\ stopped X zs pre it y x /\
      forall post', subs (py "VTIMEZONE") post' = subs (py "VTIMEZONE") post -> calendar_out X c0 n (pre ++ it :: post') = (x, Err e)) \/
   (sofar X zs (in_calendar_reads X zs) c0 its x /\ exists k, In k [py "VERSION"; py "PRODID"] /\ lines k its = [])).
Proof.
  intros HM HC H. unfold calendar_out in H. destruct (str_eqb n (py "VCALENDAR")) eqn:EN; [|injection H as <- _; left; split; [now apply str_eqb_neq|reflexivity]]. right.
  apply str_eqb_eq in EN as ->. destruct (load_zones X its []) as [d|e'] eqn:ED.
  2: { injection H as <- <-. left. split; [|reflexivity]. clear -ED. revert ED. generalize (@nil (list N * tz)) as d. induction its as [|[l|n sub] its IH]; intros d ED; cbn [load_zones] in ED; [discriminate| |].
    - destruct (IH _ ED) as (s & I & E). exists s. split; [now right|exact E].
    - destruct (str_eqb n (py "VTIMEZONE")) eqn:EN.
      + apply str_eqb_eq in EN as ->. destruct (x_tz_load X sub) as [[id z]|e0] eqn:EL; cbn [bind] in ED.
        * destruct (IH _ ED) as (s & I & E). exists s. split; [now right|exact E].
        * injection ED as ->. exists sub. split; [now left|exact EL].
      + destruct (IH _ ED) as (s & I & E). exists s. split; [now right|exact E]. }
  right. pose proof ED as ED'. apply load_zones_iff in ED' as (ps & F & ->). exists ps. split; [exact F|].
  destruct (instance_left X entry (calendar_member X) c0 ps (in_calendar_reads X ps)) with (n := py "VCALENDAR") (its := its) (zs0 := fold_left first_wins ps []) (x := x) (e := e)
    as [[H1 _]|[(pre & it & post & y & -> & H1 & H2 & H3)|[H1 H2]]]; auto.
  - rewrite HC. intros a m k l z u z1 I Z E. destruct I as [[= _ _ <-]|[[= _ _ <-]|[]]]; cbn [calendar_member in_calendar_reads] in *; apply (entry_sound X _ ps) in E as (_ & R & Z1); auto.
  - apply calendar_member_zeq.
  - apply wins_zeq.
  - exfalso. apply H1. now rewrite HC.
  - left. exists pre, it, post, y. split; [reflexivity|]. split; [exact H1|]. split; [exact H2|]. intros post' ES. unfold calendar_out. rewrite str_eqb_refl.
    rewrite (load_zones_subs (pre ++ it :: post') (pre ++ it :: post)), ED; [apply H3|]. change (it :: post') with ([it] ++ post'). change (it :: post) with ([it] ++ post). rewrite !subs_app. now rewrite ES.
  - right. split; [exact H1|]. rewrite HC in H2. destruct H2 as [(f & _ & I & E)|[IE _]]; [|discriminate]. exists (g_name f). split; [exact I|exact E].
Qed.

(** Agreement with the functions that return only the exception. *)
Theorem entry_agrees x0 n its : mergeable x0 -> (forall x, entry_out X x0 n its = (x, Ok tt) <-> populate_entry X x0 n its = Ok x) /\ (forall e, (exists x, entry_out X x0 n its = (x, Err e)) <-> populate_entry X x0 n its = Err e).
Proof.
  intro HM. pose proof (instance_tells X alarm (entry_member X) x0 n its [] HM) as T. unfold entry_out, populate_entry. destruct (instance_out _ _ _ _ _ _ _) as [x [[]|e]].
  - destruct T as (z & ->). cbn [bind]. split; [intro y; split; intros [= ->]; reflexivity|]. intro e. split; [intros (y & H); discriminate|discriminate].
  - rewrite T. cbn [bind]. split; [intro y; split; discriminate|]. intro e'. split; [intros (y & [= _ H]); now rewrite H|]. intros [= ->]. eauto.
Qed.
Theorem calendar_agrees x0 n its : mergeable x0 -> (forall x, calendar_out X x0 n its = (x, Ok tt) <-> populate_calendar X x0 n its = Ok x) /\ (forall e, (exists x, calendar_out X x0 n its = (x, Err e)) <-> populate_calendar X x0 n its = Err e).
Proof.
  intro HM. unfold calendar_out, populate_calendar. destruct (str_eqb n (py "VCALENDAR")).
  2: { split; [intro y; split; discriminate|]. intro e'. split; [intros (y & [= _ H]); now rewrite H|]. intros [= <-]. eauto. }
  destruct (load_zones X its []) as [zs|e]; cbn [bind].
  2: { split; [intro y; split; discriminate|]. intro e'. split; [intros (y & [= _ H]); now rewrite H|]. intros [= <-]. eauto. }
  pose proof (instance_tells X entry (calendar_member X) x0 n its zs HM) as T. destruct (instance_out _ _ _ _ _ _ _) as [x [[]|e]].
  - destruct T as (z & ->). cbn [bind]. split; [intro y; split; intros [= ->]; reflexivity|]. intro e. split; [intros (y & H); discriminate|discriminate].
  - rewrite T. cbn [bind]. split; [intro y; split; discriminate|]. intro e'. split; [intros (y & [= _ H]); now rewrite H|]. intros [= ->]. eauto.
Qed.
Theorem entry_again x0 n its x r : mergeable x0 -> is_entry (c_cls x0) = true -> entry_out X x0 n its = (x, r) -> mergeable x.
Proof.
  intros HM IE H. destruct r as [[]|e].
  - pose proof (instance_tells X alarm (entry_member X) x0 n its [] HM) as T. unfold entry_out in H. rewrite H in T. destruct T as (z & T).
    pose proof (merge_both X alarm (entry_member X) x0 n its [] HM) as B. rewrite T in B. destruct (load_comp _ _ _ _ _ _ _) as [[y z1]|]; [|contradiction]. destruct B as [B _]. eapply merged_mergeable; eauto.
  - destruct (entry_left x0 n its x e HM IE H) as [[_ ->]|[(pre & it & post & y & _ & H1 & H2 & _)|[H1 _]]]; [exact HM| |eapply sofar_mergeable; eauto]. eapply stopped_mergeable; [|exact H2]. eapply sofar_mergeable; eauto.
Qed.
Theorem calendar_again x0 n its x r : mergeable x0 -> c_cls x0 = CCalendar -> calendar_out X x0 n its = (x, r) -> mergeable x.
Proof.
  intros HM HC H. destruct r as [[]|e].
  - apply (proj1 (calendar_agrees x0 n its HM)) in H. destruct (calendar_merge_iff X x0 n its HM HC) as (B & _). destruct (B x H) as (y & _ & B1). eapply merged_mergeable; eauto.
  - destruct (calendar_left x0 n its x e HM HC H) as [[_ ->]|[[_ ->]|(zs & _ & [(pre & it & post & y & _ & H1 & H2 & _)|[H1 _]])]]; [exact HM|exact HM| |eapply sofar_mergeable; eauto].
    eapply stopped_mergeable; [|exact H2]. eapply sofar_mergeable; eauto.
Qed.
End Concrete.
