(** * Proofs: unknown items are kept (C31) *)
From Verif Require Import M_Base M_Text M_Line M_Codec M_Cal M_Time M_Span M_Dt M_Tree M_Comp S_Comp P_Base P_Comp.
From Coq Require Import Lia ZifyBool ZifyNat ZifyN.

Fixpoint nodup_str (l : list (list N)) : bool :=
  match l with [] => true | a :: l' => negb (existsb (str_eqb a) l') && nodup_str l' end.
Lemma nodup_str_spec l : nodup_str l = true -> NoDup l.
Proof.
  induction l as [|a l IH]; cbn; [constructor|]. rewrite Bool.andb_true_iff, Bool.negb_true_iff. intros [H1 H2].
  constructor; [|now apply IH]. rewrite <- existsb_str. now rewrite H1.
Qed.
Definition heads (l : list aconv) : list (list N) := map (fun a => match a_names a with n :: _ => n | [] => [] end) l.
Lemma heads_nodup l : nodup_str (heads l) = true -> NoDup l.
Proof. intro H. apply nodup_str_spec in H. now apply NoDup_map_inv in H. Qed.

Section Comp.
Variable X : ext.

Lemma type_from_action_spec a : action_class a (type_from_action a).
Proof.
  unfold type_from_action.
  destruct (str_eqb a (py "DISPLAY")) eqn:E1; [apply str_eqb_eq in E1 as ->; constructor|].
  destruct (str_eqb a (py "AUDIO")) eqn:E2; [apply str_eqb_eq in E2 as ->; constructor|].
  destruct (str_eqb a (py "NONE")) eqn:E3; [apply str_eqb_eq in E3 as ->; constructor|].
  destruct (str_eqb a (py "EMAIL")) eqn:E4; [apply str_eqb_eq in E4 as ->; constructor|].
  apply str_eqb_neq in E1, E2, E3, E4. constructor. cbn [In]. intuition congruence.
Qed.
Lemma find_action_spec its a : find_action its = Ok a -> alarm_class its (type_from_action a).
Proof.
  unfold find_action. destruct (filter _ its) as [|[l|n i] [|it2 r]] eqn:E; try discriminate. intros [= <-].
  assert (In (ILine l) (filter (fun it => str_eqb (item_name it) (py "ACTION")) its)) as I by (rewrite E; now left).
  apply filter_In in I as [I En]. apply str_eqb_eq in En. exists l. split; [easy|]. split; [easy|]. apply type_from_action_spec.
Qed.

(** Names of the classes. *)
Lemma upper_NAME c : upper (NAME c) = NAME c. Proof. destruct c; vm_compute; reflexivity. Qed.
Lemma NAME_nonempty c : NAME c <> []. Proof. destruct c; discriminate. Qed.
Lemma Container_NAME c l : Container (NAME c) l = Ok (ICont (NAME c) l).
Proof. unfold Container. rewrite upper_NAME. destruct c; reflexivity. Qed.

(** A component that was read, and what is written for it. *)
Lemma dump_flat M load_m dump_m c n its zs x zs1 zs2 it zs3 :
  populate_instance X M load_m (new_comp X M c) n its zs = Ok (x, zs1) ->
  dump_comp X M dump_m x zs2 = Ok (it, zs3) ->
  n = NAME c /\ c_cls x = c /\ Unknown c its (c_extra x) /\
  exists ks, it = ICont n (ks ++ c_extra x) /\ written X M dump_m x (converters c) ks.
Proof.
  intros HL HD. apply populate_instance_extra in HL as (-> & C & N & us & Ex & U). cbn [c_cls c_name c_extra new_comp] in *.
  split; [easy|]. split; [easy|]. split; [now rewrite Ex|].
  unfold dump_comp in HD. rewrite C, N in HD. unbind2 HD. unbind HD. injection HD as <- <-.
  rewrite Container_NAME in Ha0. injection Ha0 as <-. exists a. split; [easy|]. eapply serialize_convs_written; eauto.
Qed.
Lemma no_members_known M dump_m c (x : comp M) ks : written X M dump_m x (converters c) ks ->
  forallb (fun a => negb (has_members a)) (class_fields c) = true -> Forall (known c) ks.
Proof.
  intros W NM. eapply written_known; [| |exact W].
  - intros a. now rewrite converters_In.
  - intros a k y z it z' Ha Hk. apply converters_In in Ha. rewrite forallb_forall in NM. apply NM in Ha.
    unfold has_members in Ha. rewrite Hk in Ha. discriminate.
Qed.
Lemma alarm_no_members a : forallb (fun a => negb (has_members a)) (class_fields (type_from_action a)) = true.
Proof. unfold type_from_action. repeat destruct (str_eqb a _); vm_compute; reflexivity. Qed.

Lemma alarm_read n its zs x zs1 : load_alarm X n its zs = Ok (x, zs1) -> n = py "VALARM" /\
  exists c, alarm_class its c /\ c_cls x = c /\ Unknown c its (c_extra x).
Proof.
  unfold load_alarm, load_comp. intro H. unbind H. apply populate_instance_extra in H as (-> & C & _ & us & Ex & U).
  cbn in *. split; [unfold type_from_action; repeat destruct (str_eqb a _); reflexivity|].
  exists (type_from_action a). split; [now apply find_action_spec|]. split; [easy|]. now rewrite Ex.
Qed.
Lemma alarm_kept n its zs x zs1 zs2 it zs3 :
  load_alarm X n its zs = Ok (x, zs1) -> dump_alarm X x zs2 = Ok (it, zs3) ->
  exists out, it = ICont (py "VALARM") out /\ kept_alarm its out.
Proof.
  unfold load_alarm, load_comp, dump_alarm. intros HL HD. unbind HL. pose proof (find_action_spec its a Ha) as AC.
  eapply dump_flat in HL as (-> & C & U & ks & -> & W); [|exact HD].
  assert (NAME (type_from_action a) = py "VALARM") as -> by (unfold type_from_action; repeat destruct (str_eqb a _); reflexivity).
  eexists. split; [reflexivity|]. exists (type_from_action a). split; [easy|]. exists ks, (c_extra x). split; [easy|]. split; [easy|].
  split; [|easy]. eapply no_members_known; [exact W|apply alarm_no_members].
Qed.

Definition alarms_conv : aconv := mk_aconv (py "alarms") [py "VALARM"] 0 (KMember MAlarm).
Definition events_conv : aconv := mk_aconv (py "events") [py "VEVENT"] (-100) (KMember MEvent).
Definition todos_conv : aconv := mk_aconv (py "todos") [py "VTODO"] (-200) (KMember MTodo).
Lemma entry_members_only c a : c = CEvent \/ c = CTodo -> In a (class_fields c) -> has_members a = true -> a = alarms_conv.
Proof. intros [-> | ->] I HM; cbn in I; intuition; subst; try discriminate; reflexivity. Qed.
Lemma calendar_members_only a : In a (class_fields CCalendar) -> has_members a = true -> a = events_conv \/ a = todos_conv.
Proof. intros I HM; cbn in I; intuition; subst; try discriminate; auto. Qed.
Lemma entry_alarms c : c = CEvent \/ c = CTodo -> In alarms_conv (class_fields c) /\ lookup c (py "VALARM") = [alarms_conv].
Proof. intros [-> | ->]; (split; [cbn; tauto|vm_compute; reflexivity]). Qed.
Lemma has_members_kind a k : a_kind a = KMember k -> has_members a = true.
Proof. unfold has_members. now intros ->. Qed.

Lemma entry_read c n its zs x zs1 : c = CEvent \/ c = CTodo -> load_entry X c n its zs = Ok (x, zs1) ->
  n = NAME c /\ c_cls x = c /\ Unknown c its (c_extra x) /\
  Forall2 (fun sub y => exists zs zs', load_alarm X (py "VALARM") sub zs = Ok (y, zs'))
    (subs (py "VALARM") its) (get_mem (py "alarms") x).
Proof.
  intros Hc HL. unfold load_entry, load_comp in HL. destruct (entry_alarms c Hc) as [IA LA].
  pose proof HL as HL2. apply populate_instance_extra in HL as (-> & C & _ & us & Ex & U). cbn in C, Ex.
  split; [easy|]. split; [easy|]. split; [now rewrite Ex|].
  eapply (populate_instance_members X alarm (entry_member X) c alarms_conv MAlarm (py "VALARM")) in HL2 as (xs & Em & F).
  - change (py "alarms") with (a_attr alarms_conv). rewrite Em. destruct Hc as [-> | ->]; exact F.
  - exact LA.
  - reflexivity.
  - reflexivity.
  - intros b Hb Hm _. now apply (entry_members_only c).
  - reflexivity.
Qed.
Lemma entry_kept c n its zs x zs1 zs2 it zs3 : c = CEvent \/ c = CTodo ->
  load_entry X c n its zs = Ok (x, zs1) -> dump_entry X x zs2 = Ok (it, zs3) ->
  n = NAME c /\ exists out, it = ICont n out /\ kept_entry c its out.
Proof.
  intros Hc HL HD. destruct (entry_read c n its zs x zs1 Hc HL) as (-> & C & U & F). destruct (entry_alarms c Hc) as [IA LA].
  unfold load_entry, load_comp, dump_entry in *. eapply dump_flat in HL as (_ & _ & _ & ks & -> & W); [|exact HD].
  split; [easy|]. eexists. split; [reflexivity|]. exists ks, (c_extra x). split; [easy|]. split; [easy|].
  assert (HM : forall y z it z', In y (get_mem (py "alarms") x) -> dump_alarm X y z = Ok (it, z') -> exists sub, it = ICont (py "VALARM") sub).
  { intros y z it' z' Hy Dy. destruct (in_split _ _ Hy) as (l1 & l2 & E). rewrite E in F.
    apply Forall2_app_inv_r in F as (s1 & s2 & _ & F & _). inversion F as [|s0 y' s2' l2' (u & v & L) F']; subst.
    destruct (alarm_kept _ _ _ _ _ _ _ _ L Dy) as (out & -> & _). eauto. }
  split.
  - eapply written_known; [| |exact W].
    + intros a. now rewrite converters_In.
    + intros a k y z it' z' Ha Hk Hy Dy. apply converters_In in Ha.
      apply (entry_members_only c) in Ha as ->; [|easy|now apply has_members_kind with k]. cbn [alarms_conv a_names a_attr] in *. eauto.
  - pose proof (written_subs X alarm (dump_alarm X) c alarms_conv MAlarm (py "VALARM") x eq_refl) as WS.
    assert (FD : Forall2 (member_out alarm (dump_alarm X) (py "VALARM")) (get_mem (py "alarms") x) (subs (py "VALARM") ks)).
    { apply (WS) with (l := converters c).
      - intros b k' y z it' z' Hb Hk Hy Dy. apply (entry_members_only c) in Hb as ->; [|easy|now apply has_members_kind with k'].
        destruct (HM y z it' z' Hy Dy) as (sub & ->). eexists _, _. split; [reflexivity|]. easy.
      - exact W.
      - intros b. now rewrite converters_In.
      - apply heads_nodup. destruct Hc as [-> | ->]; vm_compute; reflexivity.
      - now apply converters_In. }
    clear -F FD. revert F. generalize (subs (py "VALARM") its). induction FD as [|y out l outs (u & v & Dy) FD IH]; intros l' F.
    + inversion F. constructor.
    + inversion F as [|s0 y' s' l2' (u' & v' & L) F']; subst. constructor; [|now apply IH].
      destruct (alarm_kept _ _ _ _ _ _ _ _ L Dy) as (out' & [= <-] & K). exact K.
Qed.

(** Calendars. *)
Lemma calendar_read n its x : load_calendar X n its = Ok x ->
  n = py "VCALENDAR" /\ c_cls x = CCalendar /\ Unknown CCalendar its (c_extra x) /\
  Forall2 (fun sub y => exists zs zs', load_entry X CEvent (py "VEVENT") sub zs = Ok (y, zs'))
    (subs (py "VEVENT") its) (get_mem (py "events") x) /\
  Forall2 (fun sub y => exists zs zs', load_entry X CTodo (py "VTODO") sub zs = Ok (y, zs'))
    (subs (py "VTODO") its) (get_mem (py "todos") x).
Proof.
  unfold load_calendar, populate_calendar. destruct (str_eqb n _) eqn:En; [|discriminate]. apply str_eqb_eq in En. subst n.
  intro H. unbind H. unbind2 H. injection H as <-. rename Ha0 into HL.
  pose proof HL as HL2. apply populate_instance_extra in HL as (_ & C & _ & us & Ex & U). cbn in C, Ex.
  split; [easy|]. split; [easy|]. split; [now rewrite Ex|].
  assert (L : forall b, In b (class_fields CCalendar) -> has_members b = true -> b = events_conv \/ b = todos_conv) by apply calendar_members_only.
  split.
  - eapply (populate_instance_members X entry (calendar_member X) CCalendar events_conv MEvent (py "VEVENT")) in HL2 as (xs & Em & F);
      [change (py "events") with (a_attr events_conv); rewrite Em; exact F|vm_compute; reflexivity|reflexivity|reflexivity| |reflexivity].
    intros b' Hb Hm Ea. destruct (L b' Hb Hm) as [-> | ->]; [easy|discriminate].
  - eapply (populate_instance_members X entry (calendar_member X) CCalendar todos_conv MTodo (py "VTODO")) in HL2 as (xs & Em & F);
      [change (py "todos") with (a_attr todos_conv); rewrite Em; exact F|vm_compute; reflexivity|reflexivity|reflexivity| |reflexivity].
    intros b' Hb Hm Ea. destruct (L b' Hb Hm) as [-> | ->]; [discriminate|easy].
Qed.
Lemma dump_zones_named (HZ : writes_zones X) zs its : dump_zones X zs = Ok its -> Forall (fun it => exists l, it = ICont (py "VTIMEZONE") l) its.
Proof.
  revert its; induction zs as [|[id z] zs IH]; intros its H; cbn in H; [injection H as <-; constructor|].
  unbind H. unbind H. injection H as <-. constructor; eauto.
Qed.
Lemma split_zones : converters CCalendar =
  before_zones (converters CCalendar) ++ mk_aconv [] [py "VTIMEZONE"] 600 KZones :: after_zones (converters CCalendar).
Proof. vm_compute. reflexivity. Qed.

Lemma calendar_kept n its x it : writes_zones X -> load_calendar X n its = Ok x -> dump_calendar X x = Ok it ->
  exists out, it = ICont (py "VCALENDAR") out /\ kept_calendar its out.
Proof.
  intros HZ HL HD. destruct (calendar_read n its x HL) as (-> & C & U & FE & FT).
  assert (N : c_name x = py "VCALENDAR").
  { unfold load_calendar, populate_calendar in HL. rewrite str_eqb_refl in HL. unbind HL. unbind2 HL. injection HL as <-.
    apply populate_instance_extra in Ha0 as (_ & _ & N & _). exact N. }
  unfold dump_calendar in HD. rewrite N in HD. unbind2 HD. unbind2 HD. unbind HD.
  change (py "VCALENDAR") with (NAME CCalendar) in HD. rewrite Container_NAME in HD. injection HD as <-.
  change (NAME CCalendar) with (py "VCALENDAR").
  apply serialize_convs_written in Ha, Ha0. apply dump_zones_named in Ha1; [|exact HZ].
  rename a into its1, a0 into its2, a1 into tzs.
  assert (W : written X entry (dump_entry X) x (converters CCalendar) (its1 ++ its2)).
  { rewrite split_zones. apply written_app; [exact Ha|]. apply (W_cons _ _ _ x _ _ [] its2 [] []); [reflexivity|exact Ha0]. }
  assert (HM : forall b k y z it z', In b (class_fields CCalendar) -> a_kind b = KMember k -> In y (get_mem (a_attr b) x) ->
     dump_entry X y z = Ok (it, z') -> exists out, it = ICont (match a_names b with n :: _ => n | [] => [] end) out).
  { intros b' k y z it z' Hb Hk Hy Dy. apply calendar_members_only in Hb; [|now apply has_members_kind with k].
    destruct Hb as [-> | ->]; cbn [events_conv todos_conv a_attr a_names] in *.
    - destruct (in_split _ _ Hy) as (l1 & l2 & E). rewrite E in FE.
      apply Forall2_app_inv_r in FE as (s1 & s2 & _ & F & _). inversion F as [|s0 y' s2' l2' (u & v & L) F']; subst.
      destruct (entry_kept CEvent _ _ _ _ _ _ _ _ (or_introl eq_refl) L Dy) as (_ & out & -> & _). eauto.
    - destruct (in_split _ _ Hy) as (l1 & l2 & E). rewrite E in FT.
      apply Forall2_app_inv_r in FT as (s1 & s2 & _ & F & _). inversion F as [|s0 y' s2' l2' (u & v & L) F']; subst.
      destruct (entry_kept CTodo _ _ _ _ _ _ _ _ (or_intror eq_refl) L Dy) as (_ & out & -> & _). eauto. }
  exists (its1 ++ tzs ++ its2 ++ c_extra x). split; [easy|]. exists (its1 ++ tzs ++ its2), (c_extra x).
  split; [now rewrite <- !app_assoc|]. split; [easy|].
  assert (KW : Forall (known CCalendar) (its1 ++ its2)).
  { eapply written_known; [| |exact W]; [intros a; now rewrite converters_In|].
    intros a k y z it z' Ha'. apply converters_In in Ha'. eauto. }
  apply Forall_app in KW as [K1 K2].
  assert (SZ : forall nm, nm <> py "VTIMEZONE" -> subs nm tzs = []).
  { intros nm Hnm. clear -Ha1 Hnm. induction Ha1 as [|it tzs (l & ->) F IH]; [easy|]. unfold subs in *. cbn [flat_map].
    assert (str_eqb (py "VTIMEZONE") nm = false) as -> by (apply str_eqb_neq; congruence). exact IH. }
  assert (KZ : Forall (known CCalendar) tzs).
  { eapply Forall_impl; [|exact Ha1]. intros it (l & ->). cbn. tauto. }
  split; [now rewrite !Forall_app|].
  assert (ND : NoDup (converters CCalendar)) by (apply heads_nodup; vm_compute; reflexivity).
  assert (IC : forall b, In b (converters CCalendar) -> In b (class_fields CCalendar)) by (intro; now rewrite converters_In).
  split.
  - rewrite !subs_app, SZ by discriminate. cbn [app]. rewrite <- subs_app.
    assert (FD : Forall2 (member_out entry (dump_entry X) (py "VEVENT")) (get_mem (py "events") x) (subs (py "VEVENT") (its1 ++ its2))).
    { apply (written_subs X entry (dump_entry X) CCalendar events_conv MEvent (py "VEVENT") x eq_refl) with (l := converters CCalendar); auto.
      - intros b' k' y z it z' Hb Hk Hy Dy. destruct (HM b' k' y z it z' Hb Hk Hy Dy) as (out & ->).
        apply calendar_members_only in Hb; [|now apply has_members_kind with k'].
        eexists _, _. split; [reflexivity|]. destruct Hb as [-> | ->]; split; try reflexivity; discriminate.
      - apply converters_In. cbn. tauto. }
    clear -FE FD. revert FE. generalize (subs (py "VEVENT") its). induction FD as [|y out l outs (u & v & Dy) FD IH]; intros l' F.
    + inversion F. constructor.
    + inversion F as [|s0 y' s' l2' (u' & v' & L) F']; subst. constructor; [|now apply IH].
      destruct (entry_kept CEvent _ _ _ _ _ _ _ _ (or_introl eq_refl) L Dy) as (_ & out' & [= <-] & K). exact K.
  - rewrite !subs_app, SZ by discriminate. cbn [app]. rewrite <- subs_app.
    assert (FD : Forall2 (member_out entry (dump_entry X) (py "VTODO")) (get_mem (py "todos") x) (subs (py "VTODO") (its1 ++ its2))).
    { apply (written_subs X entry (dump_entry X) CCalendar todos_conv MTodo (py "VTODO") x eq_refl) with (l := converters CCalendar); auto.
      - intros b' k' y z it z' Hb Hk Hy Dy. destruct (HM b' k' y z it z' Hb Hk Hy Dy) as (out & ->).
        apply calendar_members_only in Hb; [|now apply has_members_kind with k'].
        eexists _, _. split; [reflexivity|]. destruct Hb as [-> | ->]; split; try reflexivity; discriminate.
      - apply converters_In. cbn. tauto. }
    clear -FT FD. revert FT. generalize (subs (py "VTODO") its). induction FD as [|y out l outs (u & v & Dy) FD IH]; intros l' F.
    + inversion F. constructor.
    + inversion F as [|s0 y' s' l2' (u' & v' & L) F']; subst. constructor; [|now apply IH].
      destruct (entry_kept CTodo _ _ _ _ _ _ _ _ (or_intror eq_refl) L Dy) as (_ & out' & [= <-] & K). exact K.
Qed.
End Comp.
