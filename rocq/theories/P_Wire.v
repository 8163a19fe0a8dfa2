(** * Proofs: written components have a written form *)
From Verif Require Import M_Base M_Text M_Line M_Codec M_Cal M_Time M_Span M_Dt M_Tree M_Comp M_Open M_Serial.
From Verif Require Import S_Text S_Codec S_Line S_Fold S_Tree S_Comp S_Store S_Ref S_Wire.
From Verif Require Import P_Base P_Text P_Codec P_Attr P_Tree P_Comp P_Multi P_Out P_Ref.
From Coq Require Import Lia ZifyBool ZifyNat ZifyN.
Open Scope N_scope.

Section Wire.
Variable X : ext.
Variable WU : list N -> tz -> tz -> Prop.
Hypothesis UW : forall id z z', WU id z z' -> wire_id id.
Definition WP (zs : zones) (p : xp) : Prop := wire_par p.
Definition WI (zs : zones) (it : item) : Prop := wf_item ok_line it.

Lemma dict_set_In {V} k (v : V) d j w : In (j, w) (dict_set k v d) -> (j = k /\ w = v) \/ In (j, w) d.
Proof.
  induction d as [|[a b] d IH]; cbn.
  - intros [[= <- <-]|[]]. now left.
  - destruct (str_eqb k a) eqn:E; cbn; intros [H|H].
    + injection H as <- <-. apply str_eqb_eq in E as <-. now left.
    + right. now right.
    + right. now left.
    + apply IH in H as [H|H]; [now left|right; now right].
Qed.
Lemma wire_set k vs p : none_of [61; 58; 59] k -> no_break k -> wf_pvals vs -> wire_par p -> wire_par (dict_set k vs p).
Proof.
  intros H1 H2 H3 [N0 H]. split; [now apply keys_set|]. intros j w I. apply dict_set_In in I as [[-> ->]|I]; auto.
Qed.
Lemma wire_del k p : wire_par p -> wire_par (dict_del k p).
Proof.
  intros [N0 H]. split.
  - clear H. induction p as [|[a b] p IH]; cbn in *; [constructor|]. inversion N0 as [|? ? N1 N2]; subst. destruct (str_eqb k a); [exact N2|].
    cbn. constructor; [|auto]. intros I. apply N1. clear -I. induction p as [|[c d] p IH]; cbn in *; [exact I|]. destruct (str_eqb k c); [now right|]. destruct I as [I|I]; auto.
  - intros j w I. apply H. clear -I. induction p as [|[c d] p IH]; cbn in *; [exact I|]. destruct (str_eqb k c); [now right|]. destruct I as [I|I]; auto.
Qed.
Lemma wire_update q : forall p, wire_par p -> (forall k vs, In (k, vs) q -> none_of [61; 58; 59] k /\ no_break k /\ wf_pvals vs) -> wire_par (dict_update p q).
Proof.
  unfold dict_update. induction q as [|[k v] q IH]; intros p HP HQ; cbn [fold_left]; [exact HP|]. apply IH.
  - destruct (HQ k v (or_introl eq_refl)) as (H1 & H2 & H3). now apply wire_set.
  - intros j w I. apply HQ. now right.
Qed.
Lemma wf_one t : t <> [] -> ~ In 13 t -> wf_pvals (raw [t]).
Proof.
  intros H1 H2. split; [discriminate|]. split; [intros v [<-|[]]; exact H2|]. cbn. congruence.
Qed.
Lemma wf_cont n its : wf_item ok_line (ICont n its) <-> n <> [] /\ upper n = n /\ no_break n /\ Forall (wf_item ok_line) its.
Proof.
  cbn [wf_item]. assert (E : forall l, (fix all l := match l with [] => True | i :: l' => wf_item ok_line i /\ all l' end) l <-> Forall (wf_item ok_line) l).
  { induction l as [|i l IH]; [split; auto|]. rewrite IH. split; [intros [A B]; now constructor|intros F; inversion F; auto]. }
  now rewrite E.
Qed.
Definition line_name_ok (n : list N) : bool :=
  forallb (fun c => negb (existsb (N.eqb c) [58; 59; 13; 10])) n && str_eqb (upper n) n &&
  match n with [] => true | c :: _ => negb (existsb (N.eqb c) [32; 9]) end && negb (str_eqb n (py "BEGIN")) && negb (str_eqb n (py "END")).
Lemma names_ok n : In n LINE_NAMES -> line_name_ok n = true.
Proof. assert (E : forallb line_name_ok LINE_NAMES = true) by (vm_compute; reflexivity). rewrite forallb_forall in E. apply E. Qed.
Lemma name_line n p v : line_name_ok n = true -> wire_par p -> no_break v -> ok_line (mk_line n p v).
Proof.
  intros HN HP HV. unfold line_name_ok in HN. rewrite !andb_true_iff, !negb_true_iff in HN.
  destruct HN as ((((H1 & H2) & H3) & H4) & H5). rewrite forallb_forall in H1.
  assert (HC : forall c d, In c n -> In d [58; 59; 13; 10] -> c <> d).
  { intros c d Hc Hd ->. apply H1 in Hc. rewrite negb_true_iff in Hc. assert (E : existsb (N.eqb d) [58; 59; 13; 10] = true); [|congruence].
    apply existsb_exists. exists d. split; [exact Hd|apply N.eqb_refl]. }
  apply str_eqb_eq in H2. apply str_eqb_neq in H4, H5. split; [split|split; [split|split]]; cbn [cl_name cl_params cl_value].
  - intros d Hd Hi. apply (HC d d Hi); [cbn in Hd |- *; tauto|reflexivity].
  - split; [exact H2|]. split; [apply HP|]. intros k vs I. destruct (proj2 HP k vs I) as (A & B & D). auto.
  - intros d Hd Hi. apply (HC d d Hi); [cbn in Hd |- *; tauto|reflexivity].
  - split; [|split; [exact HV|]].
    + intros (c & t & -> & HB). rewrite negb_true_iff in H3. cbn in H3. destruct HB; subst c; discriminate H3.
    + intros k vs I. apply (proj2 HP k vs I).
  - exact H4.
  - exact H5.
Qed.
Lemma wire_line n p v : In n LINE_NAMES -> wire_par p -> no_break v -> ok_line (mk_line n p v).
Proof. intros H. now apply name_line, names_ok. Qed.
Lemma wire_wanted : wanted X WU WP wire_par no_break WI.
Proof.
  split.
  - intros zs. split; [constructor|intros k vs []].
  - auto.
  - intros zs p t H1 H2 HP. apply wire_set; auto; [| |now apply wf_one]; intros c Hc; vm_compute in Hc |- *; intuition (subst; discriminate).
  - intros zs p. apply wire_del.
  - intros zs p id z z' HU _ HP. apply UW in HU as [H1 H2]. apply wire_set; auto; [| |now apply wf_one]; intros c Hc; vm_compute in Hc |- *; intuition (subst; discriminate).
  - intros zs p q HP HQ. apply wire_update; [exact HP|apply HQ].
  - auto.
  - apply nb_join.
  - intros a b HA HB. apply nb_app; [exact HA|]. apply nb_app; [|exact HB]. intros c Hc. vm_compute in Hc |- *. intuition (subst; discriminate).
  - intros zs n p v. apply wire_line.
  - auto.
Qed.
Lemma wire_cont zs c its : Forall (WI zs) its -> WI zs (ICont (NAME c) its).
Proof.
  intros F. apply wf_cont. split; [destruct c; discriminate|]. split; [destruct c; reflexivity|]. split; [|exact F].
  intros d Hd Hi. cbn in Hd. destruct c; vm_compute in Hi; destruct Hd as [<-|[<-|[]]]; intuition discriminate.
Qed.
Lemma wire_good {M} (CM GM : M -> Prop) UM (x : comp M) : wire X CM x -> (forall id z z', comp_uses X UM x id z z' -> WU id z z') ->
  (forall m, CM m -> (forall id z z', UM m id z z' -> WU id z z') -> GM m) ->
  good_comp X WU WP wire_par no_break WI GM x.
Proof.
  intros HC HU HM. split.
  - apply HC.
  - intros s H. pose proof (wi_cls _ _ _ HC) as HK. unfold action in H. destruct (c_cls x); try discriminate; try congruence; injection H as <-;
      intros c Hc Hi; vm_compute in Hc, Hi; intuition (subst; discriminate).
  - intros k a Ha. pose proof (wi_attrs _ _ _ HC k a Ha) as HA.
    assert (HD : forall d, In d (attr_dts a) -> good_dt X WU d) by (intros d Hd id z z' Hu; apply (HU id z z'); left; eauto 6).
    assert (HV : forall v, wire_val X v -> (forall d, In d (val_dts v) -> good_dt X WU d) -> good_val X WU wire_par no_break v).
    { intros v Hv Hd. destruct v; cbn [good_val wire_val] in *; auto.
      - now apply nb_binary.
      - apply Hd. now left.
      - cbn [val_dts] in Hd. split; intros e He; apply Hd; rewrite He; apply in_app_iff; [left|right]; now left. }
    destruct a as [|v|l]; cbn [good_attr wire_attr attr_dts] in *; [auto|auto|]. apply Forall_forall. intros v Hv.
    rewrite Forall_forall in HA. apply HV; [now apply HA|]. intros d Hd. apply HD. apply in_flat_map. eauto.
  - intros k l m Hl Hm. apply HM; [now apply (wi_mem _ _ _ HC k l)|]. intros id z z' Hu. apply (HU id z z'). right. eauto 6.
  - intros k p Hp. apply (wi_params _ _ _ HC) in Hp. destruct p as [p|l]; cbn in *; [intros zs; exact Hp|].
    eapply Forall_impl; [|exact Hp]. intros p H zs. exact H.
  - eapply Forall_impl; [|apply (wi_extra _ _ _ HC)]. intros it H zs. exact H.
Qed.
Lemma wire_alarm_good m : wire_alarm X m -> (forall id z z', alarm_uses X m id z z' -> WU id z z') -> good_alarm X WU WP wire_par no_break WI m.
Proof. intros HC HU. eapply wire_good; [exact HC|exact HU|auto]. Qed.
Lemma wire_entry_good m : wire X (wire_alarm X) m -> (forall id z z', entry_uses X m id z z' -> WU id z z') -> good_entry X WU WP wire_par no_break WI m.
Proof. intros HC HU. eapply wire_good; [exact HC|exact HU|exact wire_alarm_good]. Qed.
Lemma wire_entry_out m zs it zs' : wire X (wire_alarm X) m -> (forall id z z', entry_uses X m id z z' -> WU id z z') -> dump_entry X m zs = Ok (it, zs') -> out WU WI zs zs' [it].
Proof.
  intros HC HU. apply (entry_out X WU WP wire_par no_break WI wire_wanted wire_cont). now apply wire_entry_good.
Qed.
End Wire.
Lemma wire_entry_wf X m it : wire_entry X m -> M_Comp.to_container X m = Ok it -> wf_item ok_line it.
Proof.
  intros [HC HU] H. unfold M_Comp.to_container in H. destruct (dump_entry X m []) as [[i zs]|e] eqn:E; [|discriminate]. cbn in H. injection H as <-.
  apply (wire_entry_out X (entry_uses X m) HU) in E as [_ E]; auto. now inversion E.
Qed.
Lemma dump_zones_wf X zs : forall tzs, (forall id z' t, In (id, z') zs -> x_tz_dump X z' = Ok t -> wf_item ok_line t) -> dump_zones X zs = Ok tzs -> Forall (wf_item ok_line) tzs.
Proof.
  induction zs as [|[id z] zs IH]; intros tzs HZ H; cbn [dump_zones] in H; [injection H as <-; constructor|].
  unbind H. unbind H. injection H as <-. constructor; [eapply HZ; [now left|exact Ha]|]. apply IH; [|exact Ha0]. intros i y t Hi. apply (HZ i). now right.
Qed.
Lemma wire_calendar_wf X c it : wire_calendar X c -> c_cls c = CCalendar ->
  (forall id z z' t, calendar_uses X c id z z' -> x_tz_dump X z' = Ok t -> wf_item ok_line t) ->
  dump_calendar X c = Ok it -> wf_item ok_line it.
Proof.
  intros [HC HU] HK HZ H. unfold dump_calendar in H. unbind2 H. unbind2 H. unbind H.
  set (U := calendar_uses X c) in *.
  pose proof (wire_good X U _ (fun m => wire X (wire_alarm X) m /\ forall id z z', entry_uses X m id z z' -> U id z z') (entry_uses X) c HC (fun _ _ _ I => I) (fun m H1 H2 => conj H1 H2)) as HG.
  assert (HM : forall m zs it zs', (wire X (wire_alarm X) m /\ forall id z z', entry_uses X m id z z' -> U id z z') -> dump_entry X m zs = Ok (it, zs') -> out U WI zs zs' [it]).
  { intros m zs i zs' [M1 M2] HD. eapply (wire_entry_out X U HU); eauto. }
  assert (O1 : out U WI [] b a).
  { refine (convs_out X U _ _ _ _ (wire_wanted X U HU) _ _ HM c HG _ _ _ _ _ Ha). apply Forall_forall. intros k Hk. apply (converters_named CCalendar). revert k Hk.
    apply Forall_forall. repeat (constructor; [vm_compute; tauto|]). constructor. }
  assert (O2 : out U WI b b0 a0).
  { refine (convs_out X U _ _ _ _ (wire_wanted X U HU) _ _ HM c HG _ _ _ _ _ Ha0). apply Forall_forall. intros k Hk. apply (converters_named CCalendar). revert k Hk.
    apply Forall_forall. repeat (constructor; [vm_compute; tauto|]). constructor. }
  destruct O1 as [S1 O1], O2 as [S2 O2]. pose proof (step_trans U _ _ _ S1 S2) as (S3 & S4 & S5).
  assert (ND : NoDup (keys b0)) by (apply S5; constructor).
  assert (HT : Forall (wf_item ok_line) a1).
  { apply (dump_zones_wf X b0); [|exact Ha1]. intros id z' t Hi. apply (dict_get_In_NoDup _ _ _ ND) in Hi. apply S4 in Hi as [Hi|[z Hi]]; [discriminate|]. eauto. }
  assert (HN : c_name c = NAME (c_cls c)) by apply HC. unfold Container in H. rewrite HN, HK in H. injection H as <-. apply (wire_cont [] CCalendar). rewrite !Forall_app. split; [exact O1|]. split; [exact HT|]. split; [exact O2|].
  apply (wi_extra _ _ _ HC).
Qed.
