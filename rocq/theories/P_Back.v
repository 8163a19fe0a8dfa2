(** * Proofs: consequences for whole alarms, events and todos *)
From Verif Require Import M_Base M_Text M_Line M_Codec M_Cal M_Time M_Span M_Dt M_Tree M_Comp.
From Verif Require Import S_Text S_Codec S_Dt S_Tree S_Comp S_Line P_Base P_Text P_Codec P_Dt P_Comp P_Frame P_Multi S_Store P_Rt P_Field P_SpanRt P_Whole P_Store.
From Coq Require Import Lia ZifyBool ZifyNat ZifyN.
Open Scope N_scope.

(** ** Corollaries *)
Section More.
Variable X : ext.
Hypothesis UE : utc_env X.

Lemma note_same {M} (x : comp M) l ps : (forall a, In a l -> list_value x a = true -> dict_get (upper a) (c_params x) <> None) -> fold_left (note x) l ps = ps.
Proof.
  induction l as [|a l IH]; intro H; cbn [fold_left]; [easy|]. assert (note x ps a = ps) as ->; [|apply IH; intros; apply H; auto; now right].
  unfold note. specialize (H a (or_introl eq_refl)). unfold list_value in H. destruct (dict_get a (c_attrs x)) as [[| |[|v vs]]|]; try easy.
  destruct (dict_get (upper a) (c_params x)); [easy|]. exfalso. now apply H.
Qed.
Lemma noted_same {M} (x : comp M) : (forall a, In a NOTE_ATTRS -> list_value x a = true -> dict_get (upper a) (c_params x) <> None) -> noted x = x.
Proof. intro H. unfold noted. rewrite (note_same x _ _ H). now destruct x. Qed.

Lemma eq_comp_members {M} (EM EM' : M -> M -> Prop) x y : eq_comp X EM x y ->
  (forall k l m m', dict_get k (c_mem x) = Some l -> In m l -> EM m m' -> EM' m m') -> eq_comp X EM' x y.
Proof.
  intros [H1 H2 H3 H4 H5 H6] HE. split; auto. intro k. specialize (H5 k). unfold eq_opt in *.
  destruct (dict_get k (c_mem x)) as [l|] eqn:EX, (dict_get k (c_mem y)) as [l'|]; auto.
  assert (G : forall m, In m l -> forall m', EM m m' -> EM' m m') by (intros m Hm m'; eapply HE; eauto).
  clear - H5 G. induction H5 as [|a b la lb H F IH]; constructor; [apply G; [now left|exact H]|]. apply IH. intros; apply G; auto. now right.
Qed.

Lemma action_same (m y : alarm) : std_alarm (c_cls m) -> c_cls y = c_cls m -> action y = action m.
Proof. unfold action. intros H ->. destruct H as [<-|[<-|[<-|[<-|[]]]]]; reflexivity. Qed.

Lemma convs_outs {M} dump_m (x : comp M) l : forall zs its zs', serialize_convs X M dump_m l x zs = Ok (its, zs') ->
  exists outs, its = concat outs /\ Forall2 (fun a o => exists z z', serialize_conv X M dump_m a x z = Ok (o, z')) l outs.
Proof.
  induction l as [|a l IH]; intros zs its zs' H; cbn [serialize_convs] in H; [injection H as <- <-; exists []; split; [easy|constructor]|].
  unbind2 H. unbind2 H. injection H as <- <-. apply IH in Ha0 as (outs & -> & F). exists (a0 :: outs). split; [easy|]. constructor; eauto.
Qed.
(** A custom alarm is written with two ACTION lines. *)
Lemma custom_twice (m : alarm) zs n its zs' : c_cls m = CCustom -> dump_alarm X m zs = Ok (ICont n its, zs') ->
  forall its' zs2, Forall2 item_eq its its' -> load_alarm X n its' zs2 = Err ValueError.
Proof.
  intros HC HD its' zs2 HE. unfold dump_alarm, dump_comp in HD. rewrite HC in HD. unbind2 HD. unbind HD. injection HD as -> <-.
  apply convs_outs in Ha as (outs & -> & F).
  replace (converters CCustom) with [action_field; one_of (py "trigger") (py "TRIGGER") [Duration; Datetime] STrigger;
    one_of (py "repeat") (py "REPEAT") [Int] SPlain; one_of (py "duration") (py "DURATION") [Duration] STimedelta;
    one_of (py "_action") (py "ACTION") [Text] SPlain] in F by reflexivity.
  inversion F as [|? o1 ? r1 (z1 & y1 & H1) F1]; subst. inversion F1 as [|? o2 ? r2 _ F2]; subst. inversion F2 as [|? o3 ? r3 _ F3]; subst.
  inversion F3 as [|? o4 ? r4 _ F4]; subst. inversion F4 as [|? o5 ? r5 (z5 & y5 & H5) F5]; subst. inversion F5; subst. clear F F1 F2 F3 F4 F5.
  unfold serialize_conv, action_field in H1. cbn [a_kind] in H1. unfold serialize_action, action in H1. rewrite HC in H1.
  unfold serialize_conv, one_of in H5. cbn [a_kind a_names] in H5. unfold serialize_single in H5. cbn [a_attr] in H5.
  destruct (get_attr (py "_action") m) as [|v|]; [discriminate H1| |discriminate H1].
  assert (exists l1, o1 = [ILine l1] /\ cl_name l1 = py "ACTION") as (l1 & -> & N1).
  { unbind H1. unbind H1. injection H1 as <- _. eexists. split; reflexivity. }
  assert (exists l5, o5 = [ILine l5] /\ cl_name l5 = py "ACTION") as (l5 & -> & N5).
  { unbind H5. unbind2 H5. unbind3 H5. injection H5 as <- _. eexists. split; reflexivity. }
  assert (its = concat [[ILine l1]; o2; o3; o4; [ILine l5]] ++ c_extra m) as ->.
  { unfold Container in Ha0. destruct (c_name m); [discriminate|]. now injection Ha0 as _ <-. }
  unfold load_alarm, find_action. apply (filter_eq_names _ _ (py "ACTION")) in HE.
  cbn [concat app filter item_name] in HE. rewrite N1 in HE.
  change (str_eqb (py "ACTION") (py "ACTION")) with true in HE. cbn iota in HE. rewrite <- !app_assoc in HE. rewrite !filter_app in HE. cbn [app filter item_name] in HE. rewrite N5 in HE.
  change (str_eqb (py "ACTION") (py "ACTION")) with true in HE. cbn iota in HE.
  inversion HE as [|? i1 ? r1 _ HE1]; subst. destruct r1 as [|i2 r1]; [|now destruct i1].
  exfalso. inversion HE1 as [E|]. symmetry in E. apply app_eq_nil in E as [_ E]. apply app_eq_nil in E as [_ E]. apply app_eq_nil in E as [_ E]. discriminate E.
Qed.

(** ** Time spans *)
Definition span_field (k : kind) : aconv := hd action_field (entry_fields k).
Lemma span_back {M} load_m dump_m (x : comp M) c k : c = CEvent /\ k = KEvent \/ c = CTodo /\ k = KTodo ->
  storable_field X x (py "timespan") (Span k) -> no_par x (py "DTEND") -> no_par x (py "END") -> (k <> KTodo -> no_par x (py "DUE")) ->
  exists t its, dict_get (py "timespan") (c_attrs x) = Some (AOne (VSpan t)) /\
    (forall zs, exists zs', serialize_conv X M dump_m (span_field k) x zs = Ok (its, zs') /\ wrote (uses_of X (val_dts (VSpan t))) zs zs') /\
    forall its' zs, Forall2 item_eq its its' -> (forall id z z', uses_of X (val_dts (VSpan t)) id z z' -> resolves X zs id z) ->
      exists st st' t', populate_all X M load_m (span_field k) its' (mk_lst (new_comp X M c) [] sc0 zs) = Ok st /\
        post_conv X M (span_field k) st = Ok st' /\
        dict_get (py "timespan") (c_attrs (l_comp st')) = Some (AOne (VSpan t')) /\ eq_span X t t' /\
        forall key, In key [py "BEGIN"; py "END"; py "DUE"; py "DURATION"] ->
          eq_opt eq_par (dict_get key (c_params x)) (dict_get key (c_params (l_comp st'))).
Proof.
  intros HCK HF N1 N2 N3.
  assert (HK : a_kind (span_field k) = KSpan k) by reflexivity.
  destruct (span_rt X UE M (fun _ _ => True) (fun _ _ _ _ => False) load_m dump_m c x (span_field k) k) as (its & (W & WN) & R); auto.
  { destruct HCK as [[_ ->]|[_ ->]]; auto. }
  { intros n Hn. destruct HCK as [[_ ->]|[_ ->]]; cbn in Hn |- *; tauto. }
  destruct HF as (t & HA & _). exists t, its. split; [exact HA|].
  assert (HU : forall id z z', uses_of X (val_dts (VSpan t)) id z z' <-> conv_uses X M (fun _ _ _ _ => False) (span_field k) x id z z').
  { intros id z z'. unfold conv_uses. split.
    - intro U. left. split; [reflexivity|]. exists (AOne (VSpan t)). split; [exact HA|exact U].
    - intros [(_ & v & E & U)|(E & _)]; [|discriminate]. change (a_attr (span_field k)) with (py "timespan") in E. rewrite HA in E. injection E as <-. exact U. }
  split.
  { intro zs. destruct (W zs) as (zs' & E & V). exists zs'. split; [exact E|]. eapply wrote_ext; [exact V|exact HU]. }
  intros its' zs HE HR.
  destruct (R its' (mk_lst (new_comp X M c) [] sc0 zs) HE) as (st & P & D & Z).
  { apply new_fresh; [destruct HCK as [[-> _]|[-> _]]; discriminate|]. apply converters_In. destruct HCK as [[-> ->]|[-> ->]]; now left. }
  { intros id z z' U. apply (HR id z z'). now apply HU. }
  destruct (post_one X M (fun _ _ => True) x (span_field k) st D) as (st' & Q & (F1 & F2 & _) & _ & _ & _ & PP & _).
  specialize (F2 eq_refl). change (a_attr (span_field k)) with (py "timespan") in F2. rewrite HA in F2.
  destruct (dict_get (py "timespan") (c_attrs (l_comp st'))) as [[|[]|]|] eqn:EA; try easy. exists st, st', t0. split; [exact P|]. split; [exact Q|]. split; [exact EA|]. split; [exact F2|].
  intros key HI. specialize (F1 key). unfold pkeys in F1. rewrite HK in F1. rewrite (span_key_noted M x) in F1 by exact HI. now apply F1.
Qed.
End More.

Section Entries.
Variable X : ext.
Lemma event_back x : utc_env X -> c_cls x = CEvent -> storable_entry X x ->
  (forall id z z', entry_uses X x id z z' -> resolves X [] id z) ->
  exists its, M_Comp.to_container X x = Ok (ICont (py "VEVENT") its) /\
    forall its', Forall2 item_eq its its' ->
      exists y, event_from_container X (py "VEVENT") its' = Ok y /\ back_entry X x y.
Proof.
  intros UE HC HS HR. destruct (entry_rt X UE x (or_introl HC) HS) as (its & W & R). rewrite HC in *. exists its. split.
  - destruct (W []) as (zs' & E & _). unfold M_Comp.to_container. now rewrite E.
  - intros its' HE. destruct (R its' [] HE HR) as (y & zs' & L & B & _). exists y. split; [|exact B]. unfold event_from_container. change (py "VEVENT") with (NAME CEvent). now rewrite L.
Qed.
Lemma todo_back x : utc_env X -> c_cls x = CTodo -> storable_entry X x ->
  (forall id z z', entry_uses X x id z z' -> resolves X [] id z) ->
  exists its, M_Comp.to_container X x = Ok (ICont (py "VTODO") its) /\
    forall its', Forall2 item_eq its its' ->
      exists y, todo_from_container X (py "VTODO") its' = Ok y /\ back_entry X x y.
Proof.
  intros UE HC HS HR. destruct (entry_rt X UE x (or_intror HC) HS) as (its & W & R). rewrite HC in *. exists its. split.
  - destruct (W []) as (zs' & E & _). unfold M_Comp.to_container. now rewrite E.
  - intros its' HE. destruct (R its' [] HE HR) as (y & zs' & L & B & _). exists y. split; [|exact B]. unfold todo_from_container. change (py "VTODO") with (NAME CTodo). now rewrite L.
Qed.
Lemma annotated_noted {M} (x : comp M) : annotated x -> noted x = x.
Proof.
  intro H. apply noted_same. intros a Ha HL. unfold list_value in HL. destruct (dict_get a (c_attrs x)) as [[| |[|v vs]]|] eqn:E; try discriminate. now apply (H a v vs).
Qed.
Lemma back_exact x y : annotated x ->
  (forall k l m, dict_get k (c_mem x) = Some l -> In m l -> annotated m) ->
  back_entry X x y -> eq_comp X (eq_comp X (fun _ _ => True)) x y.
Proof.
  intros HA HM HB. unfold back_entry in HB. assert (E : @noted alarm x = x) by (now apply annotated_noted). rewrite E in HB. eapply eq_comp_members; [exact HB|].
  intros k l m m' H1 H2 H3. unfold back_alarm in H3. assert (E' : @noted Empty_set m = m) by (apply annotated_noted; eauto). now rewrite E' in H3.
Qed.
End Entries.
