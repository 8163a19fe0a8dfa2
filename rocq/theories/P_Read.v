(** * Proofs: what is read is what the lines say *)
From Verif Require Import M_Base M_Text M_Line M_Codec M_Cal M_Time M_Span M_Dt M_Tree M_Comp.
From Verif Require Import S_Text S_Codec S_Dt S_Comp S_Multi S_Reorder P_Base P_Comp P_Cat P_Frame P_Whole P_Keep P_Local P_Reorder P_ReadGen S_Read P_Value P_ReadVal P_ReadSpan.
From Coq Require Import Lia ZifyBool ZifyNat ZifyN.
Open Scope N_scope.

(** ** The tables *)
Definition is_single (a : aconv) : bool := match a_kind a with KVal _ false _ _ => true | _ => false end.
Definition is_multi (a : aconv) : bool := match a_kind a with KVal _ true _ _ => true | _ => false end.
Fixpoint distinctb (l : list (list N)) : bool := match l with [] => true | x :: l' => negb (existsb (str_eqb x) l') && distinctb l' end.
Lemma distinctb_spec l : distinctb l = true -> NoDup l.
Proof.
  induction l as [|x l IH]; cbn [distinctb]; [constructor|]. rewrite Bool.andb_true_iff, Bool.negb_true_iff. intros [A B]. constructor; [|auto].
  intro I. apply existsb_str in I. congruence.
Qed.
Ltac types := split; [reflexivity|split; [discriminate|apply distinctb_spec; vm_compute; reflexivity]].
Definition is_in (n : list N) (l : list (list N)) : bool := existsb (str_eqb n) l.
Lemma sconv X c f convs r s a : a_attr a = g_attr f -> a_names a = [g_name f] -> a_kind a = KVal convs false r s -> types_ok (g_types f) convs -> set_ok convs s (g_rule f) ->
  is_in (g_name f) (required c) = r -> (r = false -> default_attr X c a = initial X (g_attr f)) -> single_conv X c f a.
Proof.
  intros H1 H2 H3 H4 H5 H6 H7. split; auto. exists convs, r, s. repeat (split; [assumption|]). split; [|exact H7]. rewrite <- H6. apply existsb_str.
Qed.
Ltac unroll := match goal with |- Forall2 ?R ?l ?m =>
  let l' := eval cbv [singles multiples entry_singles alarm_singles app] in l in
  let m' := eval cbv [filter class_fields event_fields todo_fields calendar_fields entry_fields alarm_fields app is_single is_multi a_kind one_of many_of head_of action_field] in m in
  change (Forall2 R l' m') end.
Lemma singles_table X c : Forall2 (single_conv X c) (singles c) (filter is_single (class_fields c)).
Proof.
  destruct c; unroll; repeat (apply Forall2_cons; [eapply sconv; [reflexivity|reflexivity|reflexivity|types|first [exact I|reflexivity]|vm_compute; reflexivity|
    first [discriminate|intros _; reflexivity]]|]); apply Forall2_nil.
Qed.
Lemma multis_table c : Forall2 multi_conv (multiples c) (filter is_multi (class_fields c)).
Proof. destruct c; unroll; repeat (apply Forall2_cons; [split; [reflexivity|reflexivity|]; eexists; (split; [reflexivity|types])|]); apply Forall2_nil. Qed.
Lemma F2_l {A B} (R : A -> B -> Prop) l m a : Forall2 R l m -> In a l -> exists b, In b m /\ R a b.
Proof. induction 1 as [|x y l m H HF IH]; [easy|]. intros [->|I]; [exists y; split; [now left|exact H]|]. destruct (IH I) as (b & J & K). exists b. split; [now right|exact K]. Qed.
Lemma F2_r {A B} (R : A -> B -> Prop) l m b : Forall2 R l m -> In b m -> exists a, In a l /\ R a b.
Proof. induction 1 as [|x y l m H HF IH]; [easy|]. intros [->|I]; [exists x; split; [now left|exact H]|]. destruct (IH I) as (a & J & K). exists a. split; [now right|exact K]. Qed.
Lemma single_of X c f : In f (singles c) -> exists a, In a (converters c) /\ is_single a = true /\ single_conv X c f a.
Proof. intro I. destruct (F2_l _ _ _ _ (singles_table X c) I) as (a & J & K). apply filter_In in J as [J1 J2]. exists a. rewrite converters_In. auto. Qed.
Lemma conv_single X c a : In a (converters c) -> is_single a = true -> exists f, In f (singles c) /\ single_conv X c f a.
Proof. intros I J. apply converters_In in I. apply (F2_r _ _ _ _ (singles_table X c)), filter_In. auto. Qed.
Lemma multi_of c f : In f (multiples c) -> exists a, In a (converters c) /\ is_multi a = true /\ multi_conv f a.
Proof. intro I. destruct (F2_l _ _ _ _ (multis_table c) I) as (a & J & K). apply filter_In in J as [J1 J2]. exists a. rewrite converters_In. auto. Qed.
Lemma conv_multi c a : In a (converters c) -> is_multi a = true -> exists f, In f (multiples c) /\ multi_conv f a.
Proof. intros I J. apply converters_In in I. apply (F2_r _ _ _ _ (multis_table c)), filter_In. auto. Qed.
Lemma conv_span c a k : In a (converters c) -> a_kind a = KSpan k ->
  is_entry c = true /\ k = span_kind c /\ a_attr a = py "timespan" /\ a_names a = SPAN_NAMES.
Proof.
  intros I K. apply converters_In in I. destruct c; cbn [class_fields event_fields todo_fields calendar_fields alarm_fields entry_fields app In] in I;
    repeat (destruct I as [<-|I]; [try discriminate K; injection K as <-; repeat split|]); contradiction.
Qed.
Lemma span_of c : is_entry c = true -> exists a k, In a (converters c) /\ a_kind a = KSpan k.
Proof. destruct c; try discriminate; intros _; eexists _, _; (split; [apply converters_In; left; reflexivity|reflexivity]). Qed.
Lemma conv_member c a k : In a (converters c) -> a_kind a = KMember k -> exists n, In (a_attr a, n, k) (members c) /\ a_names a = [n].
Proof.
  intros I K. apply converters_In in I. destruct c; cbn [class_fields event_fields todo_fields calendar_fields alarm_fields entry_fields app In] in I;
    repeat (destruct I as [<-|I]; [try discriminate K; injection K as <-; eexists; (split; [cbn; tauto|reflexivity])|]); contradiction.
Qed.
Definition is_member (a : aconv) : bool := match a_kind a with KMember _ => true | _ => false end.
Definition member_conv (m : list N * list N * mkind) (a : aconv) : Prop :=
  a_kind a = KMember (snd m) /\ a_attr a = fst (fst m) /\ a_names a = [snd (fst m)].
Lemma members_table c : Forall2 member_conv (members c) (filter is_member (class_fields c)).
Proof. destruct c; cbn [members]; repeat (apply Forall2_cons; [repeat split|]); apply Forall2_nil. Qed.
Lemma member_of c a n k : In (a, n, k) (members c) -> exists b, In b (converters c) /\ a_kind b = KMember k /\ a_attr b = a /\ a_names b = [n].
Proof.
  intro I. destruct (F2_l _ _ _ _ (members_table c) I) as (b & J & K). apply filter_In in J as [J _]. exists b. rewrite converters_In. now destruct K as (K1 & K2 & K3).
Qed.
Lemma conv_action c a : In a (converters c) -> a_kind a = KAction -> is_alarm c = true /\ a_names a = [py "ACTION"].
Proof.
  intros I K. apply converters_In in I. destruct c; cbn [class_fields event_fields todo_fields calendar_fields alarm_fields entry_fields app In] in I;
    repeat (destruct I as [<-|I]; [try discriminate K; repeat split|]); contradiction.
Qed.
Lemma action_of c : is_alarm c = true -> exists a, In a (converters c) /\ a_kind a = KAction.
Proof.
  intro H. exists action_field. split; [|easy]. apply converters_In. destruct c; try discriminate;
    cbn [class_fields event_fields todo_fields calendar_fields alarm_fields entry_fields app In]; tauto.
Qed.
Lemma title_NAME c : NAME c = title c. Proof. now destruct c. Qed.
Definition subset (l m : list (list N)) : bool := forallb (fun k => is_in k m) l.
Lemma subset_spec l m k : subset l m = true -> In k l -> In k m.
Proof. unfold subset. rewrite forallb_forall. intros H I. apply existsb_str. now apply H. Qed.
Lemma names_attrs c : subset (map a_attr (filter has_attr (class_fields c))) (S_Read.attr_names c) = true.
Proof. destruct c; vm_compute; reflexivity. Qed.
Lemma names_mems c : subset (map a_attr (filter has_members (class_fields c))) (map (fun m => fst (fst m)) (members c)) = true.
Proof. destruct c; vm_compute; reflexivity. Qed.
Lemma names_params c : subset (flat_map pkeys (class_fields c)) (param_names c) = true.
Proof. destruct c; vm_compute; reflexivity. Qed.
Lemma all_fields_pairwise c : pairwise (class_fields c).
Proof. apply pairwiseb_spec. destruct c; vm_compute; reflexivity. Qed.

(** ** The action *)
Lemma type_from_action_iff v c : action_class v c <-> type_from_action v = c.
Proof.
  split; [|intros <-; apply type_from_action_spec]. intros []; try reflexivity. unfold type_from_action.
  assert (F : forall w, In w [py "DISPLAY"; py "AUDIO"; py "NONE"; py "EMAIL"] -> str_eqb a w = false).
  { intros w I. apply str_eqb_neq. intros ->. contradiction. }
  rewrite !F by (cbn; tauto). easy.
Qed.
Lemma find_action_iff its v : find_action its = Ok v <-> exists l, only_lines (py "ACTION") its [l] /\ v = cl_value l.
Proof.
  unfold find_action.
  assert (FL : forall n l, flat_map (fun it => match it with ILine l => [l] | _ => [] end) (filter (fun it => str_eqb (item_name it) n) l) = lines n l).
  { intros n l. induction l as [|[x|m k] l IH]; [easy| |]; cbn [filter item_name lines flat_map].
    - destruct (str_eqb (cl_name x) n); cbn [flat_map app]; now rewrite IH.
    - destruct (str_eqb m n); cbn [flat_map app]; exact IH. }
  split.
  - destruct (filter _ its) as [|[l|n i] [|it2 r]] eqn:E; try discriminate. intros [= <-]. exists l. split; [|easy]. split.
    + rewrite <- FL, E. easy.
    + intros k I. assert (In (ICont (py "ACTION") k) (filter (fun it => str_eqb (item_name it) (py "ACTION")) its)) as J by (apply filter_In; split; [exact I|easy]).
      rewrite E in J. destruct J as [J|[]]. discriminate.
  - intros (l & [E C] & ->). assert (filter (fun it => str_eqb (item_name it) (py "ACTION")) its = [ILine l]) as ->; [|easy].
    assert (K : forall l', (forall k, ~ In (ICont (py "ACTION") k) l') -> filter (fun it => str_eqb (item_name it) (py "ACTION")) l' = map ILine (lines (py "ACTION") l')).
    { induction l' as [|[x|m k] l' IH]; intro H; [easy| |]; cbn [filter item_name lines flat_map].
      - destruct (str_eqb (cl_name x) (py "ACTION")); cbn [app map]; now rewrite IH by (intros k I; apply (H k); now right).
      - destruct (str_eqb m (py "ACTION")) eqn:EM; [exfalso; apply str_eqb_eq in EM as ->; apply (H k); now left|]. apply IH. intros k0 I; apply (H k0); now right. }
    rewrite K by exact C. now rewrite <- E.
Qed.

Section Comp.
Variable X : ext.
Variable M : Type.
Variable load_m : mkind -> list N -> list item -> zones -> res (M * zones).
Variable c : cls.
Variable zs : zones.
Variable RM : mkind -> list item -> M -> Prop.
Hypothesis MS : forall a n k l zs' x zs1, In (a, n, k) (members c) -> zeq X zs zs' -> load_m k n l zs' = Ok (x, zs1) -> RM k l x /\ zeq X zs zs1.
Local Notation lst := (lst M).

Definition mem_part (a : aconv) (k : mkind) (its : list item) (x : comp M) : Prop :=
  forall n, a_names a = [n] -> (forall l, In (ILine l) its -> cl_name l <> n) /\
  exists ms, dict_get (a_attr a) (c_mem x) = Some ms /\ Forall2 (RM k) (subs n its) ms.
Definition act_part (its : list item) (x : comp M) : Prop :=
  cont_free (py "ACTION") its /\
  match lines (py "ACTION") its with
  | [] => params_are x (py "ACTION") []
  | [l] => action_class (cl_value l) c /\ params_are x (py "ACTION") (cl_params l)
  | _ => True
  end.
Definition part (a : aconv) (its : list item) (s : lst) : Prop :=
  match a_kind a with
  | KVal _ false _ _ => forall f, single_conv X c f a -> one_part X M c zs f a its s
  | KVal _ true _ _ => forall f, multi_conv f a -> many_part X M zs f its s
  | KSpan _ => span_part X M zs its s
  | KMember k => mem_part a k its (l_comp s)
  | KAction => act_part its (l_comp s)
  | KZones => True
  end.
Definition fin (a : aconv) (its : list item) (s : lst) : Prop :=
  match a_kind a with
  | KVal _ false _ _ => forall f, single_conv X c f a -> one_read X zs c f its (l_comp s)
  | KVal _ true _ _ => forall f, multi_conv f a -> many_read X zs f its (l_comp s)
  | KSpan _ => span_read X zs c its (l_comp s)
  | KMember k => mem_part a k its (l_comp s)
  | KAction => act_part its (l_comp s)
  | KZones => True
  end.
Lemma act_frame a its s t : a_kind a = KAction -> at_same M a s t -> act_part its (l_comp s) -> act_part its (l_comp t).
Proof.
  intros K [A1 A2 A3 A4 A5 A6]. unfold act_part, params_are. rewrite A3; [auto|]. unfold pkeys. rewrite K. now left.
Qed.
Lemma part_frame a its s t : In a (converters c) -> at_same M a s t -> part a its s -> part a its t.
Proof.
  unfold part. intros I A. destruct (a_kind a) as [convs [] r st|k|k| |] eqn:K.
  - intros H f HF. eapply many_frame; eauto.
  - intros H f HF. eapply one_frame; eauto.
  - eapply span_frame; eauto.
  - intros H n HN. destruct (H n HN) as (H1 & ms & H2 & H3). split; [exact H1|]. exists ms. split; [|exact H3]. now rewrite <- (as_mem _ _ _ _ A).
  - eapply act_frame; eauto.
  - easy.
Qed.
Lemma fin_frame a its s t : In a (converters c) -> at_same M a s t -> fin a its s -> fin a its t.
Proof.
  unfold fin. intros I A. destruct (a_kind a) as [convs [] r st|k|k| |] eqn:K.
  - intros H f HF. eapply (many_frame X M zs); eauto. now apply H.
  - intros H f HF. eapply one_read_frame; eauto.
  - destruct (conv_span c a k I K) as (HE & -> & AA & _). eapply span_read_frame; eauto.
  - intros H n HN. destruct (H n HN) as (H1 & ms & H2 & H3). split; [exact H1|]. exists ms. split; [|exact H3]. now rewrite <- (as_mem _ _ _ _ A).
  - eapply act_frame; eauto.
  - easy.
Qed.
Lemma subs_other n it : item_name it <> n -> subs n [it] = [].
Proof. intro H. destruct it as [l|m k]; [easy|]. cbn in *. apply str_eqb_neq in H. now rewrite H. Qed.
Lemma part_skip a pre it s : In a (converters c) -> ~ named a it -> part a pre s -> part a (pre ++ [it]) s.
Proof.
  unfold part. intros I A. destruct (a_kind a) as [convs [] r st|k|k| |] eqn:K.
  - intros H f HF. eapply many_skip; eauto.
  - intros H f HF. eapply one_skip; eauto.
  - destruct (conv_span c a k I K) as (_ & _ & _ & AN). eapply span_skip; eauto.
  - intros H n HN. destruct (H n HN) as (H1 & ms & H2 & H3). unfold named in A. rewrite HN in A. split.
    + intros l J. apply in_app_iff in J as [J|[->|[]]]; [auto|]. intro E. apply A. now left.
    + exists ms. split; [exact H2|]. rewrite subs_app, (subs_other n it), app_nil_r; [exact H3|]. intro E. apply A. now left.
  - destruct (conv_action c a I K) as [_ AN]. unfold named in A. rewrite AN in A. assert (item_name it <> py "ACTION") as NE by (intro E; apply A; now left).
    destruct (lines_other _ _ NE) as [L1 L2]. intros [H1 H2]. split; [now apply cont_free_app|]. now rewrite lines_app, L1, app_nil_r.
  - easy.
Qed.
Lemma part_step a pre it s s' b : In a (converters c) -> named a it -> c_cls (l_comp s) = c -> zeq X zs (l_zones s) -> part a pre s ->
  populate_conv X M load_m a it s = Ok (s', b) -> part a (pre ++ [it]) s' /\ zeq X zs (l_zones s').
Proof.
  unfold part. intros I A HC HZ HP H. unfold populate_conv in H. unfold named in A. destruct (a_kind a) as [convs [] r st|k|k| |] eqn:K; destruct it as [l|n its]; try discriminate.
  - destruct (conv_multi c a I) as (f0 & _ & F0); [unfold is_multi; now rewrite K|]. unbind H. injection H as <- _.
    assert (G : forall f, multi_conv f a -> many_part X M zs f (pre ++ [ILine l]) a0 /\ zeq X zs (l_zones a0)).
    { intros f HF. eapply many_step; eauto. rewrite (mv_names _ _ HF) in A. now destruct A as [->|[]]. }
    split; [intros f HF; now apply G|]. now apply (G f0).
  - destruct (conv_single X c a I) as (f0 & _ & F0); [unfold is_single; now rewrite K|]. unbind H. injection H as <- _.
    assert (G : forall f, single_conv X c f a -> one_part X M c zs f a (pre ++ [ILine l]) a0 /\ zeq X zs (l_zones a0)).
    { intros f HF. eapply one_single; eauto. rewrite (sv_names _ _ _ _ HF) in A. now destruct A as [->|[]]. }
    split; [intros f HF; now apply G|]. now apply (G f0).
  - destruct (conv_span c a k I K) as (_ & _ & _ & AN). rewrite AN in A. unbind H. injection H as <- _. now eapply span_step_part; eauto.
  - destruct (conv_member c a k I K) as (m & IM & AN). rewrite AN in A. destruct A as [A|[]]. cbn in A. subst m. unbind2 H. injection H as <- _.
    destruct (MS _ _ _ _ _ _ _ IM HZ Ha) as [R Z]. split; [|exact Z]. intros m HN. rewrite AN in HN. injection HN as <-. destruct (HP n AN) as (H1 & ms & H2 & H3). split.
    + intros l J. apply in_app_iff in J as [J|[J|[]]]; [auto|discriminate].
    + exists (ms ++ [a0]). cbn [l_comp set_mem c_mem]. unfold get_mem. rewrite H2. split; [apply dict_get_set_same|]. rewrite subs_app. apply Forall2_app; [exact H3|].
      cbn [subs flat_map]. rewrite str_eqb_refl. cbn [app]. constructor; [exact R|constructor].
  - destruct (conv_action c a I K) as [_ AN]. rewrite AN in A. destruct A as [A|[]]. cbn [item_name] in A. unbind H. injection H as <- _. unfold populate_action in Ha. rewrite HC in Ha.
    destruct (cls_eqb c (type_from_action (cl_value l))) eqn:EC; [|discriminate]. injection Ha as <-. split; [|exact HZ]. destruct HP as [H1 H2].
    cbn [l_comp]. split; [apply cont_free_app; split; [exact H1|apply cont_free_line]|]. rewrite lines_app.
    assert (lines (py "ACTION") [ILine l] = [l]) as -> by (rewrite A; apply lines_here).
    destruct (lines (py "ACTION") pre) as [|y ys]; [|now destruct ys]. cbn [app]. split.
    + apply type_from_action_iff. destruct c, (type_from_action (cl_value l)); try discriminate; reflexivity.
    + unfold params_are in *. rewrite store_get. change (str_eqb (py "ACTION") (py "ACTION")) with true. destruct (cl_params l); [exact H2|easy].
  - injection H as <- _. now split.
  - injection H as <- _. now split.
Qed.
Lemma part_post a its s s' : In a (converters c) -> c_cls (l_comp s) = c -> part a its s -> post_conv X M a s = Ok s' -> fin a its s'.
Proof.
  unfold part, fin. intros I HC HP H. destruct (a_kind a) as [convs [] r st|k|k| |] eqn:K.
  - intros f HF. eapply many_post; eauto.
  - intros f HF. eapply one_post; eauto.
  - destruct (conv_span c a k I K) as (HE & -> & AA & _). eapply span_post; eauto.
  - unfold post_conv in H. rewrite K in H. now injection H as <-.
  - unfold post_conv in H. rewrite K in H. now injection H as <-.
  - easy.
Qed.
Lemma part_new zs' : zeq X zs zs' -> all_parts X M c zs part [] (mk_lst (new_comp X M c) [] sc0 zs').
Proof.
  intro HZ. split; [easy|]. split; [exact HZ|]. intros a I. pose proof I as I'. apply converters_In in I'. pose proof (all_fields_pairwise c) as PW.
  unfold part. destruct (a_kind a) as [convs [] r st|k|k| |] eqn:K.
  - intros f HF. exists [], [], []. split; [apply only_nil|]. split; [constructor|]. split; [|easy]. rewrite <- (mv_attr _ _ HF). cbn [l_comp new_comp c_attrs].
    rewrite (get_new (default_attr X c) has_attr) by (auto; unfold has_attr; now rewrite K). unfold default_attr. now rewrite K.
  - intros f HF. exists []. split; [apply only_nil|]. split; [|easy]. rewrite <- (sv_attr _ _ _ _ HF). cbn [l_comp new_comp c_attrs].
    now rewrite (get_new (default_attr X c) has_attr) by (auto; unfold has_attr; now rewrite K).
  - apply span_new. easy.
  - intros n HN. split; [easy|]. exists []. split; [|constructor]. cbn [l_comp new_comp c_mem].
    now rewrite (get_new (fun _ => @nil M) has_members) by (auto; unfold has_members; now rewrite K).
  - split; [apply cont_free_nil|easy].
  - easy.
Qed.

(** ** There is nothing else *)
Record tidy (s : lst) : Prop := mk_tidy {
  td_attrs : keys (c_attrs (l_comp s)) = map a_attr (filter has_attr (class_fields c));
  td_mems : keys (c_mem (l_comp s)) = map a_attr (filter has_members (class_fields c));
  td_params : forall k, dict_get k (c_params (l_comp s)) <> None -> In k (flat_map pkeys (class_fields c))
}.
Lemma tidy_off a s s' : In a (converters c) -> off M a s s' -> tidy s -> tidy s'.
Proof.
  intros I O [T1 T2 T3]. apply converters_In in I. split.
  - rewrite (o_keys _ _ _ _ O); [exact T1|]. destruct (has_attr a) eqn:E; [left|now right]. rewrite T1. apply in_map, filter_In. auto.
  - rewrite (o_mkeys _ _ _ _ O); [exact T2|]. destruct (has_members a) eqn:E; [left|now right]. rewrite T2. apply in_map, filter_In. auto.
  - intros k Hk. destruct (in_dec (list_eq_dec N.eq_dec) k (pkeys a)) as [J|J]; [apply in_flat_map; eauto|]. apply T3. now rewrite <- (o_par _ _ _ _ O k J).
Qed.
Lemma tidy_convs l it : (forall a, In a l -> In a (converters c)) -> forall s s' f0 f, tidy s -> populate_convs X M load_m l it s f0 = Ok (s', f) -> tidy s'.
Proof.
  induction l as [|a l IH]; intros HL s s' f0 f T H; cbn [populate_convs] in H; [now injection H as <- _|]. apply bind_Ok in H as ([s1 b] & H1 & H).
  eapply IH; [intros; apply HL; now right| |exact H]. eapply tidy_off; [apply HL; now left|eapply conv_off; eauto|exact T].
Qed.
Lemma tidy_items its : forall s s', c_cls (l_comp s) = c -> tidy s -> populate_items X M load_m its s = Ok s' -> tidy s'.
Proof.
  induction its as [|it its IH]; intros s s' HC T H; cbn [populate_items] in H; [now injection H as <-|]. apply bind_Ok in H as (s1 & H1 & H).
  pose proof H1 as H2. apply populate_item_spec in H2 as (C & _). apply IH with (s := s1); [congruence| |exact H]. unfold populate_item in H1. rewrite HC in H1.
  apply bind_Ok in H1 as ([s2 b] & H1 & H3). apply tidy_convs in H1; [|intros a I; now apply lookup_iff in I|exact T].
  destruct b; injection H3 as <-; [exact H1|]. destruct H1. now split.
Qed.
Lemma tidy_posts l : (forall a, In a l -> In a (converters c)) -> forall s s', tidy s -> post_convs X M l s = Ok s' -> tidy s'.
Proof.
  induction l as [|a l IH]; intros HL s s' T H; cbn [post_convs] in H; [now injection H as <-|]. apply bind_Ok in H as (s1 & H1 & H).
  eapply IH; [intros; apply HL; now right| |exact H]. eapply tidy_off; [apply HL; now left|eapply post_off; eauto|exact T].
Qed.
Lemma tidy_new z : tidy (mk_lst (new_comp X M c) [] sc0 z).
Proof. split; cbn [l_comp]; [apply new_keys|apply new_keys|easy]. Qed.

(** ** Soundness *)
Definition acted (its : list item) : Prop := is_alarm c = true -> exists l, only_lines (py "ACTION") its [l].
Theorem load_sound n its zs' x zs1 : acted its -> zeq X zs zs' -> load_comp X M load_m c n its zs' = Ok (x, zs1) ->
  n = title c /\ reads X zs RM c its x /\ zeq X zs zs1.
Proof.
  intros HA HZ H. unfold load_comp, populate_instance in H. cbn [new_comp c_cls] in H. fold (new_comp X M c) in H.
  destruct (str_eqb n (NAME c)) eqn:EN; [|discriminate]. apply str_eqb_eq in EN. rewrite title_NAME in EN. split; [exact EN|].
  apply bind_Ok in H as (s1 & H1 & H). apply bind_Ok in H as (s2 & H2 & H). injection H as <- <-.
  pose proof (items_parts X M load_m c zs part part_frame part_step part_skip its [] _ _ (part_new zs' HZ) H1) as P1. cbn [app] in P1.
  assert (HH : halfway X M c zs part fin [] its s1). { destruct P1 as (A & B & C). split; [exact A|]. split; [exact B|]. intros a I. split; [easy|auto]. }
  destruct (posts_parts X M c zs part part_frame fin fin_frame part_post its (converters c) [] s1 s2) as (D & (F1 & F2 & F3) & FD); auto.
  { apply pairwise_NoDup, class_pairwise_all. }
  assert (FIN : forall a, In a (converters c) -> fin a its s2) by (intros a I; apply F3; auto). split; [|exact F2].
  assert (tidy s1) as T1 by (eapply tidy_items; [|apply (tidy_new zs')|exact H1]; reflexivity). pose proof (tidy_posts _ (fun a I => I) _ _ T1 H2) as [T2 T3 T4].
  apply populate_items_extra in H1 as (C1 & N1 & us & E1 & U1). apply post_convs_frame in H2 as ([C2 N2 E2] & _).
  split.
  - congruence.
  - rewrite N2, N1. apply title_NAME.
  - rewrite E2, E1. exact U1.
  - intros f I. destruct (single_of X c f I) as (a & IA & KA & SC). specialize (FIN a IA). unfold fin, is_single in *. destruct (a_kind a) as [? [] ? ?| | | |]; try discriminate. auto.
  - intros f I. destruct (multi_of c f I) as (a & IA & KA & SC). specialize (FIN a IA). unfold fin, is_multi in *. destruct (a_kind a) as [? [] ? ?| | | |]; try discriminate. auto.
  - intro E. destruct (span_of c E) as (a & k & IA & KA). specialize (FIN a IA). unfold fin in FIN. now rewrite KA in FIN.
  - intro E. destruct (action_of c E) as (a & IA & KA). specialize (FIN a IA). unfold fin in FIN. rewrite KA in FIN. destruct (HA E) as (l & HL). exists l. split; [exact HL|].
    destruct FIN as [_ FIN]. destruct HL as [HL _]. now rewrite <- HL in FIN.
  - intros a n0 k I. destruct (member_of c a n0 k I) as (b & IB & KB & AB & NB). specialize (FIN b IB). unfold fin in FIN. rewrite KB in FIN. rewrite <- AB. now apply FIN.
  - intros k Hk. apply keys_get in Hk. rewrite T2 in Hk. exact (subset_spec _ _ _ (names_attrs c) Hk).
  - intros k Hk. exact (subset_spec _ _ _ (names_params c) (T4 k Hk)).
  - intros k Hk. apply keys_get in Hk. rewrite T3 in Hk. exact (subset_spec _ _ _ (names_mems c) Hk).
Qed.

(** ** Completeness *)
Hypothesis MC : forall a n k l zs' x, In (a, n, k) (members c) -> zeq X zs zs' -> RM k l x -> exists y zs1, load_m k n l zs' = Ok (y, zs1).
Lemma Forall2_app_middle {A B} (R : A -> B -> Prop) l1 a l2 m : Forall2 R (l1 ++ a :: l2) m -> exists b, R a b.
Proof. intro H. apply Forall2_app_inv_l in H as (m1 & m2 & _ & H & _). inversion H; eauto. Qed.
Lemma part_go its x a pre it post s : reads X zs RM c its x -> In a (converters c) -> named a it -> its = pre ++ it :: post -> c_cls (l_comp s) = c ->
  zeq X zs (l_zones s) -> part a pre s -> exists s' b, populate_conv X M load_m a it s = Ok (s', b).
Proof.
  intros HR I A EI HC HZ HP. unfold part in HP. unfold populate_conv. unfold named in A. destruct (a_kind a) as [convs [] r st|k|k| |] eqn:K.
  - destruct (conv_multi c a I) as (f & IF & SC); [unfold is_multi; now rewrite K|]. specialize (HP f SC). rewrite (mv_names _ _ SC) in A. destruct A as [A|[]].
    destruct (rd_many _ _ _ _ _ _ HR f IF) as (ls & vs & qs & HL & HV & _). rewrite EI in HL. destruct (only_middle _ _ _ _ _ HL (eq_sym A)) as (l & -> & NL & -> & _).
    apply lines_read_middle in HV as (vs' & qs' & HV). destruct (many_go X M zs f a pre l s vs' qs' convs SC) as (s' & E); eauto. rewrite E. cbn [bind]. eauto.
  - destruct (conv_single X c a I) as (f & IF & SC); [unfold is_single; now rewrite K|]. specialize (HP f SC). rewrite (sv_names _ _ _ _ SC) in A. destruct A as [A|[]].
    destruct (rd_one _ _ _ _ _ _ HR f IF) as (ls & HL & HV). rewrite EI in HL. destruct (only_middle _ _ _ _ _ HL (eq_sym A)) as (l & -> & NL & -> & HO).
    destruct (lines (g_name f) pre) as [|y ys]; [|exfalso; cbn [app] in HV; destruct (ys ++ l :: lines (g_name f) post) eqn:E; [now destruct ys|contradiction]].
    cbn [app] in HV. destruct (lines (g_name f) post); [|contradiction]. destruct HV as (t & v & w & rest & H1 & H2 & H3 & _).
    destruct (one_go X M c zs f a pre l s t v w rest convs st SC) as (s' & E); eauto. rewrite E. cbn [bind]. eauto.
  - destruct (conv_span c a k I K) as (HE & -> & _ & AN). rewrite AN in A. pose proof (rd_span _ _ _ _ _ _ HR HE) as HS.
    assert (exists l, it = ILine l) as (l & ->).
    { apply span_read_all in HS; [|exact HE]. destruct HS as (p & b & e1 & e2 & d & R1 & R2 & R3 & R4 & _).
      assert (G : forall n ls, only_lines n its ls -> item_name it = n -> exists l, it = ILine l).
      { intros n ls HL EN. rewrite EI in HL. destruct (only_middle _ _ _ _ _ HL EN) as (l & -> & _). eauto. }
      destruct A as [A|[A|[A|[A|[]]]]]; [destruct R1 as (ls & HL & _)|destruct R2 as (ls & HL & _)|destruct R3 as (ls & HL & _)|destruct R4 as (ls & HL & _)]; eapply G; eauto. }
    rewrite EI in HS. destruct (span_go X M zs c HE pre l post s x A HZ HP HS) as (s' & ->). cbn [bind]. eauto.
  - destruct (conv_member c a k I K) as (n & IM & AN). rewrite AN in A. destruct A as [A|[]]. destruct (rd_members _ _ _ _ _ _ HR _ _ _ IM) as (NL & ms & _ & HF).
    destruct it as [l|m sub]; cbn in A.
    + exfalso. apply (NL l); [rewrite EI; apply in_app_iff; right; now left|congruence].
    + subst m. rewrite EI in HF. change (ICont n sub :: post) with ([ICont n sub] ++ post) in HF. rewrite !subs_app in HF. cbn [subs flat_map] in HF. rewrite str_eqb_refl in HF. cbn [app] in HF.
      apply Forall2_app_middle in HF as (y & HY). destruct (MC _ _ _ _ (l_zones s) _ IM HZ HY) as (z & zs1 & ->). cbn [bind]. eauto.
  - destruct (conv_action c a I K) as [EA AN]. rewrite AN in A. destruct A as [A|[]]. destruct (rd_action _ _ _ _ _ _ HR EA) as (l & HL & HC2 & _). rewrite EI in HL.
    destruct (only_middle _ _ _ _ _ HL (eq_sym A)) as (l' & -> & NL & EL & _).
    assert (l' = l) as ->. { destruct (lines (py "ACTION") pre) as [|y ys]; [now injection EL as <-|]. injection EL as _ EL. now destruct ys. }
    unfold populate_action. rewrite HC. apply type_from_action_iff in HC2. rewrite HC2. assert (cls_eqb c c = true) as -> by now destruct c. cbn [bind]. eauto.
  - destruct it; eauto.
Qed.
Lemma part_post_go its x a s : reads X zs RM c its x -> In a (converters c) -> part a its s -> exists s', post_conv X M a s = Ok s'.
Proof.
  intros HR I HP. unfold part in HP. destruct (a_kind a) as [convs [] r st|k|k| |] eqn:K.
  - destruct (conv_multi c a I) as (f & IF & SC); [unfold is_multi; now rewrite K|]. eapply many_post_go; eauto.
  - destruct (conv_single X c a I) as (f & IF & SC); [unfold is_single; now rewrite K|]. eapply one_post_go; eauto. now apply (rd_one _ _ _ _ _ _ HR).
  - destruct (conv_span c a k I K) as (HE & -> & _ & AN). eapply span_post_go; eauto. now apply (rd_span _ _ _ _ _ _ HR).
  - unfold post_conv. rewrite K. eauto.
  - unfold post_conv. rewrite K. eauto.
  - unfold post_conv. rewrite K. eauto.
Qed.
Theorem load_complete its zs' x : zeq X zs zs' -> reads X zs RM c its x -> exists y zs1, load_comp X M load_m c (title c) its zs' = Ok (y, zs1).
Proof.
  intros HZ HR. unfold load_comp, populate_instance. change (c_cls (new_comp X M c)) with c. rewrite <- (title_NAME c), str_eqb_refl.
  destruct (items_go X M load_m c zs part part_frame part_step part_skip its) with (its := its) (pre := @nil item) (s := mk_lst (new_comp X M c) [] sc0 zs') as (s1 & H1); auto.
  { intros. eapply part_go; eauto. } { now apply part_new. }
  rewrite H1. cbn [bind]. pose proof (items_parts X M load_m c zs part part_frame part_step part_skip its [] _ _ (part_new zs' HZ) H1) as P1. cbn [app] in P1.
  destruct (posts_go X M c zs part part_frame its fin fin_frame part_post) with (l := converters c) (D := @nil aconv) (s := s1) as (s2 & H2); auto.
  { intros. eapply part_post_go; eauto. } { apply pairwise_NoDup, class_pairwise_all. }
  { destruct P1 as (A & B & C). split; [exact A|]. split; [exact B|]. intros a I. split; [easy|auto]. }
  rewrite H2. cbn [bind]. eauto.
Qed.
End Comp.
