(** * Proofs for C71: what has been read so far *)
From Verif Require Import M_Base M_Text M_Line M_Codec M_Cal M_Time M_Span M_Dt M_Tree M_Comp M_Merge M_Fail.
From Verif Require Import S_Text S_Codec S_Dt S_Comp S_Multi S_Reorder P_Base P_Text P_Comp P_Cat P_Frame P_Whole P_Keep P_Local P_Reorder P_ReadGen S_Read P_Value P_ReadVal P_ReadSpan P_Read P_ReadAll S_Merge P_Merge S_Fail P_Fail.
From Coq Require Import Lia ZifyBool ZifyNat ZifyN.
Open Scope N_scope.

Section Fail.
Variable X : ext.
Variable M : Type.
Variable load_m : mkind -> list N -> list item -> zones -> res (M * zones).
Variable x0 : comp M.
Let c := c_cls x0.
Variable zs : zones.
Variable RM : mkind -> list item -> M -> Prop.
Hypothesis MS : forall a n k l zs' x zs1, In (a, n, k) (members c) -> zeq X zs zs' -> load_m k n l zs' = Ok (x, zs1) -> RM k l x /\ zeq X zs zs1.
Hypothesis MZ : forall k n l z x z1, load_m k n l z = Ok (x, z1) -> zeq X z z1.
Local Notation lst := (lst M).

Lemma values_keep a cv vals : forall ps (s s' : lst), populate_values X a cv vals ps s = Ok s' -> zeq X (l_zones s) (l_zones s').
Proof.
  induction vals as [|w vals IH]; intros ps s s' H; cbn [populate_values] in H; [injection H as <-; apply zeq_refl|]. apply bind_Ok in H as ([[v ps'] z] & HV & H). apply vparse_zones in HV as [Z _].
  apply bind_Ok in H as (x1 & _ & H). apply bind_Ok in H as (x2 & _ & H). apply IH in H. cbn [l_zones] in H. eapply zeq_trans; eauto.
Qed.
Lemma conv_keep a it s s' b : populate_conv X M load_m a it s = Ok (s', b) -> zeq X (l_zones s) (l_zones s').
Proof.
  unfold populate_conv. destruct (a_kind a) as [convs [] r s0|k|m| |], it as [l|n its]; intro H; try discriminate.
  - apply bind_Ok in H as (s1 & H & [= <- _]). unfold populate_multi in H. apply bind_Ok in H as ([ps cv] & _ & H). apply bind_Ok in H as (vals & _ & H). now apply values_keep in H.
  - apply bind_Ok in H as (s1 & H & [= <- _]). unfold populate_single in H. destruct (Nat.ltb _ _); [discriminate|]. apply bind_Ok in H as ([ps cv] & _ & H).
    apply bind_Ok in H as ([[v ps'] z] & HV & H). apply bind_Ok in H as (v' & _ & [= <-]). now apply vparse_zones in HV as [Z _].
  - apply bind_Ok in H as (s1 & H & [= <- _]). rewrite populate_span_step in H. apply bind_Ok in H as ([[[key q] sc1] z] & HV & [= <-]). now apply span_step_loc in HV as [Z _].
  - apply bind_Ok in H as ([x z] & HV & [= <- _]). now apply MZ in HV.
  - apply bind_Ok in H as (s1 & H & [= <- _]). unfold populate_action in H. destruct (cls_eqb _ _); [|discriminate]. injection H as <-. apply zeq_refl.
  - injection H as <- _. apply zeq_refl.
  - injection H as <- _. apply zeq_refl.
Qed.

(** ** The action of an alarm *)
Definition said (its : list item) (x : comp M) : Prop :=
  cont_free (py "ACTION") its /\ Forall (fun l => action_class (cl_value l) c) (lines (py "ACTION") its) /\
  dict_get (py "ACTION") (c_params x) = fold_left (fun old l => over (cl_params l) old) (lines (py "ACTION") its) (dict_get (py "ACTION") (c_params x0)).
Definition act (a : aconv) (its : list item) (s : lst) : Prop := a_kind a = KAction -> said its (l_comp s).
Lemma act_same a its s t : In a (converters c) -> at_same M a s t -> act a its s -> act a its t.
Proof.
  intros _ A H K. destruct (H K) as (H1 & H2 & H3). split; [exact H1|]. split; [exact H2|]. rewrite <- H3. symmetry. apply (as_par _ _ _ _ A). unfold pkeys. rewrite K. now left.
Qed.
Lemma act_skip a pre it s : In a (converters c) -> ~ named a it -> act a pre s -> act a (pre ++ [it]) s.
Proof.
  intros I NN H K. destruct (H K) as (H1 & H2 & H3). destruct (conv_action c a I K) as [_ NA]. unfold named in NN. rewrite NA in NN.
  destruct (lines_other (py "ACTION") it) as [E F]; [intro; apply NN; now left|]. unfold said. rewrite lines_app, E, app_nil_r. split; [now apply cont_free_app|]. now split.
Qed.
Lemma act_step a pre it s s' b : In a (converters c) -> named a it -> c_cls (l_comp s) = c -> zeq X zs (l_zones s) -> act a pre s ->
  populate_conv X M load_m a it s = Ok (s', b) -> act a (pre ++ [it]) s' /\ zeq X zs (l_zones s').
Proof.
  intros I NN HC HZ HA H. split.
  - intros K. destruct (HA K) as (H1 & H2 & H3). destruct (conv_action c a I K) as [_ NA]. unfold named in NN. rewrite NA in NN. destruct NN as [NN|[]].
    unfold populate_conv in H. rewrite K in H. destruct it as [l|]; [|discriminate]. cbn [item_name] in NN. apply bind_Ok in H as (s1 & H & [= <- _]).
    unfold populate_action in H. destruct (cls_eqb _ _) eqn:EC; [|discriminate]. injection H as <-. cbn [l_comp]. rewrite HC in EC. assert (EC' : type_from_action (cl_value l) = c) by (destruct c, (type_from_action (cl_value l)); congruence || discriminate EC).
    assert (EL : lines (py "ACTION") [ILine l] = [l]) by (rewrite NN; apply lines_here). unfold said. rewrite lines_app, EL. split; [|split].
    + apply cont_free_app. split; [exact H1|]. intros w [J|[]]. discriminate.
    + apply Forall_app. split; [exact H2|]. constructor; [|constructor]. now apply type_from_action_iff.
    + rewrite fold_left_app, <- H3. cbn [fold_left]. unfold over. rewrite store_get, str_eqb_refl. reflexivity.
  - apply conv_keep in H. eapply zeq_trans; eauto.
Qed.

(** ** Nothing is counted for a time span *)
Lemma conv_uncount k a it s s' b : In a (converters c) -> ~ In k (map g_attr (singles c) ++ map h_attr (multiples c)) ->
  populate_conv X M load_m a it s = Ok (s', b) -> cnt k (l_count s') = cnt k (l_count s).
Proof.
  intros IA NK H. destruct (sdec k (py "timespan")) as [->|NE].
  - pose proof (conv_off _ _ _ _ _ _ _ _ H) as O. unfold populate_conv in H. destruct (a_kind a) as [convs m r s0|j|m| |] eqn:K.
    + unfold cnt. rewrite (o_count _ _ _ _ O); [reflexivity|]. intros E. apply NK. rewrite E, in_app_iff. destruct m.
      * right. destruct (conv_multi c a IA) as (f & I & [V _ _]); [unfold is_multi; now rewrite K|]. rewrite V. now apply in_map.
      * left. destruct (conv_single X c a IA) as (f & I & [V _ _]); [unfold is_single; now rewrite K|]. rewrite V. now apply in_map.
    + destruct it as [l|]; [|discriminate]. apply bind_Ok in H as (s1 & H & [= <- _]). unfold populate_span in H. destruct (existsb _ _); [discriminate|].
      destruct (str_eqb _ (py "DURATION")); [apply bind_Ok in H as (d & _ & [= <-]); reflexivity|].
      apply bind_Ok in H as ([[[p d] ps2] zs'] & _ & H). apply bind_Ok in H as (u & _ & H). destruct (str_eqb _ (py "DTSTART")); injection H as <-; reflexivity.
    + destruct it as [|n its]; [discriminate|]. apply bind_Ok in H as ([x zs'] & _ & [= <- _]). reflexivity.
    + destruct it as [l|]; [|discriminate]. apply bind_Ok in H as (s1 & H & [= <- _]). unfold populate_action in H. destruct (cls_eqb _ _); [|discriminate]. now injection H as <-.
    + destruct it; injection H as <- _; reflexivity.
  - eapply (conv_nocount X M load_m x0); eauto. unfold S_Read.attr_names. rewrite app_assoc, in_app_iff. intros [I|I]; [contradiction|]. destruct (is_entry (c_cls x0)); [|contradiction]. destruct I as [I|[]]. congruence.
Qed.
Lemma items_uncount k its : ~ In k (map g_attr (singles c) ++ map h_attr (multiples c)) -> forall s s', c_cls (l_comp s) = c -> populate_items X M load_m its s = Ok s' -> cnt k (l_count s') = cnt k (l_count s).
Proof.
  intro NK. induction its as [|it its IH]; intros s s' HC H; cbn [populate_items] in H; [now injection H as <-|]. apply bind_Ok in H as (s1 & H1 & H).
  rewrite (IH s1 s'); [|rewrite (item_cls X M load_m it _ _ H1); exact HC|exact H]. unfold populate_item in H1. apply bind_Ok in H1 as ([s2 b] & H2 & H1). rewrite HC in H2.
  assert (E : forall l, (forall a, In a l -> In a (converters c)) -> forall s s' b0 b, populate_convs X M load_m l it s b0 = Ok (s', b) -> cnt k (l_count s') = cnt k (l_count s)).
  { induction l as [|a l IHl]; intros HL u u' v v' Q; cbn [populate_convs] in Q; [now injection Q as <- _|]. apply bind_Ok in Q as ([u1 v1] & Q1 & Q).
    rewrite (IHl (fun b I => HL b (or_intror I)) _ _ _ _ Q). eapply conv_uncount; eauto. apply HL. now left. }
  rewrite <- (E _ (fun a I => proj1 (proj1 (lookup_iff c _ a) I)) _ _ _ _ H2). destruct b; injection H1 as <-; reflexivity.
Qed.

(** ** So far *)
Variable zs0 : zones.
Hypothesis Z0 : zeq X zs zs0.
Local Notation start x := (mk_lst x [] sc0 zs0).
Lemma over_get (t : comp M) k rest old : params_are t k rest -> match dict_get k (c_params t) with Some p => Some p | None => old end = over rest old.
Proof. unfold params_are, over. intros ->. now destruct rest. Qed.
Theorem sofar_items its s t : mergeable x0 -> populate_items X M load_m its (start x0) = Ok s -> populate_items X M load_m its (start (new_comp X M c)) = Ok t -> P_Merge.sim M x0 s t ->
  sofar X zs RM x0 its (l_comp s) /\ zeq X zs (l_zones t) /\ all_parts X M c zs (part X M c zs RM) its t.
Proof.
  intros HM HS HT [C EN ES EZ].
  pose proof (items_parts X M load_m c zs _ (part_frame X M c zs RM) (part_step X M load_m c zs RM MS) (part_skip X M c zs RM) its [] _ _ (part_new X M c zs RM zs0 Z0) HT) as P. cbn [app] in P.
  assert (PA : all_parts X M c zs act its s).
  { apply (items_parts X M load_m c zs act act_same act_step act_skip its [] (start x0)); [|exact HS]. split; [reflexivity|]. split; [exact Z0|]. intros a I K. split; [intros l []|]. split; [constructor|reflexivity]. }
  assert (T : tidy M c t) by (eapply tidy_items; [|apply tidy_new|exact HT]; reflexivity).
  destruct P as (P1 & P2 & P3) eqn:EP. clear EP. split; [|split; [exact P2|split; [exact P1|split; [exact P2|exact P3]]]].
  destruct C as [A1 A2 A3 A4 A5 A6 A7 A8 A9]. fold c in A1, A4, A5, A6, A7, A8, A9. constructor; fold c.
  - apply A1.
  - exact A2.
  - apply populate_items_extra in HS as (_ & _ & us & HE & HU). exists us. split; [exact HU|exact HE].
  - intros f I k. destruct (single_of X c f I) as (a & J & SA & SC). pose proof SC as [V1 V2 (convs & r & s0 & V3 & _)]. pose proof (sep_fields c a (proj1 (converters_In a c) J)) as Q. rewrite V3 in Q.
    destruct Q as (Q1 & Q2 & Q3). specialize (P3 a J). unfold part in P3. rewrite V3 in P3. destruct (P3 f SC) as (ls & HL & HP). exists ls. split; [exact HL|].
    unfold a_key in Q2. rewrite V1 in Q1, Q2. destruct (A5 _ Q1) as [B1 B2]. specialize (A6 _ Q2). fold k in A6. rewrite EN in B1, B2.
    destruct ls as [|l [|]]; [| |contradiction].
    + destruct HP as (_ & H2 & H3). split; [apply B1; exact H3|]. rewrite A6. now rewrite (over_get _ _ _ _ H2).
    + destruct HP as (ty & v & w & rest & H1 & H2 & H3 & H4 & H5 & H6). exists ty, v, w, rest. repeat (split; [assumption|]). split.
      * rewrite B2, H4; [reflexivity|]. change (count (g_attr f) t <> 0%nat). rewrite H6. discriminate.
      * rewrite A6. now apply over_get.
  - intros f I k. destruct (multi_of c f I) as (a & J & SA & SC). pose proof SC as [V1 V2 (convs & V3 & _)]. specialize (P3 a J). unfold part in P3. rewrite V3 in P3.
    destruct (P3 f SC) as (ls & vs & qs & HL & HR & H1 & H2). destruct (A4 (h_attr f)) as (old & new & E0 & E1 & E2); [apply (MA_multi M x0); eauto|]. exists ls, vs, qs, old.
    rewrite H1 in E1. injection E1 as <-. repeat (split; [assumption|]). destruct (A7 k) as [B1 B2]; [apply (MK_multi M x0); unfold k; eauto|]. fold k in H2. rewrite H2 in B2. destruct qs; exact B2.
  - intros a n k I. destruct (member_of c a n k I) as (b & J & KB & AB & NB). specialize (P3 b J). unfold part in P3. rewrite KB in P3. destruct (P3 n NB) as (H1 & ms & H2 & H3). split; [exact H1|].
    destruct (A8 a) as (old & new & E0 & E1 & E2); [apply (MM_member M x0), in_map_iff; now exists (a, n, k)|]. rewrite AB, E1 in H2. injection H2 as ->. eauto.
  - intro IE. destruct (span_of c IE) as (a & k & J & KA). specialize (P3 a J). unfold part in P3. rewrite KA in P3. destruct P3 as (_ & e1 & e2 & H1 & H2 & H3 & _).
    set (p := match sc_prec (l_span t) with Some q => q | None => PSecond end). exists p.
    assert (G : forall n key o, time_read X zs n key its (l_comp t) (sc_prec (l_span t)) o -> ~ In key (MK c) -> exists ls, only_lines n its ls /\
      match ls with
      | [] => dict_get key (c_params (l_comp s)) = dict_get key (c_params x0)
      | [l] => exists d rest, time_value X zs l p d rest /\ dict_get key (c_params (l_comp s)) = over rest (dict_get key (c_params x0))
      | _ => False
      end).
    { intros n key o (ls & HL & HP) NK. exists ls. split; [exact HL|]. destruct ls as [|l [|]]; [| |contradiction].
      - destruct HP as [_ HP]. rewrite (A6 _ NK). now rewrite (over_get _ _ _ _ HP).
      - destruct HP as (q & d & rest & V & E & _ & HP). exists d, rest. unfold p. rewrite E. split; [exact V|]. rewrite (A6 _ NK). now apply over_get. }
    intros n key I. cbn [times In] in I. destruct I as [[= <- <-]|[[= <- <-]|[[= <- <-]|[]]]]; eapply G; eauto; apply sep_keys; cbn [In]; tauto.
  - intros IE k. destruct (span_of c IE) as (a & kk & J & KA). specialize (P3 a J). unfold part in P3. rewrite KA in P3. destruct P3 as (_ & e1 & e2 & _ & _ & _ & (ls & HL & HP) & _).
    assert (NK : ~ In k (MK c)) by (apply sep_keys; cbn [In]; tauto). exists ls. split; [exact HL|]. destruct ls as [|l [|]]; [| |contradiction].
    + destruct HP as [_ HP]. rewrite (A6 _ NK). now rewrite (over_get _ _ _ _ HP).
    + destruct HP as (secs & V1 & V2 & _ & HP). split; [eauto|]. rewrite (A6 _ NK). now apply over_get.
  - intros IE k. destruct (action_of c IE) as (a & J & KA). destruct PA as (_ & _ & PA). destruct (PA a J KA) as (H1 & H2 & H3). exists (lines k its). split; [now split|]. now split.
  - intros k NK. assert (NM : ~ In k (MA c)). { intro I. apply (MA_multi M x0) in I as (f & I & ->). apply NK. rewrite in_app_iff. right. now apply in_map. }
    apply (proj1 (A5 k NM)). now rewrite (items_uncount k its NK (start x0) s eq_refl HS).
  - intros k NK. assert (NM : ~ In k (MK c)).
    { intro I. apply (MK_multi M x0) in I as (f & I & ->). apply NK. unfold param_names. rewrite !in_app_iff. right. left. now apply (in_map (fun f => upper (h_attr f))). }
    rewrite (A6 k NM). destruct (dict_get k (c_params (l_comp t))) eqn:E; [|reflexivity]. exfalso. apply NK. apply (subset_spec _ _ _ (names_params c)), (td_params _ _ _ T). congruence.
  - intros k NK. apply A9. intro I. now apply NK, (MM_member M x0).
Qed.
End Fail.
