(** * Proofs for C71: what the item that cannot be read still changes *)
From Verif Require Import M_Base M_Text M_Line M_Codec M_Cal M_Time M_Span M_Dt M_Tree M_Comp M_Merge M_Fail.
From Verif Require Import S_Text S_Codec S_Dt S_Comp S_Multi S_Reorder P_Base P_Text P_Multi P_Comp P_Cat P_Frame P_Whole P_Keep P_Local P_Reorder P_ReadGen S_Read P_Value P_ReadVal P_ReadSpan P_Read P_ReadAll S_Merge P_Merge S_Fail P_Fail P_Fail3.
From Coq Require Import Lia ZifyBool ZifyNat ZifyN.
Open Scope N_scope.

(** ** The converters of a name *)
Definition custom_field : aconv := one_of (py "_action") (py "ACTION") [Text] SPlain.
Definition other (n : list N) : bool := negb (str_eqb n (py "ACTION")).
Lemma names_once c : NoDup (filter other (flat_map a_names (converters c))).
Proof. apply distinctb_spec. destruct c; vm_compute; reflexivity. Qed.
Lemma lookup_le n l : n <> py "ACTION" -> NoDup (filter other (flat_map a_names l)) -> (length (filter (fun a => existsb (str_eqb n) (a_names a)) l) <= 1)%nat.
Proof.
  intros NA. induction l as [|a l IH]; [cbn; lia|]. cbn [flat_map filter]. rewrite filter_app. intro ND.
  assert (ND2 : NoDup (filter other (flat_map a_names l))) by (clear -ND; induction (filter other (a_names a)) as [|x m IHm]; [exact ND|]; cbn [app] in ND; inversion ND; auto).
  destruct (existsb (str_eqb n) (a_names a)) eqn:E; [|auto]. apply existsb_str in E. cbn [length].
  destruct (filter (fun a0 => existsb (str_eqb n) (a_names a0)) l) as [|b r] eqn:F; [cbn; lia|]. exfalso.
  assert (I : In b (filter (fun a0 => existsb (str_eqb n) (a_names a0)) l)) by (rewrite F; now left). apply filter_In in I as [I J]. apply existsb_str in J.
  assert (O : other n = true) by (unfold other; now rewrite (proj2 (str_eqb_neq _ _) NA)).
  assert (I1 : In n (filter other (a_names a))) by (now apply filter_In).
  assert (I2 : In n (filter other (flat_map a_names l))) by (apply filter_In; split; [apply in_flat_map; eauto|exact O]).
  clear -ND I1 I2. induction (filter other (a_names a)) as [|x m IHm]; [easy|]. cbn [app] in ND. inversion ND as [|? ? N1 N2]; subst. destruct I1 as [->|I1]; [apply N1, in_app_iff; now right|auto].
Qed.
Lemma lookup_action c : lookup c (py "ACTION") = match c with CCustom => [action_field; custom_field] | _ => if is_alarm c then [action_field] else [] end.
Proof. destruct c; vm_compute; reflexivity. Qed.
Lemma lookup_shape c n : lookup c n = [] \/ (exists a, lookup c n = [a]) \/ c = CCustom /\ n = py "ACTION" /\ lookup c n = [action_field; custom_field].
Proof.
  destruct (str_eqb n (py "ACTION")) eqn:E.
  - apply str_eqb_eq in E as ->. rewrite lookup_action. destruct c; cbn [is_alarm]; eauto 8.
  - apply str_eqb_neq in E. pose proof (lookup_le n (converters c) E (names_once c)) as L. fold (lookup c n) in L.
    destruct (lookup c n) as [|a [|b r]]; [now left|right; left; now exists a|cbn in L; lia].
Qed.
Lemma custom_rule f : In f (singles CCustom) -> g_name f = py "ACTION" -> g_rule f = Plain.
Proof. cbn [singles alarm_singles app In]. intros I E. repeat (destruct I as [<-|I]; [first [reflexivity|discriminate E]|]). contradiction. Qed.

Section Fail.
Variable X : ext.
Variable M : Type.
Variable load_m : mkind -> list N -> list item -> zones -> res (M * zones).
Variable x0 : comp M.
Let c := c_cls x0.
Variable zs : zones.
Variable RM : mkind -> list item -> M -> Prop.
Local Notation lst := (lst M).
Local Notation sim := (P_Merge.sim M x0).
Local Notation part := (part X M c zs RM).

(** ** One value *)
Lemma single_stop f a convs r st pre l (s t s' : lst) e : single_conv X c f a -> a_kind a = KVal convs false r st -> l_count s = l_count t -> one_part X M c zs f a pre t -> zeq X zs (l_zones s) ->
  single_out X M a convs st l s = (s', Err e) ->
  (l_comp s' = l_comp s /\ forall ty v rest, lines (g_name f) pre = [] -> typed (g_types f) (cl_params l) ty ->
     denotes X zs ty (cl_value l) (dict_del (py "VALUE") (cl_params l)) v rest -> (forall w, ~ kept X (g_rule f) v w) -> False) \/
  exists ty v rest, lines (g_name f) pre = [] /\ typed (g_types f) (cl_params l) ty /\ denotes X zs ty (cl_value l) (dict_del (py "VALUE") (cl_params l)) v rest /\ (forall w, ~ kept X (g_rule f) v w) /\
    l_comp s' = store_params (upper (g_attr f)) rest (l_comp s) /\
    forall ty' v' rest', typed (g_types f) (cl_params l) ty' -> denotes X zs ty' (cl_value l) (dict_del (py "VALUE") (cl_params l)) v' rest' -> rest' = rest.
Proof.
  intros [SA SN (convs' & r' & st' & SK & ST & SO & _)] K EC (ls & [HL _] & HP) HZ H. rewrite K in SK. injection SK as <- <- <-.
  unfold single_out, first in H. rewrite SA in H. destruct (Nat.ltb 0 (count (g_attr f) s)) eqn:EN.
  - injection H as <- _. left. split; [reflexivity|]. intros ty v rest E _ _ _. apply Nat.ltb_lt in EN. unfold count in *. rewrite EC in EN. rewrite E in HL. subst ls. destruct HP as (_ & _ & HP). lia.
  - apply Nat.ltb_ge in EN.
    assert (EL : lines (g_name f) pre = []).
    { unfold count in EN. rewrite EC in EN. rewrite <- HL. destruct ls as [|l0 [|]]; [reflexivity| |contradiction]. destruct HP as (? & ? & ? & ? & _ & _ & _ & _ & _ & HP). unfold count in HP. lia. }
    destruct (prepare_params convs (cl_params l)) as [[q ty]|e'] eqn:EP.
    2: { injection H as <- _. left. split; [reflexivity|]. intros ty v rest _ HT _ _. rewrite (proj2 (typed_iff _ _ _ _ _ ST) (conj HT eq_refl)) in EP. discriminate. }
    apply (typed_iff _ _ _ _ _ ST) in EP as [HT ->].
    assert (DT : forall ty' v' rest', typed (g_types f) (cl_params l) ty' -> denotes X zs ty' (cl_value l) (dict_del (py "VALUE") (cl_params l)) v' rest' ->
      exists z, vparse X ty (cl_value l) (dict_del (py "VALUE") (cl_params l)) (l_zones s) = Ok (v', rest', z)).
    { intros ty' v' rest' HT' HD. pose proof (typed_det _ _ _ _ _ ST HT HT') as <-. destruct (denotes_read X zs (l_zones s) _ _ _ _ _ HZ HD) as (z & E & _). eauto. }
    destruct (vparse X ty _ _ _) as [[[v rest] z]|e'] eqn:EV.
    2: { injection H as <- _. left. split; [reflexivity|]. intros ty' v rest _ HT' HD _. destruct (DT _ _ _ HT' HD) as (z & E). discriminate. }
    apply (read_denotes X zs) in EV as [HD _]; [|exact HZ]. destruct (apply_set X st v) as [w|e'] eqn:ES; [discriminate|]. injection H as <- _. right. exists ty, v, rest.
    split; [exact EL|]. split; [exact HT|]. split; [exact HD|]. split; [|split].
    + intros w HK. apply (kept_iff X zs convs st (g_rule f) ty _ _ _ _ _ SO (typed_In _ _ _ _ ST HT) HD) in HK. congruence.
    + cbn [l_comp]. unfold a_key. now rewrite SA.
    + intros ty' v' rest' HT' HD'. destruct (DT _ _ _ HT' HD') as (z' & E). congruence.
Qed.

(** ** The record *)
Lemma no_list_alone n (a : aconv) it f l : (forall b, In b (converters c) -> In n (a_names b) -> b = a) -> item_name it = n -> list_of c it f l -> multi_conv f a /\ is_multi a = true.
Proof.
  intros U EN (I & -> & E). destruct (multi_of c f I) as (b & J & K & MC). cbn [item_name] in EN. assert (b = a) as -> by (apply U; [exact J|]; rewrite (mv_names _ _ MC); left; congruence). now split.
Qed.
Theorem stopped_item pre it (s t s' : lst) e : sim s t -> all_parts X M c zs part pre t -> item_out X M load_m it s = (s', Err e) -> stopped X zs pre it (l_comp s) (l_comp s').
Proof.
  intros HS (P1 & P2 & P3) H. pose proof HS as [C EN ES EZ]. assert (HC : c_cls (l_comp s) = c) by apply C. assert (HZ : zeq X zs (l_zones s)) by (now rewrite EZ).
  unfold item_out in H. rewrite HC in H. destruct (convs_out X M load_m (lookup c (item_name it)) it s false) as [s1 [[]|e']] eqn:HO; [discriminate|discriminate|]. injection H as -> ->.
  destruct (lookup_shape c (item_name it)) as [E|[(a & E)|(EC & EA & E)]]; rewrite E in HO; cbn [convs_out] in HO.
  - discriminate.
  - assert (HA : conv_out X M load_m a it s = (s', Err e)). { destruct (conv_out X M load_m a it s) as [s1 [b|e']]; [discriminate|exact HO]. } clear HO.
    assert (IA : In a (lookup c (item_name it))) by (rewrite E; now left). unfold lookup in IA. apply filter_In in IA as [IA NA]. apply existsb_str in NA.
    assert (U : forall b, In b (converters c) -> In (item_name it) (a_names b) -> b = a).
    { intros b I J. assert (K : In b (lookup c (item_name it))) by (apply filter_In; split; [exact I|now apply existsb_str]). rewrite E in K. now destruct K as [<-|[]]. }
    assert (UL : forall f l, list_of c it f l -> multi_conv f a /\ is_multi a = true) by (intros f l HL; eapply no_list_alone; eauto).
    assert (U1 : forall f l, In f (singles c) -> it = ILine l -> cl_name l = g_name f -> single_conv X c f a /\ is_single a = true).
    { intros f l I -> EF. destruct (single_of X c f I) as (b & J & K & SC). assert (b = a) as -> by (apply U; [exact J|]; rewrite (sv_names _ _ _ _ SC); left; exact (eq_sym EF)). now split. }
    assert (U2 : forall l, is_entry c = true -> it = ILine l -> cl_name l = py "DURATION" -> exists k, a_kind a = KSpan k).
    { intros l IE -> EF. destruct (span_of c IE) as (b & k & J & K). rewrite <- (U b J); [eauto|]. destruct (conv_span c b k J K) as (_ & _ & _ & ->). cbn [item_name]. rewrite EF. vm_compute. tauto. }
    assert (U3 : forall l, c = CCustom -> it = ILine l -> cl_name l = py "ACTION" -> False).
    { intros l EC -> EF. cbn [item_name] in E. rewrite EC, EF, lookup_action in E. discriminate. }
    assert (QUIET : is_multi a = false -> (forall k, a_kind a <> KSpan k) -> is_single a = false -> l_comp s' = l_comp s -> stopped X zs pre it (l_comp s) (l_comp s')).
    { intros Q1 Q2 Q3 ->. constructor; try reflexivity; rewrite HC.
      - intros f l HL. destruct (UL f l HL). congruence.
      - intros k ps HLO. exfalso. inversion HLO; subst.
        + destruct (U1 f l) as [_ K]; auto. congruence.
        + destruct (U2 l) as (k & K); auto. now apply Q2 in K.
        + eapply U3; eauto. }
    specialize (P3 a IA). unfold P_Read.part in P3. unfold conv_out in HA.
    assert (QI : forall n its, it = ICont n its -> l_comp s' = l_comp s -> stopped X zs pre it (l_comp s) (l_comp s')).
    { intros n its EI ->. constructor; try reflexivity; rewrite HC.
      - intros f l (_ & EL & _). congruence.
      - intros k ps HLO. inversion HLO; subst; discriminate. }
    destruct it as [l|n its].
    2: { eapply QI; [reflexivity|]. destruct (a_kind a) as [convs [] r st|k|m| |]; (destruct (populate_conv X M load_m a (ICont n its) s) as [[s2 b2]|]; [discriminate|injection HA as <- _; reflexivity]). }
    destruct (a_kind a) as [convs [] r st|k|m| |] eqn:K.
    + (* several values *)
      assert (KM : is_multi a = true) by (unfold is_multi; now rewrite K).
      assert (KS : is_single a = false) by (unfold is_single; now rewrite K).
      assert (LS : listed M a (l_comp s)) by (eapply csim_lists; eauto; now apply converters_In).
      destruct (conv_multi c a IA KM) as (f0 & I0 & MC0).
      assert (L0 : list_of c (ILine l) f0 l). { split; [exact I0|]. split; [reflexivity|]. rewrite (mv_names _ _ MC0) in NA. destruct NA as [NA|[]]; exact (eq_sym NA). }
      assert (B : forall f, multi_conv f a -> exists vs qs, begun_most X zs (h_types f) l vs qs /\ grown M a vs qs (l_comp s) (l_comp s')).
      { intros f [V1 V2 (cs & V3 & V4)]. rewrite K in V3. injection V3 as <- _ _. eapply multi_begin; eauto. }
      destruct (B f0 MC0) as (vs0 & qs0 & _ & (old0 & G1 & G2 & G3 & G4 & G5 & G6 & G7 & G8 & G9)).
      assert (NL : forall k ps, ~ left_over X zs c pre (ILine l) k ps).
      { intros k ps HLO. inversion HLO; subst.
        - destruct (U1 f l) as [_ K1]; auto. congruence.
        - destruct (U2 l) as (k & K1); auto. congruence.
        - eapply U3; eauto. }
      constructor; try assumption; rewrite HC.
      * intros f l' HL k. destruct (UL f l' HL) as [MC _]. pose proof HL as (_ & [= <-] & _). destruct (B f MC) as (vs & qs & HB & (old & F1 & F2 & F3 & _)).
        unfold a_key in F3. rewrite (mv_attr _ _ MC) in *. exists old, vs, qs. auto.
      * intros k HK. apply G4. rewrite (mv_attr _ _ MC0). eapply HK; eauto.
      * intros k ps HLO. now apply NL in HLO.
      * intros k HK _. apply G5. unfold a_key. rewrite (mv_attr _ _ MC0). eapply HK; eauto.
    + (* one value *)
      assert (KS : is_single a = true) by (unfold is_single; now rewrite K). destruct (conv_single X c a IA KS) as (f & I & SC).
      assert (NL : forall f l', ~ list_of c (ILine l) f l'). { intros f' l' HL. destruct (UL f' l' HL) as [_ K1]. unfold is_multi in K1. rewrite K in K1. discriminate. }
      assert (EF : cl_name l = g_name f). { rewrite (sv_names _ _ _ _ SC) in NA. destruct NA as [NA|[]]; exact (eq_sym NA). }
      assert (LO : forall k ps, left_over X zs c pre (ILine l) k ps -> exists f' ty v, single_conv X c f' a /\ k = upper (g_attr f') /\ lines (g_name f') pre = [] /\ typed (g_types f') (cl_params l) ty /\
        denotes X zs ty (cl_value l) (dict_del (py "VALUE") (cl_params l)) v ps /\ (forall w, ~ kept X (g_rule f') v w)).
      { intros k ps HLO. inversion HLO as [f' l' ty v rest I' EF' EL HT HD HK|l' IE EF' _|l' EC EF' HAC]; subst.
        - destruct (U1 f' l) as [SC0 _]; auto. exists f', ty, v. repeat (split; [first [assumption|reflexivity]|]). exact HK.
        - destruct (U2 l) as (k & K1); auto. congruence.
        - exfalso. eapply U3; eauto. }
      constructor; rewrite ?HC.
      1-4: destruct (single_stop f a convs r st pre l s t s' e SC K EN (P3 f SC) HZ HA) as [(E1 & _)|(ty & v & rest & _ & _ & _ & _ & E1 & _)]; rewrite E1; [first [exact HC|reflexivity]|destruct rest; first [exact HC|reflexivity]].
      * intros f' l' HL. now apply NL in HL.
      * intros k _. destruct (single_stop f a convs r st pre l s t s' e SC K EN (P3 f SC) HZ HA) as [(E1 & _)|(ty & v & rest & _ & _ & _ & _ & E1 & _)]; rewrite E1; [first [exact HC|reflexivity]|destruct rest; first [exact HC|reflexivity]].
      * intros k ps HLO. destruct (LO k ps HLO) as (f' & ty & v & SC' & -> & H1 & H2 & H3 & H4).
        destruct (single_stop f' a convs r st pre l s t s' e SC' K EN (P3 f' SC') HZ HA) as [(_ & E1)|(ty' & v' & rest & _ & _ & _ & _ & E1 & DT)]; [exfalso; eapply E1; eauto|].
        rewrite E1, store_get, str_eqb_refl. rewrite (DT _ _ _ H2 H3). reflexivity.
      * intros k _ HK. destruct (single_stop f a convs r st pre l s t s' e SC K EN (P3 f SC) HZ HA) as [(E1 & _)|(ty & v & rest & H1 & H2 & H3 & H4 & E1 & _)]; rewrite E1; [reflexivity|].
        rewrite store_get. destruct (str_eqb k (upper (g_attr f))) eqn:EK; [|now match goal with |- match ?q with _ => _ end = _ => destruct q end]. apply str_eqb_eq in EK as ->. exfalso. apply (HK rest). econstructor; eauto.
    + (* the time span *)
      destruct (conv_span c a k IA K) as (IE & _ & _ & NS).
      assert (NL : forall f l', ~ list_of c (ILine l) f l'). { intros f' l' HL. destruct (UL f' l' HL) as [_ K1]. unfold is_multi in K1. rewrite K in K1. discriminate. }
      assert (LO : forall k ps, left_over X zs c pre (ILine l) k ps -> k = py "DURATION" /\ ps = cl_params l /\ cl_name l = py "DURATION" /\ lines (py "DURATION") pre = []).
      { intros k0 ps HLO. inversion HLO; subst.
        - destruct (U1 f l) as [_ K1]; auto. unfold is_single in K1. rewrite K in K1. discriminate.
        - auto.
        - exfalso. eapply U3; eauto. }
      destruct P3 as (SEEN & _). rewrite <- ES in SEEN. unfold span_out in HA. destruct (populate_span X l s) as [|e']; [discriminate|].
      assert (HX : l_comp s' = l_comp s /\ (cl_name l = py "DURATION" -> lines (py "DURATION") pre <> []) \/
        l_comp s' = store_params (py "DURATION") (cl_params l) (l_comp s) /\ cl_name l = py "DURATION" /\ lines (py "DURATION") pre = []).
      { destruct (existsb (str_eqb (cl_name l)) (sc_seen (l_span s))) eqn:EX.
        - injection HA as <- _. left. split; [reflexivity|]. intro ED. apply existsb_str in EX. apply SEEN in EX as [_ EX]. now rewrite ED in EX.
        - destruct (str_eqb (cl_name l) (py "DURATION")) eqn:ED; injection HA as <- _.
          + right. split; [reflexivity|]. apply str_eqb_eq in ED. split; [exact ED|]. rewrite ED in EX. destruct (lines (py "DURATION") pre) eqn:EL; [reflexivity|]. exfalso.
            assert (J : In (py "DURATION") (sc_seen (l_span s))) by (apply SEEN; split; [vm_compute; tauto|congruence]). apply existsb_str in J. congruence.
          + left. split; [reflexivity|]. apply str_eqb_neq in ED. contradiction. }
      constructor; rewrite ?HC.
      1-4: destruct HX as [[E1 _]|[E1 _]]; rewrite E1; [first [exact HC|reflexivity]|destruct (cl_params l); first [exact HC|reflexivity]].
      * intros f' l' HL. now apply NL in HL.
      * intros k0 _. destruct HX as [[E1 _]|[E1 _]]; rewrite E1; [first [exact HC|reflexivity]|destruct (cl_params l); first [exact HC|reflexivity]].
      * intros k0 ps HLO. destruct (LO _ _ HLO) as (-> & -> & H1 & H2). destruct HX as [[_ E1]|[E1 _]]; [now destruct (E1 H1)|]. rewrite E1, store_get, str_eqb_refl. reflexivity.
      * intros k0 _ HK. destruct HX as [[E1 _]|(E1 & H1 & H2)]; rewrite E1; [reflexivity|]. rewrite store_get. destruct (str_eqb k0 (py "DURATION")) eqn:EK; [|now match goal with |- match ?q with _ => _ end = _ => destruct q end]. apply str_eqb_eq in EK as ->.
        exfalso. apply (HK (cl_params l)). now constructor.
    + apply QUIET; [unfold is_multi; now rewrite K|discriminate|unfold is_single; now rewrite K|]. destruct (populate_conv _ _ _ _ _ _) as [[s2 b2]|]; [discriminate|]. now injection HA as <- _.
    + apply QUIET; [unfold is_multi; now rewrite K|discriminate|unfold is_single; now rewrite K|]. destruct (populate_conv _ _ _ _ _ _) as [[s2 b2]|]; [discriminate|]. now injection HA as <- _.
    + apply QUIET; [unfold is_multi; now rewrite K|discriminate|unfold is_single; now rewrite K|]. destruct (populate_conv _ _ _ _ _ _) as [[s2 b2]|]; [discriminate|]. now injection HA as <- _.
  - (* the action of a custom alarm *)
    assert (NL : forall f l', ~ list_of c it f l').
    { intros f l (I & -> & EF). destruct (multi_of c f I) as (b & J & K & MC). assert (L : In b (lookup c (py "ACTION"))).
      { apply filter_In. split; [exact J|]. apply existsb_str. rewrite (mv_names _ _ MC). left. cbn [item_name] in EA. congruence. }
      rewrite EA in E. rewrite E in L. destruct L as [<-|[<-|[]]]; discriminate. }
    assert (LO : forall k ps, left_over X zs c pre it k ps -> exists l, it = ILine l /\ k = py "ACTION" /\ ps = cl_params l /\ action_class (cl_value l) CCustom).
    { intros k ps HLO. inversion HLO as [f l ty v rest I EF EL HT HD HK|l IE _ _|l _ EF HAC]; subst.
      - exfalso. cbn [item_name] in EA. rewrite EC in I. assert (ER : g_rule f = Plain) by (apply custom_rule; congruence). rewrite ER in HK. now apply (HK v).
      - rewrite EC in IE. discriminate.
      - eauto. }
    assert (HX : l_comp s' = l_comp s /\ (forall l, it = ILine l -> ~ action_class (cl_value l) CCustom) \/
      exists l, it = ILine l /\ action_class (cl_value l) CCustom /\ l_comp s' = store_params (py "ACTION") (cl_params l) (l_comp s)).
    { unfold conv_out at 1 in HO. cbn [action_field a_kind populate_conv] in HO. destruct it as [l|n its].
      2: { injection HO as <- _. left. split; [reflexivity|]. discriminate. }
      unfold populate_action in HO. rewrite HC, EC in HO. destruct (type_from_action (cl_value l)) eqn:ET; cbn [cls_eqb bind] in HO;
        try (injection HO as <- _; left; split; [reflexivity|]; intros l' [= <-] HAC; apply type_from_action_iff in HAC; congruence).
      right. exists l. split; [reflexivity|]. split; [now apply type_from_action_iff|].
      unfold conv_out in HO. cbn [custom_field one_of a_kind] in HO. unfold single_out, first in HO.
      destruct (Nat.ltb _ _); [now injection HO as <- _|]. destruct (prepare_params _ _) as [[q ty]|]; [|now injection HO as <- _].
      destruct (vparse _ _ _ _ _) as [[[v rest] z]|]; [|now injection HO as <- _]. cbn [apply_set] in HO. discriminate. }
    constructor; rewrite ?HC.
    1-4: destruct HX as [[E1 _]|(l & _ & _ & E1)]; rewrite E1; [first [exact HC|reflexivity]|destruct (cl_params l); first [exact HC|reflexivity]].
    + intros f' l' HL. now apply NL in HL.
    + intros k0 _. destruct HX as [[E1 _]|(l & _ & _ & E1)]; rewrite E1; [first [exact HC|reflexivity]|destruct (cl_params l); first [exact HC|reflexivity]].
    + intros k0 ps HLO. destruct (LO _ _ HLO) as (l & -> & -> & -> & HAC). destruct HX as [[_ E1]|(l' & [= <-] & _ & E1)]; [now destruct (E1 l eq_refl)|]. rewrite E1, store_get, str_eqb_refl. reflexivity.
    + intros k0 _ HK. destruct HX as [[E1 _]|(l & -> & HAC & E1)]; rewrite E1; [reflexivity|]. rewrite store_get. destruct (str_eqb k0 (py "ACTION")) eqn:EK; [|now match goal with |- match ?q with _ => _ end = _ => destruct q end]. apply str_eqb_eq in EK as ->.
      exfalso. apply (HK (cl_params l)). now constructor.
Qed.
End Fail.
