(** * Proofs: reading the properties with values *)
From Verif Require Import M_Base M_Text M_Line M_Codec M_Cal M_Time M_Span M_Dt M_Tree M_Comp.
From Verif Require Import S_Text S_Codec S_Dt S_Comp S_Multi P_Base P_Text P_Comp P_Multi P_Cat P_Frame P_Whole P_Local P_Reorder P_ReadGen S_Read P_Value.
From Coq Require Import Lia ZifyBool ZifyNat ZifyN.
Open Scope N_scope.

(** ** Lines *)
Definition cont_free (n : list N) (its : list item) : Prop := forall l, ~ In (ICont n l) its.
Lemma cont_free_app n a b : cont_free n (a ++ b) <-> cont_free n a /\ cont_free n b.
Proof. unfold cont_free. split; [intro H; split; intros l I; apply (H l), in_app_iff; tauto|]. intros [H K] l I. apply in_app_iff in I as [I|I]; [now apply (H l)|now apply (K l)]. Qed.
Lemma cont_free_nil n : cont_free n []. Proof. now intros l []. Qed.
Lemma lines_other n it : item_name it <> n -> lines n [it] = [] /\ cont_free n [it].
Proof.
  intro H. split.
  - destruct it as [l|m its]; [|easy]. cbn in *. apply str_eqb_neq in H. now rewrite H.
  - intros l [E|[]]. subst it. now cbn in H.
Qed.
Lemma lines_here l : lines (cl_name l) [ILine l] = [l].
Proof. unfold lines. cbn [flat_map]. now rewrite str_eqb_refl. Qed.
Lemma cont_free_line n l : cont_free n [ILine l]. Proof. now intros k [E|[]]. Qed.
Lemma only_other n pre it ls : item_name it <> n -> only_lines n pre ls -> only_lines n (pre ++ [it]) ls.
Proof.
  intros H [-> K]. destruct (lines_other n it H) as [E F]. split; [now rewrite lines_app, E, app_nil_r|]. now apply cont_free_app.
Qed.
Lemma only_here pre l ls : only_lines (cl_name l) pre ls -> only_lines (cl_name l) (pre ++ [ILine l]) (ls ++ [l]).
Proof. intros [-> K]. split; [now rewrite lines_app, lines_here|]. apply cont_free_app. split; [exact K|apply cont_free_line]. Qed.
Lemma only_nil n : only_lines n [] []. Proof. split; [easy|apply cont_free_nil]. Qed.
Lemma only_middle n pre it post ls : only_lines n (pre ++ it :: post) ls -> item_name it = n ->
  exists l, it = ILine l /\ cl_name l = n /\ ls = lines n pre ++ l :: lines n post /\ only_lines n pre (lines n pre).
Proof.
  intros [-> H] E. change (it :: post) with ([it] ++ post) in *. rewrite !lines_app. destruct it as [l|m its].
  - exists l. cbn in E. subst n. rewrite lines_here. cbn [app]. repeat split; auto. now apply cont_free_app in H.
  - exfalso. cbn in E. subst m. apply (H its), in_app_iff. right. now left.
Qed.

Section Val.
Variable X : ext.
Variable M : Type.
Variable c : cls.
Variable zs : zones.
Local Notation lst := (lst M).

(** ** Properties with one value *)
(** What is stored is what is kept. *)
Definition set_ok (convs : list vconv) (s : setter) (r : rule) : Prop :=
  match s, r with
  | SPlain, Plain | SStatus, Status | SUtc, Utc => True
  | SRange h, Upto h' => h = h'
  | SStr, Plain => convs = [Text]
  | SOrganizer, Plain => convs = [Organizer]
  | SGeo, Plain => convs = [Geo]
  | SDatetime, Plain => convs = [Datetime]
  | STrigger, Plain => convs = [Duration; Datetime]
  | STimedelta, Plain => convs = [Duration]
  | _, _ => False
  end.
Lemma str_in_iff x l : str_in x l = true <-> In x l.
Proof.
  unfold str_in. rewrite existsb_exists. split; [intros (y & I & E); apply str_eqb_eq in E; now subst|]. intro I. exists x. split; [exact I|apply str_eqb_refl].
Qed.
Lemma kept_iff convs s r t str ps v rest w : set_ok convs s r -> In t convs -> denotes X zs t str ps v rest -> (apply_set X s v = Ok w <-> kept X r v w).
Proof.
  intros HO HI HD. destruct s, r; cbn [set_ok] in HO; try contradiction; cbn [apply_set kept].
  1: split; congruence.
  - split.
    + destruct v; try discriminate. unfold apply_set. destruct (str_in _ _) eqn:E; [|discriminate]. intros [= <-]. apply str_in_iff in E. now exists s.
    + intros (u & -> & -> & I). unfold apply_set. apply str_in_iff in I. unfold STATUS_VALUES. now rewrite I.
  - split.
    + destruct v; try discriminate. unfold apply_set. change (M_Comp.E X) with (x_env X). destruct (dt_astimezone _ _ _) as [e|] eqn:E; [|discriminate]. intros [= <-]. now exists d, e.
    + intros (d & e & -> & -> & E). unfold apply_set. change (M_Comp.E X) with (x_env X). now rewrite E.
  - subst convs. destruct HI as [<-|[]]. inversion HD; subst. cbn [apply_set]. split; congruence.
  - subst convs. destruct HI as [<-|[]]. inversion HD; subst. cbn [apply_set]. split; congruence.
  - subst convs. destruct HI as [<-|[]]. inversion HD; subst. cbn [apply_set]. split; congruence.
  - subst hi0. split.
    + destruct v; try discriminate. cbn [apply_set]. destruct ((0 <=? _)%Z && (_ <=? hi)%Z)%bool eqn:E; [|discriminate]. intros [= <-]. eexists. repeat split; lia.
    + intros (z & -> & -> & B). cbn [apply_set]. assert (((0 <=? z)%Z && (z <=? hi)%Z)%bool = true) as -> by lia. easy.
  - subst convs. destruct HI as [<-|[]]. inversion HD; subst. cbn [apply_set]. split; congruence.
  - subst convs. destruct HI as [<-|[<-|[]]]; inversion HD; subst; cbn [apply_set]; split; congruence.
  - subst convs. destruct HI as [<-|[]]. inversion HD; subst. cbn [apply_set]. split; congruence.
Qed.
Lemma typed_In ts convs ps t : types_ok ts convs -> typed ts ps t -> In t convs.
Proof.
  intros (-> & _) H. unfold typed in H. destruct (dict_get _ ps) as [[|p [|? ?]]|]; try contradiction.
  - destruct H as (w & ts' & H). destruct convs; [discriminate|]. injection H as _ -> _. now left.
  - apply in_map_iff in H as (u & [= _ ->] & I). exact I.
  - destruct H as (w & ts' & H). destruct convs; [discriminate|]. injection H as _ -> _. now left.
Qed.

(** A property of the specification and the converter of the model. *)
Record single_conv (f : single) (a : aconv) : Prop := mk_sconv {
  sv_attr : a_attr a = g_attr f;
  sv_names : a_names a = [g_name f];
  sv_kind : exists convs r s, a_kind a = KVal convs false r s /\ types_ok (g_types f) convs /\ set_ok convs s (g_rule f) /\
    (r = true <-> In (g_name f) (required c)) /\ (r = false -> default_attr X c a = initial X (g_attr f))
}.
Definition one_part (f : single) (a : aconv) (its : list item) (s : lst) : Prop :=
  exists ls, only_lines (g_name f) its ls /\
  match ls with
  | [] => dict_get (g_attr f) (c_attrs (l_comp s)) = Some (default_attr X c a) /\ params_are (l_comp s) (upper (g_attr f)) [] /\ count (g_attr f) s = O
  | [l] => exists t v w rest, typed (g_types f) (cl_params l) t /\
      denotes X zs t (cl_value l) (dict_del (py "VALUE") (cl_params l)) v rest /\ kept X (g_rule f) v w /\
      dict_get (g_attr f) (c_attrs (l_comp s)) = Some (AOne w) /\ params_are (l_comp s) (upper (g_attr f)) rest /\ count (g_attr f) s = 1%nat
  | _ => False
  end.
Lemma one_frame f a its s t : single_conv f a -> at_same M a s t -> one_part f a its s -> one_part f a its t.
Proof.
  intros [SA SN (convs & r & st & SK & _)] [A1 A2 A3 A4 A5 A6] (ls & HL & H). exists ls. split; [exact HL|]. unfold params_are, count in *.
  assert (EP : dict_get (upper (g_attr f)) (c_params (l_comp s)) = dict_get (upper (g_attr f)) (c_params (l_comp t))).
  { apply A3. unfold pkeys. rewrite SK. left. unfold a_key. now rewrite SA. }
  rewrite SA in *. now rewrite <- A2, <- EP, <- A5.
Qed.
Lemma one_skip f a pre it s : single_conv f a -> ~ named a it -> one_part f a pre s -> one_part f a (pre ++ [it]) s.
Proof.
  intros SC HN (ls & HL & H). exists ls. split; [|exact H]. apply only_other; [|exact HL]. intro E. apply HN. unfold named. rewrite (sv_names _ _ SC). left. congruence.
Qed.
Lemma one_single f a pre l s s' convs st : single_conv f a -> (exists r, a_kind a = KVal convs false r st) -> cl_name l = g_name f -> zeq X zs (l_zones s) -> one_part f a pre s ->
  populate_single X a convs st l s = Ok s' -> one_part f a (pre ++ [ILine l]) s' /\ zeq X zs (l_zones s').
Proof.
  intros [SA SN (convs' & r & st' & SK & ST & SO & _)] [r' K] HN HZ (ls & HL & HP) H. rewrite K in SK. injection SK as <- <- <-.
  unfold populate_single in H. rewrite SA in H. destruct (Nat.ltb 0 (count (g_attr f) s)) eqn:EC; [discriminate|]. apply Nat.ltb_ge in EC.
  destruct ls as [|l0 [|]]; [|destruct HP as (? & ? & ? & ? & _ & _ & _ & _ & _ & HP); lia|contradiction].
  destruct HP as (HA & HPS & HC). apply bind_Ok in H as ([q t] & H1 & H). apply (typed_iff _ _ _ _ _ ST) in H1 as [H1 ->].
  apply bind_Ok in H as ([[v rest] zs1] & H2 & H). apply (read_denotes X zs) in H2 as [H2 Z1]; [|exact HZ].
  apply bind_Ok in H as (w & H3 & H). apply (kept_iff convs st (g_rule f) t _ _ _ _ _ SO (typed_In _ _ _ _ ST H1) H2) in H3. injection H as <-. split; [|exact Z1].
  exists [l]. split; [rewrite <- HN in *; apply (only_here pre l []); exact HL|]. exists t, v, w, rest. cbn [l_comp l_count set_attrs c_attrs c_params].
  assert (EK : a_key a = upper (g_attr f)) by (unfold a_key; now rewrite SA). repeat split; auto.
  - apply dict_get_set_same.
  - unfold params_are in *. cbn [l_comp set_attrs c_params]. rewrite store_get, EK, str_eqb_refl. destruct rest; [exact HPS|easy].
  - unfold count. cbn [l_count]. rewrite dict_get_set_same. f_equal. exact HC.
Qed.
(** A line that has a value is read. *)
Lemma one_go f a pre l s t v w rest convs st : single_conv f a -> (exists r, a_kind a = KVal convs false r st) -> zeq X zs (l_zones s) -> one_part f a pre s ->
  only_lines (g_name f) pre [] -> typed (g_types f) (cl_params l) t ->
  denotes X zs t (cl_value l) (dict_del (py "VALUE") (cl_params l)) v rest -> kept X (g_rule f) v w -> exists s', populate_single X a convs st l s = Ok s'.
Proof.
  intros [SA SN (convs' & r & st' & SK & ST & SO & _)] [r' K] HZ (ls & HL & HP) HL2 HT HD HK. rewrite K in SK. injection SK as <- <- <-.
  unfold populate_single. assert (ls = []) as -> by (destruct HL, HL2; congruence). destruct HP as (_ & _ & HC). rewrite SA, HC. cbn [Nat.ltb Nat.leb].
  rewrite (proj2 (typed_iff _ _ _ _ _ ST) (conj HT eq_refl)). cbn [bind]. destruct (denotes_read X zs (l_zones s) _ _ _ _ _ HZ HD) as (zs1 & -> & _). cbn [bind].
  rewrite (proj2 (kept_iff convs st (g_rule f) t _ _ _ _ _ SO (typed_In _ _ _ _ ST HT) HD) HK). cbn [bind]. eexists. reflexivity.
Qed.
Definition one_done (f : single) (its : list item) (x : comp M) : Prop := one_read X zs c f its x.
Lemma one_post f a its s s' : single_conv f a -> one_part f a its s -> post_conv X M a s = Ok s' -> one_read X zs c f its (l_comp s').
Proof.
  intros [SA SN (convs & r & st & SK & ST & SO & SR & SD)] (ls & HL & HP) H. unfold post_conv in H. rewrite SK, SA in H.
  destruct (r && Nat.eqb (count (g_attr f) s) 0)%bool eqn:E; [discriminate|]. injection H as <-. cbn [l_comp]. exists ls. split; [exact HL|].
  destruct ls as [|l [|]]; [|destruct HP as (t & v & w & rest & H1 & H2 & H3 & H4 & H5 & _); now exists t, v, w, rest|contradiction].
  destruct HP as (H1 & H2 & H3). rewrite H3 in E. cbn in E. rewrite Bool.andb_true_r in E. split; [|split; [|exact H2]].
  - intro I. apply SR in I. congruence.
  - rewrite H1. now rewrite (SD E).
Qed.
Lemma one_post_go f a its s (x : comp M) : single_conv f a -> one_part f a its s -> one_read X zs c f its x -> exists s', post_conv X M a s = Ok s'.
Proof.
  intros [SA SN (convs & r & st & SK & ST & SO & SR & SD)] (ls & HL & HP) (ls' & HL' & HR). unfold post_conv. rewrite SK, SA.
  assert (ls' = ls) as -> by (destruct HL, HL'; congruence).
  assert ((r && Nat.eqb (count (g_attr f) s) 0)%bool = false) as ->; [|eexists; reflexivity].
  destruct ls as [|l [|]]; [|destruct HP as (t & v & w & rest & H1 & H2 & H3 & H4 & H5 & ->); now rewrite Bool.andb_false_r|contradiction].
  destruct HR as (N & _). destruct r; [|easy]. exfalso. now apply N, SR.
Qed.
Lemma one_read_frame f a its s t : single_conv f a -> at_same M a s t -> one_read X zs c f its (l_comp s) -> one_read X zs c f its (l_comp t).
Proof.
  intros [SA SN (convs & r & st & SK & _)] [A1 A2 A3 A4 A5 A6] (ls & HL & H). exists ls. split; [exact HL|]. unfold params_are in *.
  assert (EP : dict_get (upper (g_attr f)) (c_params (l_comp s)) = dict_get (upper (g_attr f)) (c_params (l_comp t))).
  { apply A3. unfold pkeys. rewrite SK. left. unfold a_key. now rewrite SA. }
  rewrite SA in *. now rewrite <- A2, <- EP.
Qed.

(** ** Properties with several values *)
Record multi_conv (f : multiple) (a : aconv) : Prop := mk_mconv {
  mv_attr : a_attr a = h_attr f;
  mv_names : a_names a = [h_name f];
  mv_kind : exists convs, a_kind a = KVal convs true false SPlain /\ types_ok (h_types f) convs
}.
Definition many_at (f : multiple) (vs : list val) (qs : list xp) (x : comp M) : Prop :=
  dict_get (h_attr f) (c_attrs x) = Some (AMany vs) /\
  dict_get (upper (h_attr f)) (c_params x) = match qs with [] => None | _ => Some (XMany qs) end.
Lemma append_at f (x : comp M) vs qs v q : many_at f vs qs x ->
  exists x1 x2, append_params (upper (h_attr f)) q x = Ok x1 /\ append_value (h_attr f) v x1 = Ok x2 /\ many_at f (vs ++ [v]) (qs ++ [q]) x2.
Proof.
  intros [H1 H2]. unfold append_params. rewrite H2. destruct qs as [|q0 qs].
  - eexists _, _. split; [reflexivity|]. unfold append_value, get_attr. cbn [set_params c_attrs]. rewrite H1. split; [reflexivity|].
    split; cbn [set_attrs set_params c_attrs c_params]; apply dict_get_set_same.
  - eexists _, _. split; [reflexivity|]. unfold append_value, get_attr. cbn [set_params c_attrs]. rewrite H1. split; [reflexivity|].
    split; cbn [set_attrs set_params c_attrs c_params]; apply dict_get_set_same.
Qed.
Lemma values_sound f a t : a_attr a = h_attr f -> forall ss ps vs qs s s', ss <> [] -> zeq X zs (l_zones s) -> many_at f vs qs (l_comp s) ->
  populate_values X a t ss ps s = Ok s' ->
  exists vs' qs', values_read X zs t ss ps vs' qs' /\ many_at f (vs ++ vs') (qs ++ qs') (l_comp s') /\ zeq X zs (l_zones s').
Proof.
  intros SA. induction ss as [|w ss IH]; intros ps vs qs s s' NE HZ HA H; [contradiction|]. cbn [populate_values] in H.
  apply bind_Ok in H as ([[v rest] zs1] & H1 & H). apply (read_denotes X zs) in H1 as [H1 Z1]; [|exact HZ]. unfold a_key in H. rewrite SA in H.
  destruct ss as [|w2 ss].
  - destruct (append_at f (l_comp s) vs qs v (dict_set MERGE (raw [py "FALSE"]) rest) HA) as (x1 & x2 & E1 & E2 & HA2). rewrite E1 in H. cbn [bind] in H. rewrite E2 in H. injection H as <-.
    exists [v], [note_as (py "FALSE") rest]. split; [now constructor|]. split; [exact HA2|exact Z1].
  - destruct (append_at f (l_comp s) vs qs v (dict_set MERGE (raw [py "TRUE"]) rest) HA) as (x1 & x2 & E1 & E2 & HA2). rewrite E1 in H. cbn [bind] in H. rewrite E2 in H. cbn [bind] in H.
    apply IH with (vs := vs ++ [v]) (qs := qs ++ [note_as (py "TRUE") rest]) in H as (vs' & qs' & R & HA' & HZ'); [|discriminate|exact Z1|exact HA2].
    exists (v :: vs'), (note_as (py "TRUE") rest :: qs'). split; [now constructor|]. rewrite <- !app_assoc in HA'. now split.
Qed.
Lemma values_go f a t : a_attr a = h_attr f -> forall ss ps vs' qs', values_read X zs t ss ps vs' qs' ->
  forall vs qs s, zeq X zs (l_zones s) -> many_at f vs qs (l_comp s) -> exists s', populate_values X a t ss ps s = Ok s'.
Proof.
  intros SA. induction 1 as [w ps v rest HD|w ss ps v rest vs1 qs1 HD HR IH]; intros vs qs s HZ HA; cbn [populate_values];
    destruct (denotes_read X zs (l_zones s) _ _ _ _ _ HZ HD) as (zs1 & -> & Z1); cbn [bind]; unfold a_key; rewrite SA.
  - destruct (append_at f (l_comp s) vs qs v (dict_set MERGE (raw [py "FALSE"]) rest) HA) as (x1 & x2 & E1 & E2 & HA2). rewrite E1. cbn [bind]. rewrite E2. eexists. reflexivity.
  - assert (NE : ss <> []) by (now inversion HR). destruct ss as [|w2 ss]; [contradiction|].
    destruct (append_at f (l_comp s) vs qs v (dict_set MERGE (raw [py "TRUE"]) rest) HA) as (x1 & x2 & E1 & E2 & HA2). rewrite E1. cbn [bind]. rewrite E2. cbn [bind].
    destruct (IH (vs ++ [v]) (qs ++ [note_as (py "TRUE") rest]) (mk_lst x2 (dict_set (h_attr f) (S (count (h_attr f) s)) (l_count s)) (l_span s) zs1) Z1 HA2) as (s' & E).
    exists s'. exact E.
Qed.
Lemma values_text t ss ps vs qs : values_read X zs t ss ps vs qs -> t = Text -> Forall (fun s => exists v, TextEsc s v) ss.
Proof. induction 1 as [w ps v rest HD|w ss ps v rest vs1 qs1 HD HR IH]; intros ->; inversion HD; subst; constructor; eauto. Qed.
Lemma vsplit_nonempty t w ss : vsplit t w = Ok ss -> ss <> [].
Proof.
  unfold vsplit. destruct t; try (intros [= <-]; apply split_on_nonempty).
  destruct (split_value_list w) as [l [e|]] eqn:E; [discriminate|]. intros [= <-]. eapply split_nonempty; eauto.
Qed.

Definition many_part (f : multiple) (its : list item) (s : lst) : Prop := many_read X zs f its (l_comp s).
Lemma lines_read_snoc ts ls l vs qs vs' qs' : lines_read X zs ts ls vs qs -> line_read X zs ts l vs' qs' -> lines_read X zs ts (ls ++ [l]) (vs ++ vs') (qs ++ qs').
Proof.
  induction 1 as [|l0 ls v1 q1 v2 q2 H0 H IH]; intro HL.
  - cbn [app]. replace vs' with (vs' ++ []) by apply app_nil_r. replace qs' with (qs' ++ []) by apply app_nil_r. constructor; [exact HL|constructor].
  - rewrite <- !app_assoc. cbn [app]. constructor; auto.
Qed.
Lemma many_frame f a its s t : multi_conv f a -> at_same M a s t -> many_part f its s -> many_part f its t.
Proof.
  intros [SA SN (convs & SK & _)] [A1 A2 A3 A4 A5 A6] (ls & vs & qs & HL & HR & H1 & H2). exists ls, vs, qs. split; [exact HL|]. split; [exact HR|].
  rewrite SA in *. rewrite <- A2. split; [exact H1|]. rewrite <- A3; [exact H2|]. unfold pkeys. rewrite SK. left. unfold a_key. now rewrite SA.
Qed.
Lemma many_skip f a pre it s : multi_conv f a -> ~ named a it -> many_part f pre s -> many_part f (pre ++ [it]) s.
Proof.
  intros SC HN (ls & vs & qs & HL & H). exists ls, vs, qs. split; [|exact H]. apply only_other; [|exact HL]. intro E. apply HN. unfold named. rewrite (mv_names _ _ SC). left. congruence.
Qed.
Lemma many_step f a pre l s s' convs : multi_conv f a -> (exists r st, a_kind a = KVal convs true r st) -> cl_name l = h_name f -> zeq X zs (l_zones s) -> many_part f pre s ->
  populate_multi X a convs l s = Ok s' -> many_part f (pre ++ [ILine l]) s' /\ zeq X zs (l_zones s').
Proof.
  intros [SA SN (convs' & SK & ST)] (r & st & K) HN HZ (ls & vs & qs & HL & HR & HA) H. rewrite K in SK. injection SK as <- _ _.
  unfold populate_multi in H. apply bind_Ok in H as ([q t] & H1 & H). apply (typed_iff _ _ _ _ _ ST) in H1 as [H1 ->]. apply bind_Ok in H as (ss & H2 & H).
  destruct (values_sound f a t SA ss _ vs qs s s' (vsplit_nonempty _ _ _ H2) HZ HA H) as (vs' & qs' & R & HA' & HZ').
  split; [|exact HZ']. exists (ls ++ [l]), (vs ++ vs'), (qs ++ qs'). split; [rewrite <- HN in *; now apply only_here|]. split; [|exact HA'].
  apply lines_read_snoc; [exact HR|]. exists t, ss. split; [exact H1|]. apply split_iff in H2; [|now apply (values_text _ _ _ _ _ R)]. destruct H2. auto.
Qed.
Lemma many_go f a pre l s vs' qs' convs : multi_conv f a -> (exists r st, a_kind a = KVal convs true r st) -> zeq X zs (l_zones s) -> many_part f pre s ->
  line_read X zs (h_types f) l vs' qs' -> exists s', populate_multi X a convs l s = Ok s'.
Proof.
  intros [SA SN (convs' & SK & ST)] (r & st & K) HZ (ls & vs & qs & HL & HR & HA) (t & ss & HT & HC & HF & HV). rewrite K in SK. injection SK as <- _ _.
  unfold populate_multi. rewrite (proj2 (typed_iff _ _ _ _ _ ST) (conj HT eq_refl)). cbn [bind].
  rewrite (proj2 (split_iff t (cl_value l) ss (values_text _ _ _ _ _ HV)) (conj HC HF)). cbn [bind]. eapply values_go; eauto.
Qed.
Lemma lines_read_middle ts l1 l l2 vs qs : lines_read X zs ts (l1 ++ l :: l2) vs qs -> exists vs' qs', line_read X zs ts l vs' qs'.
Proof.
  revert vs qs. induction l1 as [|x l1 IH]; intros vs qs H; inversion H; subst; [eauto|]. eapply IH; eauto.
Qed.
Lemma many_post f a its s s' : multi_conv f a -> many_part f its s -> post_conv X M a s = Ok s' -> many_part f its s'.
Proof.
  intros [SA SN (convs & SK & ST)] H K. unfold post_conv in K. rewrite SK in K. now injection K as <-.
Qed.
Lemma many_post_go f a s : multi_conv f a -> exists s', post_conv X M a s = Ok s'.
Proof. intros [SA SN (convs & SK & ST)]. unfold post_conv. rewrite SK. eexists. reflexivity. Qed.
End Val.
