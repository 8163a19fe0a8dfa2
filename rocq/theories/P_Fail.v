(** * Proofs for C71: a failing reading, step by step *)
From Verif Require Import M_Base M_Text M_Line M_Codec M_Cal M_Time M_Span M_Dt M_Tree M_Comp M_Merge M_Fail.
From Verif Require Import S_Text S_Codec S_Dt S_Comp S_Multi S_Reorder P_Base P_Text P_Comp P_Cat P_Frame P_Whole P_Keep P_Local P_Reorder P_ReadGen S_Read P_Value P_ReadVal P_ReadSpan P_Read P_ReadAll S_Merge P_Merge S_Fail.
From Coq Require Import Lia ZifyBool ZifyNat ZifyN.
Open Scope N_scope.

(** The two models give the same results. *)
Definition tells {S A} (o : out S A) (r : res (S * A)) : Prop :=
  match o with (s, Ok b) => r = Ok (s, b) | (_, Err e) => r = Err e end.

Section Fail.
Variable X : ext.
Variable M : Type.
Variable load_m : mkind -> list N -> list item -> zones -> res (M * zones).
Variable x0 : comp M.
Let c := c_cls x0.
Local Notation lst := (lst M).

Lemma single_tells a convs s cl (st : lst) : tells (single_out X M a convs s cl st) (do st' <- populate_single X a convs s cl st; Ok (st', true)).
Proof.
  unfold single_out, populate_single, first. destruct (Nat.ltb _ _); [reflexivity|]. destruct (prepare_params _ _) as [[ps cv]|]; [|reflexivity]. cbn [bind].
  destruct (vparse _ _ _ _ _) as [[[v ps'] zs]|]; [|reflexivity]. cbn [bind]. destruct (apply_set X s v); reflexivity.
Qed.
Lemma values_tells a cv vals : forall ps (st : lst), tells (values_out X M a cv vals None ps st) (do st' <- populate_values X a cv vals ps st; Ok (st', true)).
Proof.
  induction vals as [|w vals IH]; intros ps st; cbn [values_out populate_values]; [reflexivity|]. unfold first. destruct (vparse _ _ _ _ _) as [[[v ps'] zs]|]; [|reflexivity]. cbn [bind].
  replace (match vals with [] => dict_set MERGE (raw [py "FALSE"]) ps' | _ :: _ => dict_set MERGE (raw [py "TRUE"]) ps' end)
    with (match vals with [] => dict_set MERGE (raw [py "FALSE"]) ps' | _ => dict_set MERGE (raw [py "TRUE"]) ps' end) by (now destruct vals).
  destruct (append_params _ _ _) as [x1|]; [|reflexivity]. cbn [bind]. destruct (append_value _ _ x1); [|reflexivity]. cbn [bind]. apply IH.
Qed.
(** A list that is a list. *)
Definition listed (a : aconv) (x : comp M) : Prop :=
  (exists l, dict_get (a_attr a) (c_attrs x) = Some (AMany l)) /\ (forall p, dict_get (a_key a) (c_params x) <> Some (XOne p)).
Lemma listed_append a q v (x : comp M) : listed a x -> exists l x1 x2, dict_get (a_attr a) (c_attrs x) = Some (AMany l) /\ append_params (a_key a) q x = Ok x1 /\ append_value (a_attr a) v x1 = Ok x2 /\
  listed a x2 /\ x2 = mk_comp (c_cls x) (dict_set (a_attr a) (AMany (l ++ [v])) (c_attrs x)) (c_mem x) (c_name x) (c_extra x)
    (dict_set (a_key a) (XMany (notes (dict_get (a_key a) (c_params x)) ++ [q])) (c_params x)).
Proof.
  intros [(l & HL) HK]. exists l. unfold append_params. destruct (dict_get (a_key a) (c_params x)) as [[p|w]|] eqn:E; [now destruct (HK p)| |];
    eexists _, _; (split; [exact HL|]); (split; [reflexivity|]); unfold append_value, get_attr; cbn [set_params c_attrs]; rewrite HL; (split; [reflexivity|]);
    (split; [|reflexivity]); (split; [exists (l ++ [v]); apply dict_get_set_same|]); intros p; cbn [set_attrs set_params c_params]; rewrite dict_get_set_same; discriminate.
Qed.
Lemma vparse_text_err s ps z e : vparse X Text s ps z = Err e -> e = ValueError.
Proof. cbn [vparse]. destruct (text_parse s) eqn:E; cbn [bind]; [discriminate|]. intros [= <-]. now apply text_parse_err in E. Qed.
Lemma values_fail a vals : forall ps (st : lst), listed a (l_comp st) -> exists st', values_out X M a Text vals (Some ValueError) ps st = (st', Err ValueError).
Proof.
  induction vals as [|w vals IH]; intros ps st HL; cbn [values_out]; [eauto|]. unfold first. destruct (vparse _ _ _ _ _) as [[[v ps'] zs]|e] eqn:E; [|apply vparse_text_err in E as ->; eauto].
  replace (match vals with [] => dict_set MERGE (raw [py "TRUE"]) ps' | _ :: _ => dict_set MERGE (raw [py "TRUE"]) ps' end) with (dict_set MERGE (raw [py "TRUE"]) ps') by (now destruct vals).
  destruct (listed_append a (dict_set MERGE (raw [py "TRUE"]) ps') v _ HL) as (l & x1 & x2 & _ & -> & -> & HL2 & _). apply IH. exact HL2.
Qed.
Lemma multi_tells a convs cl (st : lst) : listed a (l_comp st) -> tells (multi_out X M a convs cl st) (do st' <- populate_multi X a convs cl st; Ok (st', true)).
Proof.
  intro HL. unfold multi_out, populate_multi, first. destruct (prepare_params _ _) as [[ps cv]|]; [|reflexivity]. cbn [bind].
  destruct cv; try apply values_tells. cbn [vsplit]. destruct (split_value_list (cl_value cl)) as [vals [e|]] eqn:E; [|apply values_tells].
  apply split_err in E as ->. destruct (values_fail a vals ps st HL) as (st' & ->). reflexivity.
Qed.
Lemma conv_tells a it (st : lst) : In a (class_fields c) -> (is_multi a = true -> listed a (l_comp st)) -> tells (conv_out X M load_m a it st) (populate_conv X M load_m a it st).
Proof.
  intros IA HL. unfold conv_out, populate_conv. destruct (a_kind a) as [convs [] r s|k|m| |] eqn:K; destruct it as [cl|n its]; try reflexivity.
  - apply multi_tells. apply HL. unfold is_multi. now rewrite K.
  - apply single_tells.
  - unfold span_out. destruct (populate_span X cl st); reflexivity.
  - destruct (load_m m n its (l_zones st)) as [[x z]|]; reflexivity.
  - destruct (populate_action cl st); reflexivity.
Qed.
(** Lists stay lists. *)
Definition lists (st : lst) : Prop := forall a, In a (class_fields c) -> is_multi a = true -> listed a (l_comp st).
Lemma csim_lists (s s0 : lst) : sim M x0 s s0 -> lists s.
Proof.
  intros [C _ _ _] a I E. split.
  - destruct (sm_many _ _ _ _ _ C (a_attr a)) as (o & w & _ & _ & H); [|eauto]. unfold MA. apply in_map, filter_In. now split.
  - intros p. destruct (sm_notes _ _ _ _ _ C (a_key a)) as [H1 H2]; [unfold MK; apply in_map, filter_In; now split|].
    destruct (dict_get (a_key a) (c_params (l_comp s0))) as [[q|w]|]; [contradiction|congruence|]. rewrite H2. apply H1.
Qed.
Local Notation sim := (sim M x0).
Lemma convs_tells l it : (forall a, In a l -> In a (class_fields c)) -> forall s t b, sim s t -> tells (convs_out X M load_m l it s b) (populate_convs X M load_m l it s b).
Proof.
  induction l as [|a l IH]; intros HL s t b HS; cbn [convs_out populate_convs]; [reflexivity|].
  assert (IA : In a (class_fields c)) by (apply HL; now left).
  pose proof (conv_tells a it s IA (csim_lists _ _ HS a IA)) as T. pose proof (sim_conv X M load_m x0 a it s t IA HS) as B.
  destruct (conv_out X M load_m a it s) as [s1 [b1|e]]; cbn [tells] in T; rewrite T in *; [|reflexivity]. cbn [bind].
  destruct (populate_conv X M load_m a it t) as [[t1 b2]|]; [|contradiction]. destruct B as [B _]. cbn [fst] in B. apply IH with (t := t1); [|exact B]. intros a' I. apply HL. now right.
Qed.
Lemma lookup_fields n a : In a (lookup c n) -> In a (class_fields c).
Proof. intro I. now apply lookup_In in I as [I _]. Qed.
Lemma sim_cls (s t : lst) : sim s t -> c_cls (l_comp s) = c.
Proof. intros [C _ _ _]. exact (proj1 (sm_cls _ _ _ _ _ C)). Qed.
Lemma item_tells it (s t : lst) : sim s t -> tells (item_out X M load_m it s) (do s' <- populate_item X M load_m it s; Ok (s', tt)).
Proof.
  intro HS. unfold item_out, populate_item. rewrite (sim_cls _ _ HS). pose proof (convs_tells (lookup c (item_name it)) it (lookup_fields _) s t false HS) as T.
  destruct (convs_out _ _ _ _ it s false) as [s1 [[]|e]]; cbn [tells] in T; rewrite T; reflexivity.
Qed.
Lemma items_tells its : forall s t, sim s t -> tells (items_out X M load_m its s) (do s' <- populate_items X M load_m its s; Ok (s', tt)).
Proof.
  induction its as [|it its IH]; intros s t HS; cbn [items_out populate_items]; [reflexivity|]. pose proof (item_tells it s t HS) as T. pose proof (sim_item X M load_m x0 it s t HS) as B.
  destruct (item_out X M load_m it s) as [s1 [[]|e]]; cbn [tells] in T.
  - destruct (populate_item X M load_m it s) as [s2|]; [|discriminate]. injection T as ->. cbn [bind]. destruct (populate_item X M load_m it t) as [t1|]; [|contradiction]. now apply IH with (t := t1).
  - destruct (populate_item X M load_m it s) as [s2|]; [discriminate|]. injection T as ->. reflexivity.
Qed.
Lemma hooks_tells l : forall s : lst, tells (hooks_out X M l s) (do s' <- post_convs X M l s; Ok (s', tt)).
Proof.
  induction l as [|a l IH]; intro s; cbn [hooks_out post_convs]; [reflexivity|]. destruct (post_conv X M a s) as [s1|]; [|reflexivity]. cbn [bind]. apply IH.
Qed.
Lemma instance_tells n its zs : mergeable x0 ->
  match instance_out X M load_m x0 n its zs with
  | (x, Ok _) => exists zs', populate_instance X M load_m x0 n its zs = Ok (x, zs')
  | (_, Err e) => populate_instance X M load_m x0 n its zs = Err e
  end.
Proof.
  intro HM. unfold instance_out, populate_instance. destruct (str_eqb _ _); [|reflexivity].
  pose proof (items_tells its _ _ (sim_start X M x0 zs HM)) as T. destruct (items_out _ _ _ its _) as [s [[]|e]]; cbn [tells] in T.
  - destruct (populate_items _ _ _ its _) as [s1|]; [|discriminate]. injection T as ->. cbn [bind]. pose proof (hooks_tells (converters (c_cls x0)) s) as U.
    destruct (hooks_out X M _ s) as [s2 [[]|e]]; cbn [tells] in U; destruct (post_convs X M _ s) as [s3|]; try discriminate; injection U as ->; cbn [bind]; eauto.
  - destruct (populate_items _ _ _ its _) as [s1|]; [discriminate|]. injection T as ->. reflexivity.
Qed.

(** ** Where it fails *)
Lemma items_fail its : forall s t s' e, sim s t -> items_out X M load_m its s = (s', Err e) ->
  exists pre it post s1 t1, its = pre ++ it :: post /\ populate_items X M load_m pre s = Ok s1 /\ populate_items X M load_m pre t = Ok t1 /\ sim s1 t1 /\ item_out X M load_m it s1 = (s', Err e) /\
    forall post', items_out X M load_m (pre ++ it :: post') s = (s', Err e).
Proof.
  induction its as [|it its IH]; intros s t s' e HS H; cbn [items_out] in H; [discriminate|]. destruct (item_out X M load_m it s) as [s1 [[]|e']] eqn:E.
  - pose proof (item_tells it s t HS) as T. pose proof (sim_item X M load_m x0 it s t HS) as B. rewrite E in T. cbn [tells] in T.
    destruct (populate_item X M load_m it s) as [s2|] eqn:E1; [|discriminate]. injection T as ->. destruct (populate_item X M load_m it t) as [t1|] eqn:E2; [|contradiction].
    destruct (IH s1 t1 s' e B H) as (pre & it' & post & s2 & t2 & -> & P1 & P2 & P3 & P4 & P5). exists (it :: pre), it', post, s2, t2. split; [reflexivity|].
    cbn [populate_items app items_out]. rewrite E1, E2. cbn [bind]. repeat (split; [assumption|]). intro post'. rewrite E. apply P5.
  - injection H as -> ->. exists [], it, its, s, t. cbn [populate_items app items_out]. repeat (split; [easy|]). intro post'. now rewrite E.
Qed.
Lemma convs_fail l it : (forall a, In a l -> In a (class_fields c)) -> forall s t b s' e, sim s t -> convs_out X M load_m l it s b = (s', Err e) ->
  exists l1 a l2 s1 t1 b1, l = l1 ++ a :: l2 /\ populate_convs X M load_m l1 it s b = Ok (s1, b1) /\ sim s1 t1 /\ conv_out X M load_m a it s1 = (s', Err e).
Proof.
  induction l as [|a l IH]; intros HL s t b s' e HS H; cbn [convs_out] in H; [discriminate|]. destruct (conv_out X M load_m a it s) as [s1 [b1|e']] eqn:E.
  - assert (IA : In a (class_fields c)) by (apply HL; now left). pose proof (conv_tells a it s IA (csim_lists _ _ HS a IA)) as T. pose proof (sim_conv X M load_m x0 a it s t IA HS) as B.
    rewrite E in T. cbn [tells] in T. rewrite T in B. destruct (populate_conv X M load_m a it t) as [[t1 b2]|]; [|contradiction]. destruct B as [B _]. cbn [fst] in B.
    destruct (IH (fun a' I => HL a' (or_intror I)) s1 t1 _ s' e B H) as (l1 & a' & l2 & s2 & t2 & b3 & -> & P1 & P2 & P3). exists (a :: l1), a', l2, s2, t2, b3. split; [reflexivity|].
    cbn [populate_convs]. rewrite T. cbn [bind]. auto.
  - injection H as -> ->. exists [], a, l, s, t, b. cbn [populate_convs app]. auto.
Qed.
End Fail.
