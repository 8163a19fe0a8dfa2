(** * Proofs: reading and writing CATEGORIES *)
From Verif Require Import M_Base M_Text M_Line M_Codec M_Cal M_Time M_Span M_Dt M_Tree M_Comp S_Text S_Multi S_Comp S_Toy P_Base P_Text P_Comp P_Keep P_Frame P_Multi.
From Coq Require Import Lia ZifyBool ZifyNat ZifyN.
Open Scope N_scope.

Definition cat : aconv := many_of (py "categories") (py "CATEGORIES") [Text].
Definition text_group (p : xp * list (list N)) : group :=
  mk_g (fst p) (fst p) (map VStr (snd p)) (map text_serialize (snd p)).

Lemma find_text v q : find_conv true [Text] (VStr v) q = Ok (Text, q). Proof. reflexivity. Qed.
Lemma split_nonempty s l : split_value_list s = (l, None) -> l <> [].
Proof.
  intros H ->. unfold split_value_list in H.
  destruct (split_on c_comma s) as [|v it] eqn:E; [now apply split_on_nonempty in E|].
  now apply split_merge_join in H.
Qed.

Section Cat.
Variable X : ext.
Lemma text_group_good p : NoDup (keys (fst p)) -> ~ In MERGE (keys (fst p)) -> snd p <> [] -> good_group X [Text] eq (text_group p).
Proof.
  destruct p as [q vs]; cbn [fst snd]. intros ND NM NE. split; [easy|]. split; [easy|]. split; [cbn; now destruct vs|]. cbn [g_q g_q2 g_vs g_ss text_group fst snd].
  clear NE. induction vs as [|v vs IH]; cbn; constructor; [|easy]. exists Text, q. split; [easy|]. intro zs. now exists zs.
Qed.

Section M.
Variable M : Type.
Variable load_m : mkind -> list N -> list item -> zones -> res (M * zones).

Definition par_list (o : option xpar) (l : list xp) : Prop := (o = None /\ l = []) \/ o = Some (XMany l).
Lemma values_read a vals : forall ps q1 q0 l pl (st st' : lst M),
  populate_values X a Text vals ps st = Ok st' ->
  dict_set MERGE (raw [py "TRUE"]) ps = q1 -> dict_set MERGE (raw [py "FALSE"]) ps = q0 ->
  dict_set MERGE (raw [py "TRUE"]) q1 = q1 -> dict_set MERGE (raw [py "FALSE"]) q1 = q0 ->
  get_attr (a_attr a) (l_comp st) = AMany l -> par_list (dict_get (a_key a) (c_params (l_comp st))) pl -> vals <> [] ->
  exists vs, Forall2 TextEsc vals vs /\ get_attr (a_attr a) (l_comp st') = AMany (l ++ map VStr vs) /\
    dict_get (a_key a) (c_params (l_comp st')) = Some (XMany (pl ++ repeat q1 (pred (length vals)) ++ [q0])).
Proof.
  induction vals as [|w vals IH]; intros ps q1 q0 l pl st st' H E1 E0 E11 E10 HA HP NE; [easy|]. clear NE.
  cbn [populate_values] in H. unbind3 H. cbn [vparse] in Ha. unbind Ha. injection Ha as <- <- <-. apply text_parse_spec in Ha0.
  rewrite E1, E0 in H. cbv zeta in H.
  unbind H. rename Ha into HAP. unbind H. rename Ha into HAV.
  match type of Ha0 with TextEsc _ ?x => rename x into t end. match type of HAV with _ = Ok ?x => rename x into c2 end.
  match type of HAP with _ = Ok ?x => rename x into c1 end.
  assert (A1 : c_attrs c1 = c_attrs (l_comp st) /\ dict_get (a_key a) (c_params c1) = Some (XMany (pl ++ [match vals with [] => q0 | _ => q1 end]))).
  { unfold append_params in HAP. destruct HP as [[HP ->]|HP]; rewrite HP in HAP; injection HAP as <-; cbn; now rewrite dict_get_set_same. }
  destruct A1 as [A1 A2].
  assert (B1 : get_attr (a_attr a) c2 = AMany (l ++ [VStr t]) /\ c_params c2 = c_params c1).
  { unfold append_value in HAV. unfold get_attr in *. rewrite A1 in HAV.
    destruct (dict_get (a_attr a) (c_attrs (l_comp st))) as [[| |l']|]; try discriminate. injection HA as ->. injection HAV as <-.
    cbn. now rewrite dict_get_set_same. }
  destruct B1 as [B1 B2].
  destruct vals as [|w2 vals].
  - cbn in H. injection H as <-. exists [t]. split; [now repeat constructor|]. cbn [l_comp map]. split; [exact B1|].
    rewrite B2. exact A2.
  - eapply IH with (l := l ++ [VStr t]) (pl := pl ++ [q1]) in H; [|exact E11|exact E10|exact E11|exact E10|exact B1|right; cbn [l_comp]; rewrite B2; exact A2|easy].
    destruct H as (vs & F & G1 & G2). exists (t :: vs). split; [now constructor|]. split.
    + rewrite G1. cbn [map]. now rewrite <- app_assoc.
    + rewrite G2. cbn [length pred repeat]. now rewrite <- app_assoc.
Qed.

Definition cat_state (gs : list group) (c : comp M) : Prop :=
  get_attr (py "categories") c = AMany (flat_map g_vs gs) /\ dict_get (py "CATEGORIES") (c_params c) = stored gs.

Lemma line_read l gs (st st' : lst M) : plain_params l -> cat_state gs (l_comp st) ->
  populate_multi X cat [Text] l st = Ok st' ->
  exists vs, vs <> [] /\ ValueList (cl_value l) vs /\ cat_state (gs ++ [text_group (cl_params l, vs)]) (l_comp st').
Proof.
  intros (ND & NV & NM) (HA & HP) H. unfold populate_multi in H. unbind2 H. unfold prepare_params in Ha.
  rewrite (proj2 (dict_get_None VALUE (cl_params l)) NV) in Ha. injection Ha as <- <-.
  rewrite dict_del_new in H by exact NV. unbind H. cbn [vsplit] in Ha.
  destruct (split_value_list (cl_value l)) as [pcs [e|]] eqn:ES; [discriminate|]. injection Ha as <-.
  pose proof (split_nonempty _ _ ES) as NE.
  eapply (values_read cat) with (l := flat_map g_vs gs) (pl := flat_map group_pars gs) in H;
    [|reflexivity|reflexivity| | |exact HA| |exact NE].
  - destruct H as (vs & F & G1 & G2). exists vs.
    assert (LE : length pcs = length vs) by (clear - F; induction F; cbn; congruence).
    split; [intros ->; destruct pcs; easy|]. split.
    + apply split_join in ES. rewrite <- ES. unfold join_value_list. change [c_comma] with [44]. now apply pieces_ValueList.
    + split; [rewrite flat_map_app; cbn [flat_map]; rewrite app_nil_r; exact G1|].
      change (py "CATEGORIES") with (a_key cat). rewrite G2. unfold stored. destruct (gs ++ [_]) eqn:EG; [now destruct gs|].
      rewrite <- EG, flat_map_app. cbn [flat_map]. rewrite app_nil_r. unfold group_pars at 3, marks, marked.
      cbn [g_vs g_q text_group fst snd]. rewrite map_length, <- LE. rewrite !dict_set_new by exact NM. reflexivity.
  - rewrite (dict_set_new _ _ (cl_params l)) by exact NM. apply dict_set_last, NM.
  - rewrite !(dict_set_new _ _ (cl_params l)) by exact NM. apply dict_set_last, NM.
  - change (a_key cat) with (py "CATEGORIES"). rewrite HP. destruct gs; [now left|now right].
Qed.

Lemma cat_lookup : lookup CEvent (py "CATEGORIES") = [cat]. Proof. vm_compute. reflexivity. Qed.
Definition not_cat (a : aconv) : bool :=
  existsb (str_eqb (py "CATEGORIES")) (a_names a) ||
  (negb (str_eqb (a_attr a) (py "categories")) && negb (existsb (str_eqb (py "CATEGORIES")) (pkeys a))).
Lemma cat_others a : In a (class_fields CEvent) -> ~ In (py "CATEGORIES") (a_names a) ->
  a_attr a <> py "categories" /\ ~ In (py "CATEGORIES") (pkeys a).
Proof.
  intros I NI. assert (H : forallb not_cat (class_fields CEvent) = true) by (vm_compute; reflexivity).
  rewrite forallb_forall in H. apply H in I. unfold not_cat in I.
  destruct (existsb (str_eqb (py "CATEGORIES")) (a_names a)) eqn:E; [apply existsb_str in E; contradiction|].
  cbn [orb] in I. apply andb_prop in I as [I1 I2]. split.
  - intros E2. rewrite E2 in I1. now rewrite str_eqb_refl in I1.
  - intro I3. apply existsb_str in I3. now rewrite I3 in I2.
Qed.

Lemma items_read its : forall gs (st st' : lst M), c_cls (l_comp st) = CEvent ->
  populate_items X M load_m its st = Ok st' -> Forall plain_params (lines (py "CATEGORIES") its) ->
  cat_state gs (l_comp st) ->
  exists vss, Forall2 (fun l vs => vs <> [] /\ ValueList (cl_value l) vs) (lines (py "CATEGORIES") its) vss /\
    cat_state (gs ++ map text_group (combine (map cl_params (lines (py "CATEGORIES") its)) vss)) (l_comp st').
Proof.
  induction its as [|it its IH]; intros gs st st' HC H HP HS; cbn [populate_items] in H.
  { injection H as <-. exists []. split; [constructor|]. cbn. now rewrite app_nil_r. }
  unbind H. pose proof (populate_item_spec X M load_m _ _ _ Ha) as (HC1 & _).
  unfold lines in HP |- *. cbn [flat_map] in HP |- *. fold (lines (py "CATEGORIES") its) in HP |- *.
  assert (OTH : item_name it <> py "CATEGORIES" -> cat_state gs (l_comp a)).
  { intro NN. eapply (item_other X M load_m (py "categories") (py "CATEGORIES")) in Ha.
    - destruct HS as [S1 S2]. unfold cat_state, get_attr in *. destruct Ha as [-> ->]. now split.
    - intros b Hb. rewrite HC in Hb. pose proof Hb as HL. apply lookup_In in HL as [I1 I2]. apply cat_others; [easy|].
      intro I3. assert (HB : In b (lookup CEvent (py "CATEGORIES"))) by (now apply lookup_In).
      rewrite cat_lookup in HB. destruct HB as [<-|[]]. destruct I2 as [I2|[]]. congruence. }
  destruct it as [l|n sub].
  - destruct (str_eqb (cl_name l) (py "CATEGORIES")) eqn:EN; cbn [app] in HP |- *.
    + apply str_eqb_eq in EN. inversion HP as [|? ? HP1 HP2]; subst.
      rewrite (item_one X M load_m cat) in Ha by (rewrite HC; cbn [item_name]; rewrite EN; apply cat_lookup).
      unbind2 Ha. cbn [populate_conv cat many_of a_kind] in Ha0. unbind Ha0. injection Ha0 as <- <-. injection Ha as <-.
      change (mk_aconv (py "categories") [py "CATEGORIES"] 0 (KVal [Text] true false SPlain)) with cat in Ha1.
      destruct (line_read _ _ _ _ HP1 HS Ha1) as (vs & NE & VL & HS2).
      eapply IH in H; [|rewrite HC1; exact HC|exact HP2|exact HS2]. destruct H as (vss & F & HS3).
      exists (vs :: vss). split; [now constructor|]. cbn [map combine]. rewrite <- app_assoc in HS3. exact HS3.
    + apply str_eqb_neq in EN. eapply IH in H; [exact H|now rewrite HC1|exact HP|now apply OTH].
  - cbn [app] in HP |- *. destruct (str_eqb n (py "CATEGORIES")) eqn:EN.
    + apply str_eqb_eq in EN. exfalso. rewrite (item_one X M load_m cat) in Ha by (rewrite HC; cbn [item_name]; rewrite EN; apply cat_lookup).
      discriminate Ha.
    + apply str_eqb_neq in EN. eapply IH in H; [exact H|now rewrite HC1|exact HP|now apply OTH].
Qed.
End M.

Lemma event_read n its zs x zs' : load_entry X CEvent n its zs = Ok (x, zs') ->
  Forall plain_params (lines (py "CATEGORIES") its) ->
  exists vss, Forall2 (fun l vs => vs <> [] /\ ValueList (cl_value l) vs) (lines (py "CATEGORIES") its) vss /\
    cat_state alarm (map text_group (combine (map cl_params (lines (py "CATEGORIES") its)) vss)) x.
Proof.
  intros H HP. unfold load_entry, load_comp, populate_instance in H. destruct (str_eqb _ _); [|discriminate].
  unbind H. unbind H. injection H as <- <-.
  eapply (items_read alarm _ its []) in Ha; [|reflexivity|exact HP|split; vm_compute; reflexivity].
  destruct Ha as (vss & F & S1 & S2). exists vss. split; [exact F|].
  apply (post_other X alarm (py "categories")) in Ha0 as [P1 P2].
  - unfold cat_state, get_attr. rewrite P1, P2. split; [exact S1|exact S2].
  - intros b Hb. cbn [c_cls new_comp] in Hb. apply converters_In in Hb.
    assert (B : forallb (fun b => negb (str_eqb (a_attr b) (py "categories")) || negb (is_span b)) (class_fields CEvent) = true) by (vm_compute; reflexivity).
    rewrite forallb_forall in B. apply B in Hb. intro Eb. rewrite Eb, str_eqb_refl in Hb. now destruct (is_span b).
Qed.

Lemma groups_good ls vss : Forall plain_params ls -> Forall2 (fun l vs => vs <> []) ls vss ->
  Forall (good_group X [Text] eq) (map text_group (combine (map cl_params ls) vss)).
Proof.
  intros HP F. induction F as [|l vs ls vss H F IH]; cbn; [constructor|]. inversion HP as [|? ? (ND & NV & NM) HP']; subst.
  constructor; [|now apply IH]. now apply text_group_good.
Qed.
Lemma groups_values (ps : list xp) : forall vss, length ps = length vss ->
  flat_map g_vs (map text_group (combine ps vss)) = map VStr (concat vss).
Proof.
  induction ps as [|p ps IH]; intros [|vs vss] L; try discriminate; [easy|]. injection L as L. cbn. now rewrite IH, map_app.
Qed.
Lemma Forall2_len {A B} (R : A -> B -> Prop) l l' : Forall2 R l l' -> length l = length l'.
Proof. induction 1; cbn; congruence. Qed.
(** The stored parameters depend on the numbers of values only. *)
Lemma groups_stored (ps : list xp) : forall vss vss', length ps = length vss -> map (@length _) vss = map (@length _) vss' ->
  stored (map text_group (combine ps vss)) = stored (map text_group (combine ps vss')).
Proof.
  assert (H : forall ps vss vss', length ps = length vss -> map (@length _) vss = map (@length _) vss' ->
    flat_map group_pars (map text_group (combine ps vss)) = flat_map group_pars (map text_group (combine ps vss'))).
  { clear ps. induction ps as [|p ps IH]; intros [|vs vss] [|vs' vss'] L E; try discriminate; [easy|].
    injection L as L. injection E as E1 E2. cbn [combine map flat_map]. rewrite (IH vss vss') by easy. f_equal.
    unfold group_pars, text_group. cbn [g_vs g_q fst snd]. now rewrite !map_length, E1. }
  intros vss vss' L E. destruct ps as [|p ps], vss as [|vs vss], vss' as [|vs' vss']; try discriminate; [easy|].
  cbn [combine map stored]. f_equal. f_equal. apply (H (p :: ps) (vs :: vss) (vs' :: vss')); easy.
Qed.

(** ** Writing *)
Lemma set_cats_state gs vs x : dict_get (py "CATEGORIES") (c_params x) = stored gs -> flat_map g_vs gs = map VStr vs ->
  cat_state alarm gs (set_cats vs x).
Proof. intros HP E. split; [|exact HP]. unfold get_attr. cbn. now rewrite dict_get_set_same, E. Qed.

Notation ser a x := (serialize_conv X alarm (dump_alarm X) a x).
Lemma cat_written gs x zs : Forall (good_group X [Text] eq) gs -> cat_state alarm gs x ->
  ser cat x zs = Ok (map (group_line (py "CATEGORIES")) gs, zs).
Proof.
  intros HG (HA & HP).
  destruct (serialize_multi_groups X (py "CATEGORIES") [Text] eq (fun _ => eq_refl) (fun a b c => @eq_trans _ a b c) cat x gs HG HA HP zs)
    as (zs' & E & <-). exact E.
Qed.
Lemma cat_fresh vs x zs : get_attr (py "categories") x = AMany (map VStr vs) -> dict_get (py "CATEGORIES") (c_params x) = None ->
  ser cat x zs = Ok (map (fun v => ILine (mk_line (py "CATEGORIES") [] (text_serialize v))) vs, zs).
Proof.
  intros HA HP. change (ser cat x zs) with (serialize_multi X cat (py "CATEGORIES") [Text] x zs). unfold serialize_multi.
  change (a_attr cat) with (py "categories"). change (a_key cat) with (py "CATEGORIES"). rewrite HA, HP.
  clear HA HP x. induction vs as [|v vs IH]; [easy|]. cbn [map serialize_values]. cbn [dict_get dict_del find_conv isinst bind vserialize].
  rewrite IH. reflexivity.
Qed.
Lemma cat_wrong_length l ps x zs : get_attr (py "categories") x = AMany l -> dict_get (py "CATEGORIES") (c_params x) = Some (XMany ps) ->
  ps <> [] -> length ps <> length l -> ser cat x zs = Err ValueError.
Proof.
  intros HA HP NE NL. change (ser cat x zs) with (serialize_multi X cat (py "CATEGORIES") [Text] x zs). unfold serialize_multi.
  change (a_attr cat) with (py "categories"). change (a_key cat) with (py "CATEGORIES"). rewrite HA, HP.
  destruct ps as [|p ps]; [easy|]. apply Nat.eqb_neq in NL. now rewrite NL.
Qed.

(** Other converters do not look at the categories. *)
Lemma ser_other b v x zs : c_cls x = CEvent -> a_attr b <> py "categories" ->
  ser b (set_attrs (dict_set (py "categories") v (c_attrs x)) x) zs = ser b x zs.
Proof.
  intros HC HB. unfold serialize_conv.
  assert (G : get_attr (a_attr b) (set_attrs (dict_set (py "categories") v (c_attrs x)) x) = get_attr (a_attr b) x).
  { unfold get_attr. cbn [set_attrs c_attrs]. rewrite dict_get_set_other; [reflexivity|congruence]. }
  destruct (a_kind b) as [convs [] r s|k|m| |].
  - unfold serialize_multi. now rewrite G.
  - unfold serialize_single. now rewrite G.
  - unfold serialize_span. now rewrite G.
  - reflexivity.
  - unfold serialize_action, action. cbn [set_attrs c_cls]. now rewrite HC.
  - reflexivity.
Qed.
Definition cat_only (b : aconv) : bool := negb (str_eqb (a_attr b) (py "categories")).
Lemma ser_all l v x : c_cls x = CEvent -> forallb cat_only l = true ->
  forall zs, serialize_convs X alarm (dump_alarm X) l (set_attrs (dict_set (py "categories") v (c_attrs x)) x) zs =
  serialize_convs X alarm (dump_alarm X) l x zs.
Proof.
  intros HC. induction l as [|b l IH]; intros HF zs; cbn [serialize_convs]; [easy|]. cbn [forallb] in HF. apply andb_prop in HF as [H1 H2].
  rewrite ser_other; [|easy|unfold cat_only in H1; intro E; rewrite E, str_eqb_refl in H1; discriminate].
  destruct (ser b x zs) as [[its zs1]|e]; [|easy]. cbn [bind]. now rewrite IH.
Qed.
Lemma convs_split : exists l1 l2, converters CEvent = l1 ++ cat :: l2 /\ forallb cat_only l1 = true /\ forallb cat_only l2 = true.
Proof.
  exists (firstn 17 (converters CEvent)), (skipn 18 (converters CEvent)). split; [vm_compute; reflexivity|]. split; vm_compute; reflexivity.
Qed.
Lemma serialize_convs_app M dm l1 l2 (x : comp M) zs : serialize_convs X M dm (l1 ++ l2) x zs =
  do (i1, z1) <- serialize_convs X M dm l1 x zs; do (i2, z2) <- serialize_convs X M dm l2 x z1; Ok (i1 ++ i2, z2).
Proof.
  revert zs. induction l1 as [|a l1 IH]; intro zs; cbn [serialize_convs app bind].
  - destruct (serialize_convs X M dm l2 x zs) as [[i2 z2]|e]; easy.
  - destruct (serialize_conv X M dm a x zs) as [[i z]|e]; [|easy]. cbn [bind]. rewrite IH.
    destruct (serialize_convs X M dm l1 x z) as [[i1 z1]|e]; [|easy]. cbn [bind].
    destruct (serialize_convs X M dm l2 x z1) as [[i2 z2]|e]; [|easy]. cbn [bind]. now rewrite app_assoc.
Qed.
(** If an event could be written, it can be written with other categories exactly if these can. *)
Lemma dump_cats v x zs r : c_cls x = CEvent -> dump_entry X x zs = Ok r ->
  let x' := set_attrs (dict_set (py "categories") v (c_attrs x)) x in
  (forall zs', exists its, ser cat x zs' = Ok (its, zs')) ->
  ((forall zs', exists its, ser cat x' zs' = Ok (its, zs')) -> exists r', dump_entry X x' zs = Ok r') /\
  ((forall zs', ser cat x' zs' = Err ValueError) -> dump_entry X x' zs = Err ValueError).
Proof.
  intros HC HD x' HX. unfold dump_entry, dump_comp in *. change (c_cls x') with (c_cls x). change (c_name x') with (c_name x). change (c_extra x') with (c_extra x).
  rewrite HC in *. destruct convs_split as (l1 & l2 & E & F1 & F2). rewrite E, serialize_convs_app in *.
  unfold x'. rewrite ser_all by easy. cbn [serialize_convs] in *.
  destruct (serialize_convs X alarm (dump_alarm X) l1 x zs) as [[i1 z1]|e]; [|discriminate]. cbn [bind] in *.
  destruct (HX z1) as (i2 & E2). rewrite E2 in HD. cbn [bind] in *.
  destruct (serialize_convs X alarm (dump_alarm X) l2 x z1) as [[i3 z3]|e] eqn:E3; [|discriminate].
  split.
  - intros HX'. destruct (HX' z1) as (i2' & E2'). unfold x' in E2'. rewrite E2'. cbn [bind]. rewrite ser_all, E3 by easy. cbn [bind] in *.
    unfold Container in *. destruct (upper (c_name x)) as [|c0 n0]; [discriminate HD|]. cbn [bind]. eauto.
  - intros HX'. specialize (HX' z1). unfold x' in HX'. now rewrite HX'.
Qed.

Lemma lines_app n a b : lines n (a ++ b) = lines n a ++ lines n b. Proof. apply flat_map_app. Qed.
Lemma lines_none n its : (forall l, In (ILine l) its -> cl_name l <> n) -> lines n its = [].
Proof.
  induction its as [|it its IH]; intro H; [easy|]. unfold lines. cbn [flat_map]. fold (lines n its). rewrite IH by (intros; apply H; now right).
  destruct it as [l|m sub]; [|easy]. assert (cl_name l <> n) as Hn by (apply H; now left). apply str_eqb_neq in Hn. now rewrite Hn.
Qed.
Lemma Container_ICont n its it : Container n its = Ok it -> exists m, it = ICont m its.
Proof. unfold Container. destruct (upper n); [discriminate|]. intros [= <-]. eauto. Qed.
Lemma dump_alarm_ICont x zs it zs' : dump_alarm X x zs = Ok (it, zs') -> exists m its, it = ICont m its.
Proof. unfold dump_alarm, dump_comp. intro H. unbind2 H. unbind H. injection H as <- <-. apply Container_ICont in Ha0 as [m ->]. eauto. Qed.
Lemma others_lines n l x : (forall b, In b l -> In b (class_fields CEvent) /\ ~ In n (a_names b)) ->
  forall zs its zs', serialize_convs X alarm (dump_alarm X) l x zs = Ok (its, zs') -> lines n its = [].
Proof.
  intro HB. induction l as [|b l IH]; intros zs its zs' H; cbn [serialize_convs] in H; [now injection H as <- <-|].
  unbind2 H. unbind2 H. injection H as <- <-. rewrite lines_app. match goal with H : serialize_convs _ _ _ _ _ _ = _ |- _ => apply IH in H; [rewrite H|intros; apply HB; now right] end.
  rewrite app_nil_r. destruct (HB b (or_introl eq_refl)) as [I NI].
  pose proof (serialize_conv_spec X alarm (dump_alarm X) CEvent b x _ _ _ I Ha) as S.
  assert (HL : forall its, Forall (line_named (a_names b)) its -> lines n its = []).
  { intros is F. apply lines_none. intros ln Hl E. rewrite Forall_forall in F. destruct (F _ Hl) as (l2 & [= <-] & I2). now rewrite E in I2. }
  destruct (a_kind b) as [convs m r s|k|m| |]; auto.
  - apply lines_none. intros ln Hl. destruct (in_split _ _ Hl) as (l1 & l2 & ->).
    apply Forall2_app_inv_r in S as (m1 & m2 & _ & F & _). inversion F as [|y it' m2' l2' (z1 & z2 & D) F']; subst.
    apply dump_alarm_ICont in D as (? & ? & ?). discriminate.
  - now subst.
Qed.
Definition no_cat_name (b : aconv) : bool := negb (existsb (str_eqb (py "CATEGORIES")) (a_names b)).
Lemma convs_split2 : exists l1 l2, converters CEvent = l1 ++ cat :: l2 /\ forallb no_cat_name l1 = true /\ forallb no_cat_name l2 = true.
Proof.
  exists (firstn 17 (converters CEvent)), (skipn 18 (converters CEvent)). split; [vm_compute; reflexivity|]. split; vm_compute; reflexivity.
Qed.
Lemma no_cat_name_spec b : no_cat_name b = true -> ~ In (py "CATEGORIES") (a_names b).
Proof. unfold no_cat_name. intros H I. apply existsb_str in I. now rewrite I in H. Qed.
Lemma dump_lines x zs it zs' : c_cls x = CEvent -> lines (py "CATEGORIES") (c_extra x) = [] -> dump_entry X x zs = Ok (it, zs') ->
  exists n out zs1 its zs2, it = ICont n out /\ ser cat x zs1 = Ok (its, zs2) /\ lines (py "CATEGORIES") out = lines (py "CATEGORIES") its.
Proof.
  intros HC HE HD. unfold dump_entry, dump_comp in HD. rewrite HC in HD. unbind2 HD. unbind HD. injection HD as <- <-.
  apply Container_ICont in Ha0 as [n ->]. destruct convs_split2 as (l1 & l2 & E & F1 & F2).
  assert (HI : forall b, In b (l1 ++ cat :: l2) -> In b (class_fields CEvent)) by (intros b0; rewrite <- E; now rewrite converters_In).
  rewrite E, serialize_convs_app in Ha. unbind2 Ha. unbind2 Ha. injection Ha as <- <-.
  cbn [serialize_convs] in Ha1. unbind2 Ha1. unbind2 Ha1. injection Ha1 as <- <-.
  eexists n, _, _, _, _. split; [reflexivity|]. split; [eassumption|]. rewrite !lines_app, HE.
  match goal with H : serialize_convs _ _ _ l1 _ _ = _ |- _ => apply (others_lines (py "CATEGORIES")) in H; [rewrite H|] end.
  match goal with H : serialize_convs _ _ _ l2 _ _ = _ |- _ => apply (others_lines (py "CATEGORIES")) in H; [rewrite H|] end.
  - now rewrite !app_nil_r.
  - intros c0 Hc. rewrite forallb_forall in F2. split; [apply HI, in_or_app; right; now right|apply no_cat_name_spec; auto].
  - intros c0 Hc. rewrite forallb_forall in F1. split; [apply HI, in_or_app; now left|apply no_cat_name_spec; auto].
Qed.
Lemma unknown_lines c n its us : Unknown c its us -> In n (known_names c) -> ~ (c = CCalendar /\ n = py "VTIMEZONE") -> lines n us = [].
Proof.
  intros U I NZ. apply lines_none. intros l Hl E. revert Hl. induction U as [|it its us K U IH|it its us K U IH]; [easy|easy|].
  intros [->|H]; [|auto]. apply K. cbn. rewrite E. tauto.
Qed.

Lemma lines_name n its l : In l (lines n its) -> cl_name l = n.
Proof.
  unfold lines. rewrite in_flat_map. intros ([l0|] & _ & H); [|easy]. destruct (str_eqb _ _) eqn:E; [|easy]. destruct H as [<-|[]].
  now apply str_eqb_eq.
Qed.
Lemma carry_lines ls vss : (forall l, In l ls -> cl_name l = py "CATEGORIES") -> Forall2 (fun _ vs => vs <> []) ls vss ->
  carry ls vss (lines (py "CATEGORIES") (map (group_line (py "CATEGORIES")) (map text_group (combine (map cl_params ls) vss)))).
Proof.
  intros HN F. induction F as [|l vs ls vss NE F IH]; [exact I|]. unfold lines. cbn [map combine flat_map group_line].
  change (cl_name (ContentLine (py "CATEGORIES") (g_q2 (text_group (cl_params l, vs))) (join_value_list (g_ss (text_group (cl_params l, vs)))))) with (py "CATEGORIES").
  rewrite str_eqb_refl. cbn [app carry]. split.
  - split; [symmetry; apply HN; now left|]. split; [reflexivity|]. cbn [ContentLine cl_value]. unfold join_value_list.
    change [c_comma] with [44]. apply pieces_ValueList; cbn; [now destruct vs|]. clear. induction vs as [|v vs IHv]; constructor; [|easy].
    apply text_parse_spec, text_roundtrip.
  - apply IH. intros; apply HN; now right.
Qed.

Lemma Forall2_weaken {A B} (R R' : A -> B -> Prop) l l' : (forall a b, R a b -> R' a b) -> Forall2 R l l' -> Forall2 R' l l'.
Proof. intros HI. induction 1; constructor; auto. Qed.
Lemma event_extra n its zs x zs' : load_entry X CEvent n its zs = Ok (x, zs') -> c_cls x = CEvent /\ lines (py "CATEGORIES") (c_extra x) = [].
Proof.
  intro H. unfold load_entry, load_comp in H. apply populate_instance_extra in H as (-> & C & N & us & Ex & U).
  split; [exact C|]. rewrite Ex. cbn [c_extra new_comp app]. eapply unknown_lines; [exact U| |]; [cbn; tauto|intros [? ?]; easy].
Qed.

Lemma read_lemma n its zs x zs' : load_entry X CEvent n its zs = Ok (x, zs') ->
  Forall plain_params (lines (py "CATEGORIES") its) ->
  exists vss, Forall2 (fun l vs => ValueList (cl_value l) vs) (lines (py "CATEGORIES") its) vss /\
    get_attr (py "categories") x = AMany (map VStr (concat vss)).
Proof.
  intros H HP. destruct (event_read _ _ _ _ _ H HP) as (vss & F & S1 & S2). exists vss. split; [refine (Forall2_weaken _ _ _ _ _ F); now intros ? ? []|].
  rewrite S1. f_equal. apply groups_values. rewrite map_length. eapply Forall2_len, F.
Qed.

(** Splitting the new values like the old ones. *)
Fixpoint chunks {A} (ns : list nat) (l : list A) : list (list A) :=
  match ns with [] => [] | n :: ns' => firstn n l :: chunks ns' (skipn n l) end.
Lemma chunks_spec {A} ns : forall l : list A, length l = fold_right plus O ns -> concat (chunks ns l) = l /\ map (@length A) (chunks ns l) = ns.
Proof.
  induction ns as [|n ns IH]; intros l L; cbn in *; [now destruct l|].
  destruct (IH (skipn n l)) as [E1 E2]; [rewrite skipn_length; lia|]. rewrite E1, E2, firstn_skipn. split; [easy|]. f_equal. rewrite firstn_length. lia.
Qed.
Lemma concat_len {A} (l : list (list A)) : length (concat l) = fold_right plus O (map (@length A) l).
Proof. induction l; cbn; [easy|]. rewrite app_length. congruence. Qed.

Lemma modified_state n its zs x zs' vs : load_entry X CEvent n its zs = Ok (x, zs') ->
  Forall plain_params (lines (py "CATEGORIES") its) ->
  forall vss, Forall2 (fun l vs => ValueList (cl_value l) vs) (lines (py "CATEGORIES") its) vss -> length vs = length (concat vss) ->
  exists vss', concat vss' = vs /\ map (@length _) vss' = map (@length _) vss /\
    Forall2 (fun _ vs => vs <> []) (lines (py "CATEGORIES") its) vss' /\
    cat_state alarm (map text_group (combine (map cl_params (lines (py "CATEGORIES") its)) vss')) (set_cats vs x).
Proof.
  intros H HP vss FV L. destruct (event_read _ _ _ _ _ H HP) as (vss0 & F & S1 & S2).
  assert (vss0 = vss) as ->.
  { eapply (Forall2_det (fun l vs => ValueList (cl_value l) vs)); [|refine (Forall2_weaken _ _ _ _ _ F); now intros ? ? []|exact FV].
    intros a b c. apply value_list_det. }
  exists (chunks (map (@length _) vss) vs). rewrite concat_len in L. destruct (chunks_spec _ _ L) as [E1 E2].
  split; [exact E1|]. split; [exact E2|].
  assert (LEN : length (chunks (map (@length _) vss) vs) = length vss) by (rewrite <- (map_length (@length _)), E2, map_length; reflexivity).
  assert (NEs : Forall2 (fun _ vs => vs <> []) (lines (py "CATEGORIES") its) (chunks (map (@length _) vss) vs)).
  { clear - F E2 LEN. revert E2 LEN. generalize (chunks (map (@length _) vss) vs) as ws. induction F as [|l v0 ls vss [NE V] F IH]; intros [|w ws] E L; try discriminate; [constructor|].
    injection E as E1 E2. injection L as L. constructor; [|now apply IH]. destruct w; [|easy]. destruct v0; [easy|discriminate]. }
  split; [exact NEs|].
  apply set_cats_state.
  - rewrite S2. apply groups_stored; [rewrite map_length; eapply Forall2_len, F|now symmetry].
  - rewrite groups_values; [now rewrite E1|]. rewrite map_length, LEN. eapply Forall2_len, F.
Qed.

(** The lines written for an event read, possibly with other values. *)
Lemma modified_lines n its zs x zs' vs it z1 z2 : load_entry X CEvent n its zs = Ok (x, zs') ->
  Forall plain_params (lines (py "CATEGORIES") its) ->
  forall vss, Forall2 (fun l vs => ValueList (cl_value l) vs) (lines (py "CATEGORIES") its) vss -> length vs = length (concat vss) ->
  dump_entry X (set_cats vs x) z1 = Ok (it, z2) ->
  exists m out vss', it = ICont m out /\ concat vss' = vs /\ map (@length _) vss' = map (@length _) vss /\
    carry (lines (py "CATEGORIES") its) vss' (lines (py "CATEGORIES") out).
Proof.
  intros H HP vss FV L HD. destruct (modified_state _ _ _ _ _ vs H HP vss FV L) as (vss' & E1 & E2 & NE & ST).
  destruct (event_extra _ _ _ _ _ H) as [HC HE].
  destruct (dump_lines (set_cats vs x) z1 it z2 HC HE HD) as (m & out & za & its' & zb & -> & S & EL).
  exists m, out, vss'. split; [easy|]. split; [easy|]. split; [easy|]. rewrite EL.
  rewrite (cat_written _ _ _ (groups_good _ _ HP NE) ST) in S. injection S as <- <-. apply carry_lines; [|exact NE].
  intros l Hl. eapply lines_name, Hl.
Qed.
Lemma set_same vs x : get_attr (py "categories") x = AMany (map VStr vs) -> set_cats vs x = x.
Proof.
  unfold set_cats, get_attr. intro H. destruct (dict_get _ _) as [at0|] eqn:E; [|discriminate]. subst at0.
  assert (D : dict_set (py "categories") (AMany (map VStr vs)) (c_attrs x) = c_attrs x).
  { revert E. generalize (c_attrs x) as d. generalize (py "categories") as k. intros k d. induction d as [|[k2 v2] d IH]; cbn; [easy|].
    destruct (str_eqb k k2) eqn:Ek; [|intro E; now rewrite IH]. apply str_eqb_eq in Ek. intros [= ->]. now subst. }
  rewrite D. now destruct x.
Qed.
Lemma kept_lines n its zs x zs' it z1 z2 : load_entry X CEvent n its zs = Ok (x, zs') ->
  Forall plain_params (lines (py "CATEGORIES") its) -> dump_entry X x z1 = Ok (it, z2) ->
  exists out vss, it = ICont (py "VEVENT") out /\
    Forall2 (fun l vs => ValueList (cl_value l) vs) (lines (py "CATEGORIES") its) vss /\
    carry (lines (py "CATEGORIES") its) vss (lines (py "CATEGORIES") out).
Proof.
  intros H HP HD. destruct (read_lemma _ _ _ _ _ H HP) as (vss & F & HA).
  pose proof (dump_flat X _ _ _ _ _ _ _ _ _ _ _ _ H HD) as (-> & _ & _ & ks & -> & _).
  rewrite <- (set_same _ _ HA) in HD.
  destruct (modified_lines _ _ _ _ _ _ _ _ _ H HP vss F eq_refl HD) as (m & out & vss' & E & E1 & E2 & CA). injection E as <- E. subst out.
  exists (ks ++ c_extra x), vss. split; [easy|]. split; [exact F|].
  assert (vss' = vss) as <-; [|exact CA]. clear - E1 E2. revert vss E1 E2. induction vss' as [|w ws IH]; intros [|v vs] E1 E2; try discriminate; [easy|].
  injection E2 as E2 E3. cbn in E1. assert (w = v /\ concat ws = concat vs) as [-> E4].
  { clear - E1 E2. revert v E1 E2. induction w as [|a w IH]; intros [|b v] E1 E2; try discriminate; [easy|]. injection E1 as -> E1. injection E2 as E2.
    destruct (IH v E1 E2) as [-> ->]. easy. }
  f_equal. now apply IH.
Qed.
(** Exactly the lists of the same length can be written, if there were lines. *)
Lemma writable_iff n its zs x zs' z1 r vs : load_entry X CEvent n its zs = Ok (x, zs') ->
  Forall plain_params (lines (py "CATEGORIES") its) -> dump_entry X x z1 = Ok r ->
  forall vss, Forall2 (fun l vs => ValueList (cl_value l) vs) (lines (py "CATEGORIES") its) vss ->
  ((exists r', dump_entry X (set_cats vs x) z1 = Ok r') <-> lines (py "CATEGORIES") its = [] \/ length vs = length (concat vss)) /\
  (lines (py "CATEGORIES") its <> [] -> length vs <> length (concat vss) -> dump_entry X (set_cats vs x) z1 = Err ValueError).
Proof.
  intros H HP HD vss F. destruct (event_extra _ _ _ _ _ H) as [HC HE].
  destruct (event_read _ _ _ _ _ H HP) as (vss0 & F0 & S1 & S2).
  assert (NE0 : Forall2 (fun _ vs => vs <> []) (lines (py "CATEGORIES") its) vss0) by (refine (Forall2_weaken _ _ _ _ _ F0); now intros ? ? []).
  assert (vss0 = vss) as ->.
  { eapply (Forall2_det (fun l vs => ValueList (cl_value l) vs)); [|refine (Forall2_weaken _ _ _ _ _ F0); now intros ? ? []|exact F].
    intros a b c. apply value_list_det. }
  pose proof (groups_good _ _ HP NE0) as GG.
  assert (HX : forall zs', exists its, ser cat x zs' = Ok (its, zs')).
  { intro z. eexists. apply (cat_written _ _ _ GG). now split. }
  destruct (dump_cats (AMany (map VStr vs)) x z1 r HC HD HX) as [W1 W2].
  assert (BAD : lines (py "CATEGORIES") its <> [] -> length vs <> length (concat vss) -> dump_entry X (set_cats vs x) z1 = Err ValueError).
  { intros NL LN. apply W2. intro z.
    assert (NG : map text_group (combine (map cl_params (lines (py "CATEGORIES") its)) vss) <> []).
    { destruct NE0; [easy|]. discriminate. }
    destruct (stored_some X [Text] eq _ GG NG) as (p & ps & EP).
    apply (cat_wrong_length (map VStr vs) (p :: ps)); [unfold get_attr; cbn [set_attrs c_attrs]; now rewrite dict_get_set_same| |easy|].
    - cbn [set_attrs c_params]. rewrite S2. unfold stored. destruct (map text_group _) eqn:EG; [easy|]. now rewrite <- EP.
    - rewrite <- EP, (groups_length X [Text] eq _ GG), groups_values, !map_length; [congruence|]. rewrite map_length. eapply Forall2_len, F. }
  split; [|exact BAD]. split.
  - intros [r' E]. destruct (lines (py "CATEGORIES") its) eqn:EL; [now left|]. right.
    destruct (Nat.eq_dec (length vs) (length (concat vss))) as [|N]; [easy|]. now rewrite (BAD ltac:(easy) N) in E.
  - intros [E|E].
    + apply W1. intro z. eexists. apply cat_fresh; [unfold get_attr; cbn [set_attrs c_attrs]; now rewrite dict_get_set_same|].
      cbn [set_attrs c_params]. rewrite S2, E. reflexivity.
    + destruct (modified_state _ _ _ _ _ vs H HP vss F E) as (vss' & E1 & E2 & NE & ST). apply W1. intro z. eexists.
      apply (cat_written _ _ _ (groups_good _ _ HP NE) ST).
Qed.
(** Without stored parameters every list can be written, one value on each line. *)
Lemma fresh_writable x vs0 vs z r : c_cls x = CEvent -> get_attr (py "categories") x = AMany (map VStr vs0) ->
  dict_get (py "CATEGORIES") (c_params x) = None -> dump_entry X x z = Ok r -> exists r', dump_entry X (set_cats vs x) z = Ok r'.
Proof.
  intros HC HA HP HD. apply (dump_cats (AMany (map VStr vs)) x z r HC HD).
  - intro z'. eexists. now apply (cat_fresh vs0).
  - intro z'. eexists. apply (cat_fresh vs); [unfold get_attr; cbn [set_attrs c_attrs]; now rewrite dict_get_set_same|exact HP].
Qed.
Lemma stripped_writable p m x y vs0 vs z r : c_cls x = CEvent -> get_attr (py "categories") x = AMany (map VStr vs0) ->
  strip_extras p true m x = Ok y -> dump_entry X y z = Ok r -> exists r', dump_entry X (set_cats vs y) z = Ok r'.
Proof.
  intros HC HA HS. unfold strip_extras in HS. rewrite Bool.orb_true_r in HS. cbn [orb negb] in HS. injection HS as <-.
  apply fresh_writable with (vs0 := vs0); destruct p; easy.
Qed.
End Cat.

Definition ref_event (its : list item) : entry :=
  match event_from_container toy (py "VEVENT") its with Ok x => x | Err _ => new_comp toy alarm CEvent end.
Definition ref_out (x : entry) : item := match to_container toy x with Ok it => it | Err _ => ICont [] [] end.
Definition items_of (it : item) : list item := match it with ICont _ l => l | ILine _ => [] end.
Lemma length_refuted : exists X its x r vs, event_from_container X (py "VEVENT") its = Ok x /\ to_container X x = Ok r /\
  Forall plain_params (lines (py "CATEGORIES") its) /\ to_container X (set_cats vs x) = Err ValueError.
Proof.
  exists toy, [line (py "CATEGORIES") (py "a,b")], (ref_event [line (py "CATEGORIES") (py "a,b")]),
    (ref_out (ref_event [line (py "CATEGORIES") (py "a,b")])), [py "a"].
  split; [vm_compute; reflexivity|]. split; [vm_compute; reflexivity|]. split; [|vm_compute; reflexivity].
  change (lines (py "CATEGORIES") [line (py "CATEGORIES") (py "a,b")]) with [mk_line (py "CATEGORIES") [] (py "a,b")].
  repeat constructor; cbn; tauto.
Qed.
Definition ref_value : list item := [ILine (mk_line (py "CATEGORIES") [(py "VALUE", [PRaw (py "TEXT")])] (py "a"))].
Lemma value_refuted : exists X x out, event_from_container X (py "VEVENT")
    [ILine (mk_line (py "CATEGORIES") [(py "VALUE", [PRaw (py "TEXT")])] (py "a"))] = Ok x /\
  to_container X x = Ok (ICont (py "VEVENT") out) /\ lines (py "CATEGORIES") out = [mk_line (py "CATEGORIES") [] (py "a")].
Proof.
  exists toy, (ref_event ref_value), (items_of (ref_out (ref_event ref_value))).
  split; [vm_compute; reflexivity|]. split; vm_compute; reflexivity.
Qed.
