(** * Proofs about reading and writing components: unknown items *)
From Verif Require Import M_Base M_Text M_Line M_Codec M_Cal M_Time M_Span M_Dt M_Tree M_Comp S_Comp P_Base.
From Coq Require Import Lia ZifyBool ZifyNat ZifyN.
Ltac Zify.zify_post_hook ::= Z.div_mod_to_equations.

(** ** Results *)
Lemma bind_Ok {A B} (r : res A) (f : A -> res B) b : bind r f = Ok b -> exists a, r = Ok a /\ f a = Ok b.
Proof. destruct r as [a|e]; cbn; [eauto|discriminate]. Qed.
(** Take an equation [bind r f = Ok b] apart. *)
Ltac unbind H :=
  let a := fresh "a" in let Ha := fresh "Ha" in
  apply bind_Ok in H; destruct H as (a & Ha & H).
Ltac unbind2 H :=
  let a := fresh "a" in let b := fresh "b" in let Ha := fresh "Ha" in
  apply bind_Ok in H; destruct H as ([a b] & Ha & H).
Ltac unbind3 H :=
  let a := fresh "a" in let b := fresh "b" in let c := fresh "c" in let Ha := fresh "Ha" in
  apply bind_Ok in H; destruct H as ([[a b] c] & Ha & H).

(** ** Converters of a class *)
Lemma insert_conv_In a b l : In b (insert_conv a l) <-> b = a \/ In b l.
Proof.
  induction l as [|c l IH]; cbn; [intuition|]. destruct (_ <? _)%Z; cbn; [intuition|]. rewrite IH. intuition.
Qed.
Lemma sort_In_aux b l acc : In b (fold_left (fun acc a => insert_conv a acc) l acc) <-> In b l \/ In b acc.
Proof. revert acc; induction l as [|a l IH]; intro acc; cbn; [intuition|]. rewrite IH, insert_conv_In. intuition. Qed.
Lemma converters_In a c : In a (converters c) <-> In a (class_fields c).
Proof. unfold converters, sort_converters. rewrite sort_In_aux. cbn. intuition. Qed.
Lemma existsb_str n l : existsb (str_eqb n) l = true <-> In n l.
Proof.
  rewrite existsb_exists. split.
  - intros (x & Hx & E). apply str_eqb_eq in E. now subst.
  - intro H. exists n. split; [easy|apply str_eqb_refl].
Qed.
Lemma lookup_In a c n : In a (lookup c n) <-> In a (class_fields c) /\ In n (a_names a).
Proof. unfold lookup. now rewrite filter_In, converters_In, existsb_str. Qed.

Definition sub_names (a b : list (list N)) : bool := forallb (fun n => existsb (str_eqb n) b) a.
Lemma sub_names_spec a b n : sub_names a b = true -> In n a -> In n b.
Proof. unfold sub_names. rewrite forallb_forall. intros H I. now apply existsb_str, H. Qed.
Lemma names_known c n : (exists a, In a (class_fields c) /\ In n (a_names a)) <-> In n (known_names c).
Proof.
  transitivity (In n (concat (map a_names (class_fields c)))).
  { rewrite in_concat. split.
    - intros (a & Ha & Hn). exists (a_names a). split; [now apply in_map|easy].
    - intros (l & Hl & Hn). apply in_map_iff in Hl as (a & <- & Ha). eauto. }
  split; apply sub_names_spec; destruct c; vm_compute; reflexivity.
Qed.
Lemma lookup_known c n : lookup c n <> [] <-> In n (known_names c).
Proof.
  rewrite <- names_known. split.
  - destruct (lookup c n) as [|a l] eqn:E; [easy|]. intros _. exists a. apply lookup_In. rewrite E. now left.
  - intros (a & Ha & Hn) E. assert (In a (lookup c n)) as I by now apply lookup_In. now rewrite E in I.
Qed.
Lemma lookup_unknown c n : lookup c n = [] <-> ~ In n (known_names c).
Proof. rewrite <- lookup_known. destruct (lookup c n); intuition congruence. Qed.

(** The converters of the calendar that only consume sub-components. *)
Definition no_zones (c : cls) : bool := forallb (fun a => negb (is_zones a)) (class_fields c).
Lemma no_zones_spec c a : no_zones c = true -> In a (class_fields c) -> is_zones a = false.
Proof. unfold no_zones. rewrite forallb_forall. intros H I. apply H in I. now destruct (is_zones a). Qed.
Lemma zones_calendar c a : In a (class_fields c) -> is_zones a = true -> c = CCalendar /\ a_names a = [py "VTIMEZONE"].
Proof.
  intros I Hz. assert (c = CCalendar) as ->.
  { destruct c; try reflexivity; exfalso;
    match goal with _ : In _ (class_fields ?c) |- _ =>
      assert (no_zones c = true) as E by (vm_compute; reflexivity); rewrite (no_zones_spec c a E I) in Hz; discriminate end. }
  split; [easy|]. cbn in I. intuition; subst; try discriminate; reflexivity.
Qed.
Lemma timezone_lookup a : In a (lookup CCalendar (py "VTIMEZONE")) -> is_zones a = true.
Proof. rewrite lookup_In. intros [I Hn]. cbn in I. intuition; subst; cbn in Hn; try reflexivity; intuition discriminate. Qed.

Section Comp.
Variable X : ext.

(** ** Reading leaves the class, the name and the unknown items alone *)
Section Load.
Variable M : Type.
Variable load_m : mkind -> list N -> list item -> zones -> res (M * zones).
Notation lst := (lst M).

Record same_frame (st st' : lst) : Prop := mk_frame {
  f_cls : c_cls (l_comp st') = c_cls (l_comp st);
  f_name : c_name (l_comp st') = c_name (l_comp st);
  f_extra : c_extra (l_comp st') = c_extra (l_comp st)
}.
Lemma frame_refl st : same_frame st st. Proof. easy. Qed.
Lemma frame_trans a b c : same_frame a b -> same_frame b c -> same_frame a c.
Proof. intros [] []. split; congruence. Qed.
Lemma store_frame key p (c : comp M) :
  c_cls (store_params key p c) = c_cls c /\ c_name (store_params key p c) = c_name c /\
  c_extra (store_params key p c) = c_extra c /\ c_mem (store_params key p c) = c_mem c /\
  c_attrs (store_params key p c) = c_attrs c.
Proof. destruct p; cbn; intuition. Qed.
Ltac stored :=
  match goal with |- context[store_params ?k ?p ?c] => destruct (store_frame k p c) as (? & ? & ? & ? & ?) end.

Lemma append_params_frame key p (c c' : comp M) : append_params key p c = Ok c' ->
  c_cls c' = c_cls c /\ c_name c' = c_name c /\ c_extra c' = c_extra c /\ c_mem c' = c_mem c /\ c_attrs c' = c_attrs c.
Proof. unfold append_params. destruct (dict_get _ _) as [[p'|l]|]; intros [= <-]; easy. Qed.
Lemma append_value_frame a v (c c' : comp M) : append_value a v c = Ok c' ->
  c_cls c' = c_cls c /\ c_name c' = c_name c /\ c_extra c' = c_extra c /\ c_mem c' = c_mem c /\ c_params c' = c_params c.
Proof. unfold append_value. destruct (get_attr a c); intros [= <-]; easy. Qed.

Lemma populate_single_frame a convs s cl st st' : populate_single X a convs s cl st = Ok st' ->
  same_frame st st' /\ c_mem (l_comp st') = c_mem (l_comp st).
Proof.
  unfold populate_single. destruct (Nat.ltb _ _); [discriminate|]. intro H. unbind2 H. unbind3 H. unbind H.
  injection H as <-. repeat split; cbn; stored; congruence.
Qed.
Lemma populate_values_frame a c vals : forall ps (st st' : lst), populate_values X a c vals ps st = Ok st' ->
  same_frame st st' /\ c_mem (l_comp st') = c_mem (l_comp st).
Proof.
  induction vals as [|s vals IH]; intros ps st st' H; cbn [populate_values] in H.
  { injection H as <-. now split. }
  unbind3 H. unbind H. unbind H. apply IH in H as [H1 H2].
  match goal with A : append_params _ _ _ = Ok _, V : append_value _ _ _ = Ok _ |- _ =>
    apply append_params_frame in A as (? & ? & ? & ? & ?); apply append_value_frame in V as (? & ? & ? & ? & ?) end.
  destruct H1 as [F1 F2 F3]; cbn in *. repeat split; congruence.
Qed.
Lemma populate_multi_frame a convs cl (st st' : lst) : populate_multi X a convs cl st = Ok st' ->
  same_frame st st' /\ c_mem (l_comp st') = c_mem (l_comp st).
Proof. unfold populate_multi. intro H. unbind2 H. unbind H. now apply populate_values_frame in H. Qed.
Lemma populate_span_frame cl (st st' : lst) : populate_span X cl st = Ok st' ->
  same_frame st st' /\ c_mem (l_comp st') = c_mem (l_comp st).
Proof.
  unfold populate_span. destruct (existsb _ _); [discriminate|]. destruct (str_eqb _ (py "DURATION")).
  - intro H. unbind H. injection H as <-. repeat split; cbn [l_comp]; stored; congruence.
  - intro H. unbind H. destruct a as [[[p d] ps2] zs]. unbind H. destruct (str_eqb _ (py "DTSTART")); injection H as <-;
    repeat split; cbn [l_comp]; stored; congruence.
Qed.
Lemma populate_action_frame cl (st st' : lst) : populate_action cl st = Ok st' ->
  same_frame st st' /\ c_mem (l_comp st') = c_mem (l_comp st).
Proof.
  unfold populate_action. destruct (cls_eqb _ _); [|discriminate]. intros [= <-]. repeat split; cbn [l_comp]; stored; congruence.
Qed.

Definition is_cont (it : item) : bool := match it with ICont _ _ => true | ILine _ => false end.

(** What one converter does: the frame is kept; it consumes the item unless it is the
    zone converter given a line; it adds a member iff it is a member converter. *)
Lemma populate_conv_spec a it (st st' : lst) b : populate_conv X M load_m a it st = Ok (st', b) ->
  same_frame st st' /\
  b = (if is_zones a then is_cont it && str_eqb (item_name it) (py "VTIMEZONE") else true) /\
  match a_kind a with
  | KMember k =>
      exists n its x zs, it = ICont n its /\ load_m k n its (l_zones st) = Ok (x, zs) /\
        c_mem (l_comp st') = dict_set (a_attr a) (get_mem (a_attr a) (l_comp st) ++ [x]) (c_mem (l_comp st))
  | _ => c_mem (l_comp st') = c_mem (l_comp st)
  end.
Proof.
  unfold populate_conv, is_zones. destruct (a_kind a) as [convs [] r s|k|m| |] eqn:K, it as [l|n its]; try discriminate; intro H.
  - unbind H. injection H as <- <-. apply populate_multi_frame in Ha as []. auto.
  - unbind H. injection H as <- <-. apply populate_single_frame in Ha as []. auto.
  - unbind H. injection H as <- <-. apply populate_span_frame in Ha as []. auto.
  - unbind2 H. injection H as <- <-. split; [easy|]. split; [easy|]. exists n, its, a0, b0. auto.
  - unbind H. injection H as <- <-. apply populate_action_frame in Ha as []. auto.
  - injection H as <- <-. auto using frame_refl.
  - injection H as <- <-. auto using frame_refl.
Qed.

Lemma populate_convs_frame l it : forall (st st' : lst) b0 b, populate_convs X M load_m l it st b0 = Ok (st', b) ->
  same_frame st st' /\
  b = (b0 || existsb (fun a => if is_zones a then is_cont it && str_eqb (item_name it) (py "VTIMEZONE") else true) l)%bool.
Proof.
  induction l as [|a l IH]; intros st st' b0 b H; cbn [populate_convs] in H.
  { injection H as <- <-. split; [easy|]. cbn. now rewrite Bool.orb_false_r. }
  unbind2 H. apply populate_conv_spec in Ha as (F & -> & _). apply IH in H as (F' & ->).
  split; [now apply (frame_trans _ _ _ F)|]. cbn [existsb]. now rewrite Bool.orb_assoc.
Qed.

(** Whether the item goes to the unknown ones. *)
Definition knownb (c : cls) (it : item) : bool :=
  existsb (fun a => if is_zones a then is_cont it && str_eqb (item_name it) (py "VTIMEZONE") else true) (lookup c (item_name it)).
Lemma str_ne_sym (a b : list N) : a <> b -> b <> a. Proof. congruence. Qed.
Lemma knownb_spec c it : knownb c it = true <-> known c it.
Proof.
  unfold knownb. rewrite existsb_exists. split.
  - intros (a & Ha & Hz). pose proof Ha as Hl. apply lookup_In in Ha as [Hf Hn].
    assert (K : In (item_name it) (known_names c)) by (apply names_known; eauto).
    destruct it as [l|n its]; cbn [known item_name is_cont] in *; [|easy]. split; [easy|].
    intros [-> E]. rewrite E in Hl. apply timezone_lookup in Hl. rewrite Hl in Hz. discriminate.
  - intro K. assert (In (item_name it) (known_names c)) as KN by (destruct it as [l|n its]; [now destruct K|exact K]).
    apply names_known in KN as (a & Ha & Hn). exists a. split; [now apply lookup_In|].
    destruct (is_zones a) eqn:Z; [|easy]. destruct (zones_calendar c a Ha Z) as [-> Hv]. rewrite Hv in Hn.
    destruct Hn as [Hn|[]]. destruct it as [l|n its]; cbn [item_name is_cont] in *.
    + exfalso. destruct K as [_ K]. now apply K.
    + now rewrite <- Hn.
Qed.

Lemma populate_item_spec it (st st' : lst) : populate_item X M load_m it st = Ok st' ->
  c_cls (l_comp st') = c_cls (l_comp st) /\ c_name (l_comp st') = c_name (l_comp st) /\
  c_extra (l_comp st') = c_extra (l_comp st) ++ (if knownb (c_cls (l_comp st)) it then [] else [it]).
Proof.
  unfold populate_item. intro H. unbind2 H. apply populate_convs_frame in Ha as ([F1 F2 F3] & ->).
  rewrite Bool.orb_false_l in H. unfold knownb. destruct (existsb _ _); injection H as <-.
  - rewrite app_nil_r. auto.
  - cbn. rewrite F3. auto.
Qed.
Lemma populate_items_extra its : forall st st' : lst, populate_items X M load_m its st = Ok st' ->
  c_cls (l_comp st') = c_cls (l_comp st) /\ c_name (l_comp st') = c_name (l_comp st) /\
  exists us, c_extra (l_comp st') = c_extra (l_comp st) ++ us /\ Unknown (c_cls (l_comp st)) its us.
Proof.
  induction its as [|it its IH]; intros st st' H; cbn [populate_items] in H.
  - injection H as <-. split; [easy|]. split; [easy|]. exists []. rewrite app_nil_r. split; [easy|constructor].
  - unbind H. apply populate_item_spec in Ha as (C & N & Ex). apply IH in H as (C' & N' & us & Ex' & U).
    split; [congruence|]. split; [congruence|]. rewrite C in U. rewrite Ex', Ex, <- app_assoc.
    destruct (knownb _ it) eqn:K.
    + exists us. split; [easy|]. apply U_known; [now apply knownb_spec|easy].
    + exists (it :: us). split; [easy|]. apply U_keep; [|easy]. now rewrite <- knownb_spec, K.
Qed.
Lemma post_conv_frame a (st st' : lst) : post_conv X M a st = Ok st' ->
  same_frame st st' /\ c_mem (l_comp st') = c_mem (l_comp st).
Proof.
  unfold post_conv. destruct (a_kind a) as [convs m r s|k|m| |].
  - destruct (_ && _); [discriminate|]. now intros [= <-].
  - intro H. unbind H. unbind H. unbind H. now injection H as <-.
  - now intros [= <-].
  - now intros [= <-].
  - now intros [= <-].
Qed.
Lemma post_convs_frame l : forall st st' : lst, post_convs X M l st = Ok st' ->
  same_frame st st' /\ c_mem (l_comp st') = c_mem (l_comp st).
Proof.
  induction l as [|a l IH]; intros st st' H; cbn [post_convs] in H; [injection H as <-; now split|].
  unbind H. apply post_conv_frame in Ha as [F1 F2]. apply IH in H as [G1 G2].
  split; [now apply (frame_trans _ _ _ F1)|congruence].
Qed.

Lemma populate_instance_extra (c c' : comp M) n its zs zs' :
  populate_instance X M load_m c n its zs = Ok (c', zs') ->
  n = NAME (c_cls c) /\ c_cls c' = c_cls c /\ c_name c' = c_name c /\
  exists us, c_extra c' = c_extra c ++ us /\ Unknown (c_cls c) its us.
Proof.
  unfold populate_instance. destruct (str_eqb _ _) eqn:En; [|discriminate]. intro H. unbind H. unbind H.
  injection H as <- <-. apply str_eqb_eq in En. apply populate_items_extra in Ha as (C & N & us & Ex & U).
  apply post_convs_frame in Ha0 as ([F1 F2 F3] & _). cbn in *.
  split; [easy|]. split; [congruence|]. split; [congruence|]. exists us. split; [congruence|easy].
Qed.

(** ** Members *)
Section Members.
Variable c : cls.
Variable a : aconv.
Variable k : mkind.
Variable nm : list N.
Hypothesis HL : lookup c nm = [a].
Hypothesis HN : a_names a = [nm].
Hypothesis HK : a_kind a = KMember k.
Hypothesis HU : forall b, In b (class_fields c) -> has_members b = true -> a_attr b = a_attr a -> b = a.

Lemma populate_convs_other l it : forall (st st' : lst) b0 b, populate_convs X M load_m l it st b0 = Ok (st', b) ->
  (forall b, In b l -> In b (class_fields c) /\ b <> a) ->
  get_mem (a_attr a) (l_comp st') = get_mem (a_attr a) (l_comp st).
Proof.
  induction l as [|d l IH]; intros st st' b0 b H Hb; cbn [populate_convs] in H; [now injection H as <- <-|].
  unbind2 H. apply populate_conv_spec in Ha as (_ & _ & S). apply IH in H; [|intros; apply Hb; now right].
  rewrite H. destruct (Hb d) as [Id Nd]; [now left|].
  unfold get_mem at 1 2. destruct (a_kind d) eqn:KD; try (now rewrite S).
  destruct S as (n & its & x & zs & -> & _ & ->). rewrite dict_get_set_other; [easy|].
  intro E. apply Nd, HU; [easy|unfold has_members; now rewrite KD|easy].
Qed.
Lemma populate_item_members it (st st' : lst) : c_cls (l_comp st) = c -> populate_item X M load_m it st = Ok st' ->
  exists xs, get_mem (a_attr a) (l_comp st') = get_mem (a_attr a) (l_comp st) ++ xs /\
    Forall2 (fun its x => exists zs zs', load_m k nm its zs = Ok (x, zs')) (subs nm [it]) xs.
Proof.
  unfold populate_item. intros Hc H. unbind2 H. rewrite Hc in Ha.
  assert (E : get_mem (a_attr a) (l_comp st') = get_mem (a_attr a) (l_comp a0)) by (destruct b; now injection H as <-).
  rewrite E. clear E H. destruct (str_eqb (item_name it) nm) eqn:En.
  - apply str_eqb_eq in En. rewrite En, HL in Ha. cbn [populate_convs] in Ha. unbind2 Ha. injection Ha as <- _.
    apply populate_conv_spec in Ha0 as (_ & _ & S). rewrite HK in S. destruct S as (n & its & x & zs & -> & L & G).
    exists [x]. unfold get_mem at 1. rewrite G, dict_get_set_same. split; [easy|].
    cbn [subs flat_map item_name] in *. subst n. rewrite str_eqb_refl. cbn. constructor; [eauto|constructor].
  - exists []. rewrite app_nil_r. split.
    + apply populate_convs_other with (1 := Ha). intros d Hd. apply lookup_In in Hd as [I Hn]. split; [easy|].
      intros ->. rewrite HN in Hn. destruct Hn as [Hn|[]]. apply str_eqb_neq in En. congruence.
    + destruct it as [l|n its]; cbn; [constructor|]. cbn [item_name] in En. rewrite En. constructor.
Qed.
Lemma populate_items_members its : forall st st' : lst, c_cls (l_comp st) = c -> populate_items X M load_m its st = Ok st' ->
  exists xs, get_mem (a_attr a) (l_comp st') = get_mem (a_attr a) (l_comp st) ++ xs /\
    Forall2 (fun its x => exists zs zs', load_m k nm its zs = Ok (x, zs')) (subs nm its) xs.
Proof.
  induction its as [|it its IH]; intros st st' Hc H; cbn [populate_items] in H.
  - injection H as <-. exists []. rewrite app_nil_r. split; [easy|constructor].
  - unbind H. pose proof (populate_item_spec _ _ _ Ha) as (C & _ & _).
    apply populate_item_members in Ha as (xs & E & F); [|easy]. apply IH in H as (ys & E' & F'); [|congruence].
    exists (xs ++ ys). split; [now rewrite E', E, app_assoc|].
    change (subs nm (it :: its)) with (flat_map (fun it => match it with ICont m l => if str_eqb m nm then [l] else [] | ILine _ => [] end) ([it] ++ its)).
    rewrite flat_map_app. now apply Forall2_app.
Qed.
Lemma populate_instance_members (x x' : comp M) n its zs zs' : c_cls x = c ->
  populate_instance X M load_m x n its zs = Ok (x', zs') ->
  exists xs, get_mem (a_attr a) x' = get_mem (a_attr a) x ++ xs /\
    Forall2 (fun its x => exists zs zs', load_m k nm its zs = Ok (x, zs')) (subs nm its) xs.
Proof.
  unfold populate_instance. intro Hc. destruct (str_eqb _ _) eqn:En; [|discriminate]. intro H. unbind H. unbind H.
  injection H as <- <-. apply post_convs_frame in Ha0 as (_ & F).
  apply populate_items_members in Ha as (xs & Em & F2); [|easy]. exists xs. split; [|easy].
  unfold get_mem at 1. now rewrite F.
Qed.
End Members.
End Load.

(** ** What is written by the converters is known *)
Section Dump.
Variable M : Type.
Variable dump_m : M -> zones -> res (item * zones).

Definition line_named (names : list (list N)) (it : item) : Prop :=
  exists l, it = ILine l /\ In (cl_name l) names.
Lemma serialize_single_named a name convs (c : comp M) zs its zs' :
  serialize_single X a name convs c zs = Ok (its, zs') -> Forall (line_named [upper name]) its.
Proof.
  unfold serialize_single. destruct (get_attr _ _); [intros [= <- <-]; constructor| |destruct (single_params _ _); discriminate].
  intro H. unbind H. unbind2 H. unbind3 H. injection H as <- <-. constructor; [|constructor].
  eexists. split; [reflexivity|]. now left.
Qed.
Lemma serialize_values_named name convs vs : forall cur acc merging zs its zs',
  serialize_values X name convs vs cur acc merging zs = Ok (its, zs') -> Forall (line_named [upper name]) its.
Proof.
  induction vs as [|[v p] vs IH]; intros cur acc merging zs its zs' H; cbn [serialize_values] in H.
  { destruct merging; [discriminate|]. injection H as <- <-. constructor. }
  unbind2 H. unbind3 H. unbind H. destruct (match dict_get MERGE p with Some [t] => _ | _ => _ end).
  - eapply IH, H.
  - unbind2 H. injection H as <- <-. constructor; [|eapply IH; eassumption]. eexists. split; [reflexivity|]. now left.
Qed.
Lemma serialize_multi_named a name convs (c : comp M) zs its zs' :
  serialize_multi X a name convs c zs = Ok (its, zs') -> Forall (line_named [upper name]) its.
Proof.
  unfold serialize_multi. intro H.
  destruct (get_attr _ _); try discriminate. destruct (dict_get _ _) as [[[|p l']|[|p l']]|];
    try (eapply serialize_values_named; exact H).
  - destruct (Nat.eqb _ _); discriminate.
  - destruct (Nat.eqb _ _); [eapply serialize_values_named; exact H|discriminate].
Qed.
Lemma serialize_span_named a (c : comp M) zs its zs' :
  serialize_span X a c zs = Ok (its, zs') -> Forall (line_named [py "DTSTART"; py "DTEND"; py "DUE"; py "DURATION"]) its.
Proof.
  unfold serialize_span. destruct (get_attr _ _) as [|[]|]; try discriminate. intro H. unbind2 H. unbind2 H. injection H as <- <-.
  apply Forall_app. split.
  - destruct (ts_begin t); [|injection Ha as <- <-; constructor]. unbind Ha. unbind3 Ha. injection Ha as <- <-.
    constructor; [|constructor]. eexists. split; [reflexivity|]. cbn. auto.
  - destruct (end_representation t) as [[]|]; [| |injection Ha0 as <- <-; constructor].
    + unbind Ha0. unbind Ha0. match type of Ha0 with match ?o with _ => _ end = _ => destruct o; [|discriminate] end. injection Ha0 as <- <-.
      constructor; [|constructor]. eexists. split; [reflexivity|]. cbn. auto.
    + unbind Ha0. unbind Ha0. match type of Ha0 with match ?o with _ => _ end = _ => destruct o; [|discriminate] end. unbind3 Ha0. injection Ha0 as <- <-.
      constructor; [|constructor]. eexists. split; [reflexivity|]. destruct (ts_kind t); cbn; auto.
Qed.
Lemma serialize_action_named (c : comp M) zs its zs' :
  serialize_action c zs = Ok (its, zs') -> Forall (line_named [py "ACTION"]) its.
Proof.
  unfold serialize_action. intro H. unbind H. unbind H. injection H as <- <-. constructor; [|constructor].
  eexists. split; [reflexivity|]. cbn. auto.
Qed.

(** The name each converter writes is one of its own, in upper case. *)
Definition good_names (a : aconv) : bool :=
  match a_kind a with
  | KVal _ _ _ _ => match a_names a with [n] => str_eqb (upper n) n | _ => false end
  | KSpan _ => if list_eq_dec (list_eq_dec N.eq_dec) (a_names a) [py "DTSTART"; py "DTEND"; py "DUE"; py "DURATION"] then true else false
  | KAction => if list_eq_dec (list_eq_dec N.eq_dec) (a_names a) [py "ACTION"] then true else false
  | _ => true
  end.
Lemma good_names_all c a : In a (class_fields c) -> good_names a = true.
Proof.
  assert (forallb good_names (class_fields c) = true) as H by (destruct c; vm_compute; reflexivity).
  rewrite forallb_forall in H. apply H.
Qed.

Lemma dump_list_spec l : forall zs its zs', dump_list M dump_m l zs = Ok (its, zs') ->
  Forall2 (fun x it => exists zs zs', dump_m x zs = Ok (it, zs')) l its.
Proof.
  induction l as [|x l IH]; intros zs its zs' H; cbn [dump_list] in H; [injection H as <- <-; constructor|].
  unbind2 H. unbind2 H. injection H as <- <-. constructor; eauto.
Qed.

(** The output of one converter. *)
Lemma serialize_conv_spec c a (x : comp M) zs its zs' : In a (class_fields c) ->
  serialize_conv X M dump_m a x zs = Ok (its, zs') ->
  match a_kind a with
  | KMember _ => Forall2 (fun x it => exists zs zs', dump_m x zs = Ok (it, zs')) (get_mem (a_attr a) x) its
  | KZones => its = []
  | _ => Forall (line_named (a_names a)) its
  end.
Proof.
  intros I. pose proof (good_names_all c a I) as G. unfold good_names in G.
  unfold serialize_conv. destruct (a_kind a) as [convs m r s|k|m| |].
  - destruct (a_names a) as [|n [|n2 l]]; try discriminate. apply str_eqb_eq in G. intro H.
    destruct m; [apply serialize_multi_named in H|apply serialize_single_named in H]; now rewrite G in H.
  - destruct (list_eq_dec _ _) as [->|]; [|discriminate]. apply serialize_span_named.
  - destruct (dict_get _ _) as [[[]|[]]|]; try discriminate; apply dump_list_spec.
  - destruct (list_eq_dec _ _) as [->|]; [|discriminate]. apply serialize_action_named.
  - now intros [= <- <-].
Qed.
(** The outputs of the converters one after the other. *)
Inductive written (x : comp M) : list aconv -> list item -> Prop :=
  | W_nil : written x [] []
  | W_cons a l its rest zs zs' : serialize_conv X M dump_m a x zs = Ok (its, zs') -> written x l rest ->
      written x (a :: l) (its ++ rest).
Lemma serialize_convs_written l x : forall zs its zs', serialize_convs X M dump_m l x zs = Ok (its, zs') -> written x l its.
Proof.
  induction l as [|a l IH]; intros zs its zs' H; cbn [serialize_convs] in H; [injection H as <- <-; constructor|].
  unbind2 H. unbind2 H. injection H as <- <-. econstructor; eauto.
Qed.
Lemma written_app x l1 l2 i1 i2 : written x l1 i1 -> written x l2 i2 -> written x (l1 ++ l2) (i1 ++ i2).
Proof. induction 1; intro H2; cbn; [easy|]. rewrite <- app_assoc. econstructor; eauto. Qed.

(** Everything written is known if the members write themselves under known names. *)
Lemma written_known c x l ks : (forall a, In a l -> In a (class_fields c)) ->
  (forall a k y zs it zs', In a l -> a_kind a = KMember k -> In y (get_mem (a_attr a) x) -> dump_m y zs = Ok (it, zs') ->
     exists its, it = ICont (match a_names a with n :: _ => n | [] => [] end) its) ->
  written x l ks -> Forall (known c) ks.
Proof.
  intros HI HM W. induction W as [|a l its rest zs zs' S W IH]; [constructor|].
  apply Forall_app. split; [|apply IH; intros; [apply HI; now right|eapply HM; eauto; now right]].
  assert (I : In a (class_fields c)) by (apply HI; now left).
  pose proof (serialize_conv_spec c a x zs its zs' I S) as Sp.
  assert (HL : a_kind a <> KZones -> Forall (line_named (a_names a)) its -> Forall (known c) its).
  { intros NZ F. eapply Forall_impl; [|exact F]. intros it (ln & -> & Hn). cbn. split; [apply names_known; eauto|].
    intros [-> E]. rewrite E in Hn. assert (In a (lookup CCalendar (py "VTIMEZONE"))) as T by now apply lookup_In.
    apply timezone_lookup in T. unfold is_zones in T. destruct (a_kind a); easy. }
  destruct (a_kind a) as [convs m r s|k|m| |] eqn:K; try (apply HL; [congruence|exact Sp]).
  - assert (N : a_names a <> []).
    { assert (forallb (fun a => match a_names a with [] => false | _ => true end) (class_fields c) = true) as B
        by (destruct c; vm_compute; reflexivity).
      rewrite forallb_forall in B. apply B in I. now destruct (a_names a). }
    apply Forall_forall. intros it Hit. destruct (in_split _ _ Hit) as (l1 & l2 & ->).
    apply Forall2_app_inv_r in Sp as (m1 & m2 & _ & F & Em). inversion F as [|y it' m2' l2' (z1 & z2 & D) F']; subst.
    destruct (HM a m y z1 it z2) as (sub & ->); auto; [now left|rewrite Em; apply in_elt|].
    cbn. apply names_known. exists a. split; [easy|]. destruct (a_names a); [easy|now left].
  - subst its. constructor.
Qed.

(** The sub-components of a name among what is written are those of the members. *)
Lemma subs_lines nm its : (forall it, In it its -> exists l, it = ILine l) -> subs nm its = [].
Proof.
  induction its as [|it its IH]; [easy|]. intro H. destruct (H it) as (l & ->); [now left|]. cbn. apply IH. intros; apply H; now right.
Qed.
Lemma subs_app nm a b : subs nm (a ++ b) = subs nm a ++ subs nm b.
Proof. apply flat_map_app. Qed.
Section Members.
Variable c : cls.
Variable a : aconv.
Variable k : mkind.
Variable nm : list N.
Variable x : comp M.
Hypothesis HA : In a (class_fields c).
Hypothesis HK : a_kind a = KMember k.
(** Members of [a] are written as containers called [nm], those of other converters as
    containers with other names. *)
Hypothesis HM : forall b k' y zs it zs', In b (class_fields c) -> a_kind b = KMember k' -> In y (get_mem (a_attr b) x) ->
  dump_m y zs = Ok (it, zs') -> exists n its, it = ICont n its /\ (n = nm <-> b = a).
Definition member_out (y : M) (its : list item) : Prop := exists zs zs', dump_m y zs = Ok (ICont nm its, zs').

Lemma written_subs l ks : written x l ks -> (forall b, In b l -> In b (class_fields c)) -> NoDup l ->
  In a l -> Forall2 member_out (get_mem (a_attr a) x) (subs nm ks).
Proof.
  induction 1 as [|b l its rest zs zs' S W IH]; intros HI ND; [easy|]. intro Ia. rewrite subs_app.
  inversion ND as [|? ? Nb ND']; subst.
  assert (I : In b (class_fields c)) by (apply HI; now left).
  pose proof (serialize_conv_spec c b x zs its zs' I S) as Sp.
  destruct Ia as [->|Ia].
  - rewrite HK in Sp. assert (R : subs nm rest = []).
    { clear IH S. assert (forall b, In b l -> b <> a) as NA by (intros b Hb ->; now apply Nb).
      revert HI NA. clear Nb ND ND' Sp. induction W as [|b l its' rest z1 z2 S W IH]; intros HI NA; [easy|].
      rewrite subs_app, IH; [|intros e He; apply HI; destruct He; [now left|right; now right]|intros e He; apply NA; now right].
      rewrite app_nil_r. assert (Ib : In b (class_fields c)) by (apply HI; right; now left).
      pose proof (serialize_conv_spec c b x z1 its' z2 Ib S) as Sp.
      assert (HL : Forall (line_named (a_names b)) its' -> subs nm its' = []).
      { intro F. apply subs_lines. intros it Hit. rewrite Forall_forall in F. destruct (F it Hit) as (ln & -> & _). eauto. }
      destruct (a_kind b) eqn:Kb; try (now apply HL).
      - assert (Nba : b <> a) by (apply NA; now left).
        assert (HMb : forall y zs it zs', In y (get_mem (a_attr b) x) -> dump_m y zs = Ok (it, zs') ->
          exists n its, it = ICont n its /\ n <> nm).
        { intros y u it v Hy Dy. destruct (HM b m y u it v) as (n & i & -> & E); auto. exists n, i. split; [easy|]. now rewrite E. }
        clear -Sp HMb. induction Sp as [|y it l' its' (u & v & Dy) F IH]; [easy|].
        destruct (HMb y u it v) as (n & i & -> & E); [now left|easy|]. cbn. apply str_eqb_neq in E. rewrite E. cbn.
        apply IH. intros; eapply HMb; eauto. now right.
      - now subst its'. }
    rewrite R, app_nil_r.
    assert (HMa : forall y zs it zs', In y (get_mem (a_attr a) x) -> dump_m y zs = Ok (it, zs') -> exists its, it = ICont nm its).
    { intros y u it v Hy Dy. destruct (HM a k y u it v) as (n & i & -> & E); auto. exists i. f_equal. now apply E. }
    clear -Sp HMa. induction Sp as [|y it l' its' (u & v & Dy) F IH]; [constructor|].
    destruct (HMa y u it v) as (i & ->); [now left|easy|]. cbn. rewrite str_eqb_refl. cbn. constructor; [now exists u, v|].
    apply IH. intros; eapply HMa; eauto. now right.
  - assert (R : subs nm its = []).
    { assert (Nba : b <> a) by (intros ->; easy).
      assert (HL : Forall (line_named (a_names b)) its -> subs nm its = []).
      { intro F. apply subs_lines. intros it Hit. rewrite Forall_forall in F. destruct (F it Hit) as (ln & -> & _). eauto. }
      destruct (a_kind b) eqn:Kb; try (now apply HL).
      - assert (HMb : forall y zs it zs', In y (get_mem (a_attr b) x) -> dump_m y zs = Ok (it, zs') ->
          exists n its, it = ICont n its /\ n <> nm).
        { intros y u it v Hy Dy. destruct (HM b m y u it v) as (n & i & -> & E); auto. exists n, i. split; [easy|]. now rewrite E. }
        clear -Sp HMb. induction Sp as [|y it l' its' (u & v & Dy) F IH]; [easy|].
        destruct (HMb y u it v) as (n & i & -> & E); [now left|easy|]. cbn. apply str_eqb_neq in E. rewrite E. cbn.
        apply IH. intros; eapply HMb; eauto. now right.
      - now subst its. }
    rewrite R. cbn. apply IH; [|easy|easy]. intros e He; apply HI; now right.
Qed.
End Members.
End Dump.
End Comp.
