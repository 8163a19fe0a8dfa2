(** * Proofs: every field survives writing and reading *)
From Verif Require Import M_Base M_Text M_Line M_Codec M_Cal M_Time M_Span M_Dt M_Tree M_Comp.
From Verif Require Import S_Text S_Codec S_Dt S_Tree S_Comp S_Line P_Base P_Text P_Codec P_Dt P_Comp P_Frame P_Multi S_Store P_Rt.
From Coq Require Import Lia ZifyBool ZifyNat ZifyN.
Open Scope N_scope.

(** ** Notes *)
Definition NOTE_ATTRS : list (list N) := [py "attach"; py "attendees"; py "categories"].
Definition list_value {M} (x : comp M) (a : list N) : bool :=
  match dict_get a (c_attrs x) with Some (AMany (_ :: _)) => true | _ => false end.
Lemma note_other {M} (x : comp M) k l : (forall a, In a l -> upper a = k -> list_value x a = true -> dict_get k (c_params x) <> None) ->
  forall ps, dict_get k (fold_left (note x) l ps) = dict_get k ps.
Proof.
  induction l as [|a l IH]; intros H ps; [easy|]. cbn [fold_left]. rewrite IH by (intros; eapply H; eauto; now right).
  unfold note. destruct (dict_get a (c_attrs x)) as [[|v|[|v vs]]|] eqn:E; try reflexivity.
  destruct (dict_get (upper a) (c_params x)) eqn:EP; [reflexivity|]. apply dict_get_set_other. intros <-.
  apply (H a (or_introl eq_refl) eq_refl); [|easy]. unfold list_value. now rewrite E.
Qed.
Lemma noted_other {M} (x : comp M) k : (forall a, In a NOTE_ATTRS -> upper a = k -> list_value x a = true -> dict_get k (c_params x) <> None) ->
  dict_get k (c_params (noted x)) = dict_get k (c_params x).
Proof. intro H. unfold noted. cbn [set_params c_params]. now apply note_other. Qed.
Lemma noted_set {M} (x : comp M) a v vs : In a NOTE_ATTRS -> dict_get a (c_attrs x) = Some (AMany (v :: vs)) ->
  dict_get (upper a) (c_params x) = None ->
  dict_get (upper a) (c_params (noted x)) = Some (XMany (flat_map (fun _ => line_marks [] 1) (v :: vs))).
Proof.
  intros HI HA HP. unfold noted. cbn [set_params c_params]. fold NOTE_ATTRS.
  assert (G : forall l ps, NoDup (map upper l) -> In a l ->
    dict_get (upper a) (fold_left (note x) l ps) = Some (XMany (flat_map (fun _ => line_marks [] 1) (v :: vs)))).
  { induction l as [|b l IH]; intros ps ND I; [easy|]. cbn [fold_left]. cbn [map] in ND. inversion ND as [|? ? N1 N2]; subst.
    destruct I as [->|I].
    - rewrite note_other.
      + unfold note. rewrite HA, HP. apply dict_get_set_same.
      + intros b Hb E. exfalso. apply N1. rewrite <- E. now apply in_map.
    - now apply IH. }
  apply G; [|exact HI]. repeat constructor; vm_compute; intuition discriminate.
Qed.

Lemma NOTE_inj a b : In a NOTE_ATTRS -> In b NOTE_ATTRS -> upper a = upper b -> a = b.
Proof.
  intros [<-|[<-|[<-|[]]]] [<-|[<-|[<-|[]]]] E; try reflexivity; vm_compute in E; discriminate E.
Qed.
Lemma eq_opt_refl {A} (R : A -> A -> Prop) o : (forall a, R a a) -> eq_opt R o o.
Proof. intro H. destruct o; cbn; auto. Qed.
Lemma eq_par_refl p : eq_par p p. Proof. destruct p; cbn; auto. Qed.

Lemma Forall2_app_inv_l' {A B} (R : A -> B -> Prop) l1 l2 l : Forall2 R (l1 ++ l2) l ->
  exists a b, l = a ++ b /\ Forall2 R l1 a /\ Forall2 R l2 b.
Proof. intro H. apply Forall2_app_inv_l in H as (a & b & H1 & H2 & ->). eauto. Qed.
Lemma item_eq_name a b : item_eq a b -> item_name a = item_name b.
Proof. intros [x y (E & _)|n xs ys _]; [exact E|reflexivity]. Qed.
Lemma item_eq_line l it : item_eq (ILine l) it -> exists l', it = ILine l' /\ line_eq l l'.
Proof. intro H. inversion H; subst. eauto. Qed.
Lemma item_eq_cont n xs it : item_eq (ICont n xs) it -> exists ys, it = ICont n ys /\ Forall2 item_eq xs ys.
Proof. intro H. inversion H; subst. eauto. Qed.

Lemma NoDup_app_single {A} (l : list A) a : NoDup l -> ~ In a l -> NoDup (l ++ [a]).
Proof.
  induction l as [|b l IH]; cbn; intros H N; [constructor; [easy|constructor]|]. inversion H; subst. constructor.
  - rewrite in_app_iff. cbn. intuition.
  - apply IH; tauto.
Qed.
Section Field.
Variable X : ext.
Hypothesis UE : utc_env X.
Variable M : Type.
Variable EM : M -> M -> Prop.
Variable UM : M -> list N -> tz -> tz -> Prop.
Variable load_m : mkind -> list N -> list item -> zones -> res (M * zones).
Variable dump_m : M -> zones -> res (item * zones).
Variable c : cls.
Notation lst := (lst M).
Notation comp := (comp M).

(** ** States *)
Record fresh (a : aconv) (st : lst) : Prop := mk_fresh {
  f_cls : c_cls (l_comp st) = c;
  f_attr : has_attr a = true -> dict_get (a_attr a) (c_attrs (l_comp st)) = Some (default_attr X c a);
  f_mem : has_members a = true -> dict_get (a_attr a) (c_mem (l_comp st)) = Some [];
  f_par : forall k, In k (pkeys a) -> dict_get k (c_params (l_comp st)) = None;
  f_count : dict_get (a_attr a) (l_count st) = None;
  f_span : is_span a = true -> l_span st = sc0
}.
Definition span_ready (k : kind) (t : timespan) (sc : spanctx) : Prop :=
  exists t', eq_span X t t' /\
    make (x_env X) k (sc_begin sc) (sc_end sc) (sc_dur sc) (match sc_prec sc with Some p => p | None => PNone end) = Ok t' /\
    (forall n, sc_end_name sc = Some n -> n = end_name k) /\ apply_set X (SSpan k) (VSpan t') = Ok (VSpan t').
Definition done (x : comp) (a : aconv) (st : lst) : Prop :=
  (forall k, In k (pkeys a) -> eq_opt eq_par (dict_get k (c_params (noted x))) (dict_get k (c_params (l_comp st)))) /\
  match a_kind a with
  | KVal _ _ required _ =>
      eq_opt (eq_attr X) (dict_get (a_attr a) (c_attrs x)) (dict_get (a_attr a) (c_attrs (l_comp st))) /\
      (required = true -> count (a_attr a) st <> O)
  | KSpan k => exists t, dict_get (a_attr a) (c_attrs x) = Some (AOne (VSpan t)) /\ span_ready k t (l_span st)
  | KMember _ => eq_opt (Forall2 EM) (dict_get (a_attr a) (c_mem x)) (dict_get (a_attr a) (c_mem (l_comp st)))
  | KAction | KZones => True
  end.

Fixpoint populate_all (a : aconv) (its : list item) (st : lst) : res lst :=
  match its with
  | [] => Ok st
  | it :: its' => do (st', _) <- populate_conv X M load_m a it st; populate_all a its' st'
  end.
Lemma populate_all_off a its : forall st st', populate_all a its st = Ok st' -> off M a st st'.
Proof.
  induction its as [|it its IH]; intros st st' H; cbn in H; [injection H as <-; apply off_refl|].
  unbind2 H. apply conv_off in Ha. apply IH in H. eapply off_trans; eauto.
Qed.
Lemma populate_items_all a its : is_zones a = false -> Forall (fun it => lookup c (item_name it) = [a]) its ->
  forall st st', c_cls (l_comp st) = c -> populate_all a its st = Ok st' -> populate_items X M load_m its st = Ok st'.
Proof.
  intros HZ. induction 1 as [|it its HL _ IH]; intros st st' HC H; cbn [populate_all populate_items] in *; [exact H|].
  unbind2 H. rewrite <- HC in HL. rewrite (item_one X M load_m a it st HL). rewrite Ha. cbn [bind].
  pose proof (populate_conv_spec X M load_m a it st _ _ Ha) as ([F1 F2 F3] & Hb & _). rewrite HZ in Hb. subst b. cbn [bind].
  apply IH; congruence.
Qed.

Definition conv_uses (a : aconv) (x : comp) (id : list N) (z z' : tz) : Prop :=
  (has_attr a = true /\ exists v, dict_get (a_attr a) (c_attrs x) = Some v /\ uses_of X (attr_dts v) id z z') \/
  (has_members a = true /\ exists l m, dict_get (a_attr a) (c_mem x) = Some l /\ In m l /\ UM m id z z').
Definition conv_write (a : aconv) (x : comp) (its : list item) : Prop :=
  (forall zs, exists zs', serialize_conv X M dump_m a x zs = Ok (its, zs') /\ wrote (conv_uses a x) zs zs') /\
  Forall (fun it => In (item_name it) (a_names a)) its.
Definition conv_read (a : aconv) (x : comp) (its : list item) : Prop :=
  forall its' st, Forall2 item_eq its its' -> fresh a st ->
    (forall id z z', conv_uses a x id z z' -> resolves X (l_zones st) id z) ->
    exists st', populate_all a its' st = Ok st' /\ done x a st' /\ zext X (l_zones st) (l_zones st').
Definition conv_rt (a : aconv) (x : comp) : Prop := exists its, conv_write a x its /\ conv_read a x its.

(** ** Single values *)
Definition set_ok (s : setter) (types : list vconv) (ok : val -> Prop) : Prop :=
  forall t v v', In t types -> storable_val X t v -> ok v -> eq_val X v v' ->
    exists v'', apply_set X s v' = Ok v'' /\ eq_val X v v''.

Lemma noted_one (x : comp) a : list_value x a = false -> (forall b, In b NOTE_ATTRS -> upper b = upper a -> b = a) ->
  dict_get (upper a) (c_params (noted x)) = dict_get (upper a) (c_params x).
Proof. intros HL HU. apply noted_other. intros b Hb E L. apply HU in E; [|easy]. congruence. Qed.

Lemma single_rt (x : comp) a types req s ok opt n :
  a_kind a = KVal types false req s -> a_names a = [n] -> upper n = n -> good_types types ->
  (forall t, In t types -> is_person t -> types = [t]) -> set_ok s types ok ->
  (opt = true -> default_attr X c a = ANone /\ req = false) ->
  (forall b, In b NOTE_ATTRS -> upper b = upper (a_attr a) -> b = a_attr a) ->
  storable_field X x (a_attr a) (One types ok opt) -> conv_rt a x.
Proof.
  intros HK HN HU HT HP HS HO HB HF.
  assert (HAt : has_attr a = true) by (unfold has_attr; now rewrite HK).
  assert (HMe : has_members a = false) by (unfold has_members; now rewrite HK).
  assert (PK : pkeys a = [upper (a_attr a)]) by (unfold pkeys; now rewrite HK).
  destruct HF as [(HA & HO1 & HNP)|(t & v & HA & HI & HV & Hok & HPar & HNP)].
  - destruct (HO HO1) as [HD HR]. exists []. assert (NU : forall id z z', ~ conv_uses a x id z z').
    { intros id z z' [(_ & v & E & d & Hd & _)|(E & _)]; [|congruence]. rewrite HA in E. now injection E as <-. }
    split; [split|].
    + intro zs. exists zs. split; [|now apply wrote_nouse]. unfold serialize_conv, serialize_single, get_attr. now rewrite HK, HA.
    + constructor.
    + intros its' st HE HFr _. inversion HE; subst. exists st. split; [reflexivity|]. split; [|apply zext_refl].
      split.
      * rewrite PK. intros k [<-|[]]. rewrite noted_one; [|unfold list_value; now rewrite HA|exact HB]. unfold no_par in HNP. rewrite HNP.
        rewrite (f_par _ _ HFr); [easy|]. rewrite PK. now left.
      * rewrite HK. rewrite HA, (f_attr _ _ HFr HAt), HD. split; [easy|]. try (rewrite HR); discriminate.
  - assert (exists q, single_params (a_key a) x = Ok q /\ ~ In VALUE (keys q) /\ (t = Datetime -> ~ In TZID (keys q)) /\ (is_person t -> q = []) /\
       (dict_get (upper (a_attr a)) (c_params x) = match q with [] => None | _ => Some (XOne q) end)) as (q & HSP & HQ1 & HQ2 & HQ3 & HQ4).
    { unfold storable_par in HPar. unfold single_params, a_key. destruct (dict_get (upper (a_attr a)) (c_params x)) as [[p|p]|] eqn:EP; [|easy|].
      - exists p. destruct HPar as [HN1 HN2]. split; [easy|]. split; [apply HN2; now left|]. split.
        { intros ->. apply HN2. right. now left. }
        split; [intro HPn; unfold no_par in HNP; specialize (HNP HPn); congruence|]. now destruct p.
      - exists []. repeat split; auto; easy. }
    destruct (value_rt X UE types t v q HI HT HV HQ1 HQ2) as (w & Q2 & (WF & WS) & WR).
    { intro HPn. split; auto. }
    assert (CU : forall id z z', conv_uses a x id z z' <-> uses_of X (val_dts v) id z z').
    { intros id z z'. unfold conv_uses. rewrite HMe, HA. split.
      - intros [(_ & v' & E & HU')|(E & _)]; [|discriminate]. now injection E as <-.
      - intro HU'. left. split; [exact HAt|]. exists (AOne v). auto. }
    exists [ILine (ContentLine n Q2 w)]. split; [split|].
    + intro zs. destruct (WS zs) as (zs' & E & HW). exists zs'. split; [|now apply (wrote_ext _ _ _ _ HW)].
      unfold serialize_conv. rewrite HK, HN. unfold serialize_single, get_attr. rewrite HA, HSP. cbn [bind]. rewrite WF. cbn [bind]. now rewrite E.
    + constructor; [|constructor]. rewrite HN. cbn [item_name ContentLine cl_name]. rewrite HU. now left.
    + intros its' st HE HFr HR. inversion HE as [|? it ? r HE1 HE2]; subst. inversion HE2; subst.
      apply item_eq_line in HE1 as (l & -> & (_ & EV & EP)).
      destruct (WR (cl_params l) (l_zones st)) as (Q' & v' & q' & rzs' & E1 & E2 & E3 & E4 & E5).
      { symmetry. exact EP. }
      { intros id z z' HU'. apply (HR id z z'). now apply CU. }
      destruct (HS t v v' HI HV Hok E3) as (v'' & E6 & E7).
      assert (CN : count (a_attr a) st = O) by (unfold count; now rewrite (f_count _ _ HFr)).
      eexists. cbn [populate_all]. unfold populate_conv. rewrite HK. unfold populate_single. rewrite CN. cbn [Nat.ltb Nat.leb]. rewrite E1. cbn [bind].
      cbn [ContentLine cl_value] in EV. rewrite <- EV, E2. cbn [bind]. rewrite E6. cbn [bind]. split; [reflexivity|]. split; [|exact E5].
      split.
      * rewrite PK. intros k [<-|[]]. rewrite noted_one; [|unfold list_value; now rewrite HA|exact HB]. rewrite HQ4. cbn [l_comp set_attrs c_params].
        assert (PN : dict_get (upper (a_attr a)) (c_params (l_comp st)) = None) by (apply (f_par _ _ HFr); rewrite PK; now left).
        destruct q' as [|kv q'].
        -- destruct q; [|discriminate]. cbn [store_params]. now rewrite PN.
        -- destruct q as [|kv2 q]; [discriminate|]. cbn [store_params set_params c_params]. unfold a_key. rewrite dict_get_set_same. cbn. symmetry. exact E4.
      * rewrite HK. cbn [l_comp set_attrs c_attrs]. rewrite HA, dict_get_set_same. cbn [eq_opt eq_attr]. split; [exact E7|].
        intros _. unfold count. cbn [l_count]. now rewrite dict_get_set_same.
Qed.
(** ** Lists of values *)
Definition acc_state (a : aconv) (st : lst) (vs : list val) (ps : list xp) : Prop :=
  dict_get (a_attr a) (c_attrs (l_comp st)) = Some (AMany vs) /\
  dict_get (a_key a) (c_params (l_comp st)) = match ps with [] => None | _ => Some (XMany ps) end.
Lemma acc_step a (st : lst) vs ps v p : acc_state a st vs ps -> exists c1 c2,
  append_params (a_key a) p (l_comp st) = Ok c1 /\ append_value (a_attr a) v c1 = Ok c2 /\
  forall n sc zs, acc_state a (mk_lst c2 n sc zs) (vs ++ [v]) (ps ++ [p]).
Proof.
  intros [HA HP]. unfold append_params. rewrite HP.
  assert (G : exists c1, match match ps with [] => None | _ :: _ => Some (XMany ps) end with
    | None => Ok (set_params (dict_set (a_key a) (XMany [p]) (c_params (l_comp st))) (l_comp st))
    | Some (XMany l) => Ok (set_params (dict_set (a_key a) (XMany (l ++ [p])) (c_params (l_comp st))) (l_comp st))
    | Some (XOne _) => Err AttributeError
    end = Ok c1 /\ c_attrs c1 = c_attrs (l_comp st) /\ dict_get (a_key a) (c_params c1) = Some (XMany (ps ++ [p]))).
  { destruct ps; eexists; (split; [reflexivity|]); cbn [set_params c_attrs c_params]; now rewrite dict_get_set_same. }
  destruct G as (c1 & E1 & E2 & E3). exists c1. eexists. split; [exact E1|]. unfold append_value, get_attr. rewrite E2, HA.
  split; [reflexivity|]. intros. unfold acc_state. cbn [l_comp set_attrs c_attrs c_params]. rewrite dict_get_set_same, E3. split; [reflexivity|].
  now destruct ps.
Qed.
Lemma mark_strs (p ps : xp) m : ~ In MERGE (keys p) -> strs ps = strs p \/ strs ps = strs (marked p TRUE_MARK) ->
  strs (dict_set MERGE m ps) = strs (marked p m).
Proof.
  intros NM [E|E].
  - rewrite (strs_set _ _ _ _ _ E eq_refl). now rewrite dict_set_new.
  - rewrite (strs_set _ _ _ _ _ E eq_refl). unfold marked. now rewrite dict_set_last.
Qed.
Lemma values_simple a t (p : xp) vs ss : ~ In MERGE (keys p) ->
  Forall2 (fun v s => forall Q zs, vparse X t s Q zs = Ok (v, Q, zs)) vs ss -> vs <> [] ->
  forall (st : lst) ps l0 pl, strs ps = strs p \/ strs ps = strs (marked p TRUE_MARK) -> acc_state a st l0 pl ->
  exists st' ms, populate_values X a t ss ps st = Ok st' /\ acc_state a st' (l0 ++ vs) (pl ++ ms) /\
    map strs ms = map strs (marks p (length vs)) /\ l_zones st' = l_zones st.
Proof.
  intros NM F. induction F as [|v s vs ss HP F IH]; intros NE st ps l0 pl HE HA; [easy|]. cbn [populate_values]. rewrite HP. cbn [bind].
  destruct vs as [|v2 vs].
  - inversion F; subst. destruct (acc_step a st l0 pl v (dict_set MERGE (raw [py "FALSE"]) ps) HA) as (c1 & c2 & E1 & E2 & E3).
    rewrite E1. cbn [bind]. rewrite E2. cbn [bind populate_values]. eexists _, _. split; [reflexivity|]. split; [apply E3|].
    split; [|reflexivity]. cbn [map length marks pred repeat app]. f_equal. now apply mark_strs.
  - inversion F as [|? s2 ? ss2 HP2 F2]; subst. destruct (acc_step a st l0 pl v (dict_set MERGE (raw [py "TRUE"]) ps) HA) as (c1 & c2 & E1 & E2 & E3).
    rewrite E1. cbn [bind]. rewrite E2. cbn [bind].
    destruct (IH ltac:(easy) _ (dict_set MERGE (raw [py "TRUE"]) ps) _ _ (or_intror (mark_strs p ps (raw [py "TRUE"]) NM HE))
      (E3 (dict_set (a_attr a) (S (count (a_attr a) st)) (l_count st)) (l_span st) (l_zones st))) as (st' & ms & EP & HA' & EM' & EZ).
    exists st', (dict_set MERGE (raw [py "TRUE"]) ps :: ms). split; [exact EP|]. split; [now rewrite <- !app_assoc in HA'|].
    split; [|exact EZ]. cbn [map]. rewrite EM'. rewrite mark_strs with (p := p) by easy. reflexivity.
Qed.

(** One line: written and read. *)
Definition line_good (types : list vconv) (l : aline) (g : group) : Prop :=
  g_q g = snd (fst l) /\ g_vs g = snd l /\ good_group X types eq g /\
  forall Q a (st : lst) l0 pl, strs Q = strs (g_q2 g) -> acc_state a st l0 pl ->
    exists Q' t st' vs' ms, prepare_params types Q = Ok (Q', t) /\ vsplit t (join_value_list (g_ss g)) = Ok (g_ss g) /\
      populate_values X a t (g_ss g) Q' st = Ok st' /\ acc_state a st' (l0 ++ vs') (pl ++ ms) /\
      Forall2 (eq_val X) (snd l) vs' /\ map strs ms = map strs (line_notes l) /\ l_zones st' = l_zones st.
Lemma Forall2_eq_val vs : Forall2 (eq_val X) vs vs.
Proof. induction vs; constructor; auto. apply eq_val_refl. Qed.
Lemma binary_no_comma b : Forall byte b -> ~ In 44 (binary_serialize b).
Proof.
  intros H I. apply binary_base64, base64_shape in H as (body & p & E & _ & HB & _). rewrite E in I.
  apply in_app_iff in I as [I|I]; [apply HB in I; vm_compute in I; intuition discriminate|]. apply repeat_spec in I. discriminate.
Qed.
Lemma line_rt types l : good_types types -> (forall t, In t types -> is_person t -> types = [t]) -> storable_line X types l ->
  exists g, line_good types l g.
Proof.
  destruct l as [[t p] vs]. intros HT HP (HI & NE & HV & ND & NV & NM & HPn).
  assert (CP : is_person t \/ ~ is_person t) by (unfold is_person; destruct t; intuition discriminate). destruct CP as [P|P].
  - destruct (HPn P) as [-> L]. destruct vs as [|v [|? ?]]; try discriminate. destruct (HV v (or_introl eq_refl)) as [HS HL].
    pose proof (HP t HI P) as ->.
    destruct (value_rt X UE [t] t v [] (or_introl eq_refl) HT HS) as (s & Q2 & (WF & WS) & WR); [easy|easy|easy|].
    assert (typed [t] t [] = []) as HTy by (unfold typed; now rewrite str_eqb_refl). rewrite HTy in *.
    assert (exists u ex, s = x_geturl X u /\ ~ In 44 (x_geturl X u) /\ Q2 = ex /\ NoDup (keys ex) /\
      forall zs, vserialize X t v [] zs = Ok (s, Q2, zs)) as (u & ex & -> & HC & -> & ND2 & WS').
    { specialize (WS []) as (zs' & E & _). destruct P as [-> | ->]; inversion HS as [| | | | | | |u ex HU HN HVa|u ex HU HN HVa|]; subst; cbn [vserialize email_str] in E;
        rewrite dict_update_nil in E by easy; injection E as <- <- _; exists u, ex; repeat split; try easy; intro; cbn [vserialize email_str]; now rewrite dict_update_nil. }
    exists (mk_g [] ex [v] [x_geturl X u]). split; [reflexivity|]. split; [reflexivity|]. split.
    { unfold good_group. cbn. repeat split; auto; try easy. constructor; [|constructor]. exists t, []. split; [exact WF|]. intro zs. exists zs. split; [apply WS'|easy]. }
    intros Q a st l0 pl HQ HA. cbn [g_q2 g_ss] in *.
    destruct (WR Q (l_zones st) HQ) as (Q' & v' & q' & rzs' & E1 & E2 & E3 & E4 & E5).
    { intros id z z' (d & Hd & _). destruct P as [-> | ->]; now inversion HS; subst. }
    apply strs_nil in E4. subst q'.
    assert (rzs' = l_zones st) as ->.
    { destruct P as [-> | ->]; cbn [vparse] in E2; unbind2 E2; injection E2 as _ _ <-; reflexivity. }
    destruct (acc_step a st l0 pl v' (marked [] FALSE_MARK) HA) as (c1 & c2 & A1 & A2 & A3).
    eexists Q', t, _, [v'], [marked [] FALSE_MARK]. split; [exact E1|]. split.
    { unfold vsplit, join_value_list. destruct P as [-> | ->]; cbn [join]; now rewrite split_on_nosep. }
    cbn [populate_values]. rewrite E2. cbn [bind dict_set]. change ([(MERGE, raw [py "FALSE"])]) with (marked [] FALSE_MARK). rewrite A1. cbn [bind]. rewrite A2. cbn [bind].
    split; [reflexivity|]. split; [apply A3|]. split; [|split; reflexivity]. constructor; [exact E3|constructor].
  - assert (S : simple t).
    { split; [exact P|]. intros ->. destruct vs as [|v vs]; [easy|]. destruct (HV v (or_introl eq_refl)) as [HS HL].
      inversion HS; subst. exact HL. }
    assert (exists ss, Forall2 (fun v s => (forall q zs, vserialize X t v q zs = Ok (s, q, zs)) /\ (forall Q zs, vparse X t s Q zs = Ok (v, Q, zs)) /\
      (t = Text -> exists w, s = text_serialize w) /\ (t <> Text -> ~ In 44 s)) vs ss) as (ss & F).
    { clear NE HPn. induction vs as [|v vs IH]; [exists []; constructor|]. destruct IH as (ss & F); [intros; apply HV; now right|].
      destruct (HV v (or_introl eq_refl)) as [HS HL]. destruct (simple_rt X t v HS S) as (s & W & R). exists (s :: ss). constructor; [|exact F].
      split; [exact W|]. split; [exact R|]. specialize (W [] []).
      destruct HS; cbn [vserialize] in W; try (exfalso; exact HL); injection W as <-; (split; [intro EE; try discriminate EE; eauto|intro NT; try easy]).
      now apply binary_no_comma. }
    exists (mk_g p (typed types t p) vs ss). split; [reflexivity|]. split; [reflexivity|]. split.
    { unfold good_group. cbn [g_q g_q2 g_vs g_ss]. split; [exact NM|]. split.
      - unfold typed. destruct types as [|b types]; [easy|]. destruct (str_eqb _ _); [exact ND|]. rewrite dict_set_new by exact NV.
        unfold keys. rewrite map_app. cbn. apply NoDup_app_single; auto.
      - split; [exact NE|]. clear HPn NE. induction F as [|v s vs ss (W & _) F IH]; constructor; [|apply IH; intros; apply HV; now right].
        exists t, (typed types t p). split; [eapply (find_conv_first X); [exact HI|exact HT|exact (proj1 (HV v (or_introl eq_refl)))]|]. intro zs. exists zs. split; [apply W|easy]. }
    intros Q a st l0 pl HQ HA. cbn [g_q2 g_ss] in *.
    destruct (prepared types t p Q None HI NV (or_intror eq_refl) HQ) as (Q' & E1 & E2).
    assert (F2 : Forall2 (fun v s => forall Q zs, vparse X t s Q zs = Ok (v, Q, zs)) vs ss).
    { clear - F. induction F as [|v s vs ss (_ & R & _) F IH]; constructor; auto. }
    destruct (values_simple a t p vs ss NM F2 NE st Q' l0 pl (or_introl E2) HA) as (st' & ms & G1 & G2 & G3 & G4).
    exists Q', t, st', vs, ms. split; [exact E1|]. split.
    { assert (ss <> []) as NS by (destruct F; easy).
      assert (t = Text \/ t <> Text) as [->|NT] by (destruct t; intuition discriminate).
      - assert (exists ws, ss = map text_serialize ws) as (ws & ->).
        { clear - F. induction F as [|v s vs ss (_ & _ & HW & _) F IH]; [now exists []|]. destruct IH as (ws & ->). destruct (HW eq_refl) as (w & ->). now exists (w :: ws). }
        unfold vsplit. rewrite text_list_roundtrip; [reflexivity|]. now destruct ws.
      - unfold vsplit. destruct t; try easy; unfold join_value_list; f_equal; apply split_on_join; try exact NS;
          (intros w Hw; clear - F Hw NT; induction F as [|v s vs ss (_ & _ & _ & HN) F IH]; [easy|]; destruct Hw as [<-|Hw]; auto). }
    split; [exact G1|]. split; [exact G2|]. split; [apply Forall2_eq_val|]. split; [exact G3|exact G4].
Qed.
Lemma lines_rt types ls : good_types types -> (forall t, In t types -> is_person t -> types = [t]) -> Forall (storable_line X types) ls ->
  exists gs, Forall2 (line_good types) ls gs.
Proof.
  intros HT HP. induction 1 as [|l ls H _ (gs & IH)]; [exists []; constructor|].
  destruct (line_rt types l HT HP H) as (g & HG). exists (g :: gs). now constructor.
Qed.
Lemma lines_good types ls gs : Forall2 (line_good types) ls gs -> Forall (good_group X types eq) gs /\
  flat_map g_vs gs = flat_map line_values ls /\ flat_map group_pars gs = flat_map line_notes ls /\
  stored gs = match ls with [] => None | _ => Some (XMany (flat_map line_notes ls)) end.
Proof.
  intro F.
  assert (G : Forall (good_group X types eq) gs /\ flat_map g_vs gs = flat_map line_values ls /\ flat_map group_pars gs = flat_map line_notes ls).
  { induction F as [|l g ls gs (E1 & E2 & E3 & _) F (IH1 & IH2 & IH3)]; [repeat split; constructor|].
    split; [now constructor|]. cbn [flat_map]. rewrite IH2, IH3. unfold line_values at 2. rewrite E2. split; [reflexivity|]. f_equal.
    unfold group_pars, line_notes. now rewrite E1, E2. }
  destruct G as (G1 & G2 & G3). repeat split; auto. unfold stored. rewrite G3. now destruct F.
Qed.
Lemma lines_read a types r s n : a_kind a = KVal types true r s -> forall ls gs, Forall2 (line_good types) ls gs ->
  forall its', Forall2 item_eq (map (group_line n) gs) its' -> forall (st : lst) l0 pl, acc_state a st l0 pl ->
  exists st' vs' ms, populate_all a its' st = Ok st' /\ acc_state a st' (l0 ++ vs') (pl ++ ms) /\
    Forall2 (eq_val X) (flat_map line_values ls) vs' /\ map strs ms = map strs (flat_map line_notes ls) /\ l_zones st' = l_zones st.
Proof.
  intro HK. induction 1 as [|l g ls gs (_ & _ & _ & HG) F IH]; intros its' HE st l0 pl HA; cbn [map] in HE.
  - inversion HE; subst. exists st, [], []. rewrite !app_nil_r. repeat split; auto; try apply HA; constructor.
  - inversion HE as [|? it ? r' HE1 HE2]; subst. apply item_eq_line in HE1 as (l' & -> & (_ & EV & EP)).
    cbn [ContentLine cl_value cl_params] in EV, EP.
    destruct (HG (cl_params l') a st l0 pl (eq_sym EP) HA) as (Q' & t & st1 & vs1 & ms1 & E1 & E2 & E3 & E4 & E5 & E6 & E7).
    destruct (IH r' HE2 st1 _ _ E4) as (st' & vs' & ms & I1 & I2 & I3 & I4 & I5).
    exists st', (vs1 ++ vs'), (ms1 ++ ms). cbn [populate_all]. unfold populate_conv. rewrite HK. unfold populate_multi. rewrite E1. cbn [bind].
    rewrite <- EV, E2. cbn [bind]. rewrite E3. cbn [bind]. split; [exact I1|]. rewrite !app_assoc. split; [exact I2|].
    cbn [flat_map]. split; [apply Forall2_app; auto|]. rewrite !map_app. split; [congruence|congruence].
Qed.
Lemma alone_write n types ls gs : Forall2 (line_good types) ls gs -> Forall alone ls -> forall zs,
  serialize_values X n types (map (fun v => (v, [])) (flat_map line_values ls)) None [] false zs = Ok (map (group_line n) gs, zs).
Proof.
  induction 1 as [|l g ls gs (E1 & E2 & (NM & ND & NE & FW) & _) F IH]; intros HA zs; [reflexivity|]. inversion HA as [|? ? HA1 HA2]; subst.
  destruct HA1 as [P0 L1]. destruct g as [gq gq2 gvs gss]. cbn [g_q g_q2 g_vs g_ss] in *. subst gq gvs. rewrite P0 in *.
  cbn [flat_map map]. unfold line_values at 1, group_line at 1. cbn [g_q2 g_ss]. destruct (snd l) as [|v [|? ?]]; try discriminate.
  inversion FW as [|? w ? ss (t & q1 & WF & WS) FW']; subst. inversion FW'; subst.
  cbn [app map serialize_values dict_get dict_del]. rewrite WF. cbn [bind]. destruct (WS zs) as (zs' & WE & <-). rewrite WE. cbn [bind].
  rewrite (IH HA2). reflexivity.
Qed.

Lemma multi_rt (x : comp) a types s n :
  a_kind a = KVal types true false s -> a_names a = [n] -> upper n = n -> good_types types ->
  (forall t, In t types -> is_person t -> types = [t]) -> default_attr X c a = AMany [] -> In (a_attr a) NOTE_ATTRS ->
  storable_field X x (a_attr a) (Many types) -> conv_rt a x.
Proof.
  intros HK HN HU HT HP HD HI (ls & HL & HA & HPar).
  assert (HAt : has_attr a = true) by (unfold has_attr; now rewrite HK).
  assert (HMe : has_members a = false) by (unfold has_members; now rewrite HK).
  assert (PK : pkeys a = [upper (a_attr a)]) by (unfold pkeys; now rewrite HK).
  destruct (lines_rt types ls HT HP HL) as (gs & HG). destruct (lines_good types ls gs HG) as (G1 & G2 & G3 & G4).
  assert (NE : forall l, In l ls -> line_values l <> []).
  { intros [[t p] vs] Hl. rewrite Forall_forall in HL. now destruct (HL _ Hl) as (_ & H & _). }
  assert (NT : dict_get (upper (a_attr a)) (c_params (noted x)) = match ls with [] => None | _ => Some (XMany (flat_map line_notes ls)) end).
  { destruct ls as [|l ls].
    - rewrite noted_other; [destruct HPar as [HPar|[HPar _]]; exact HPar|]. intros b Hb E L. exfalso. 
      apply NOTE_inj in E; auto. subst b.
      unfold list_value in L. rewrite HA in L. discriminate.
    - destruct HPar as [HPar|[HPar HAl]].
      + rewrite noted_other; [exact HPar|]. intros. congruence.
      + assert (exists v vs, flat_map line_values (l :: ls) = v :: vs) as (v & vs & EV).
        { cbn [flat_map]. pose proof (NE l (or_introl eq_refl)) as N0. destruct (line_values l); [easy|]. cbn. eauto. }
        rewrite EV in HA. rewrite (noted_set x (a_attr a) v vs HI HA HPar). rewrite <- EV. do 2 f_equal. revert HAl. clear.
        generalize (l :: ls). induction 1 as [|k ks (P0 & L1) _ IH]; [reflexivity|]. cbn [flat_map]. rewrite <- IH. unfold line_values at 1, line_notes.
        rewrite P0. destruct (snd k) as [|? [|? ?]]; try discriminate. reflexivity. }
  assert (NU : forall id z z', ~ conv_uses a x id z z').
  { intros id z z' [(_ & v & E & d & Hd & _)|(E & _)]; [|congruence]. rewrite HA in E. injection E as <-. cbn [attr_dts] in Hd.
    apply in_flat_map in Hd as (v & Hv & Hd). apply in_flat_map in Hv as ([[t p] vs] & Hl & Hv). rewrite Forall_forall in HL.
    destruct (HL _ Hl) as (_ & _ & HV & _). destruct (HV v Hv) as [HS HLi]. destruct HS; try easy. }
  exists (map (group_line n) gs). split; [split|].
  - intro zs. exists zs. split; [|now apply wrote_nouse]. unfold serialize_conv. rewrite HK, HN. unfold serialize_multi.
    destruct HPar as [HPar|[HPar HAl]].
    + destruct (serialize_multi_groups X n types eq (fun _ => eq_refl) (fun a b c E F => eq_trans E F) a x gs G1) with (zs := zs) as (zs' & E & <-).
      * unfold get_attr. now rewrite HA, G2.
      * unfold a_key. now rewrite HPar, G4.
      * exact E.
    + unfold get_attr, a_key. unfold no_par in HPar. rewrite HA, HPar. now apply (alone_write n types ls gs HG HAl).
  - apply Forall_forall. intros it Hit. apply in_map_iff in Hit as (g & <- & _). rewrite HN. cbn [item_name group_line ContentLine cl_name]. rewrite HU. now left.
  - intros its' st HE HFr _.
    destruct (lines_read a types false s n HK ls gs HG its' HE st [] []) as (st' & vs' & ms & E1 & (E2 & E2') & E3 & E4 & E5).
    { split; [now rewrite (f_attr _ _ HFr HAt), HD|]. apply (f_par _ _ HFr). rewrite PK. now left. }
    exists st'. split; [exact E1|]. split; [|rewrite E5; apply zext_refl]. split.
    + rewrite PK. intros k [<-|[]]. rewrite NT. unfold a_key in E2'. rewrite E2'. cbn [app].
      destruct ls as [|l ls]; [now destruct ms|]. cbn [flat_map] in *.
      assert (exists p ps, line_notes l = p :: ps) as (p & ps & EP).
      { unfold line_notes, line_marks. destruct (pred (length (snd l))); cbn; eauto. }
      rewrite EP in *. destruct ms as [|m ms]; [discriminate|]. cbn [eq_opt eq_par]. symmetry. exact E4.
    + rewrite HK, HA, E2. cbn [app eq_opt eq_attr]. split; [exact E3|discriminate].
Qed.

End Field.
