(** * Proofs: equal components are written alike (C67) *)
From Verif Require Import M_Base M_Text M_Line M_Codec M_Cal M_Time M_Span M_Dt M_Fold M_Tree M_Comp M_Open M_Serial.
From Verif Require Import S_Line S_Tree S_Comp S_Store S_Ref S_Wire S_Again S_Same.
From Verif Require Import P_Base.
From Coq Require Import Lia ZifyBool ZifyNat ZifyN.
Open Scope N_scope.

Lemma alike_bind {A B A' B'} (R : A -> B -> Prop) (S : A' -> B' -> Prop) a b (f : A -> res A') (g : B -> res B') :
  alike R a b -> (forall x y, R x y -> alike S (f x) (g y)) -> alike S (bind a f) (bind b g).
Proof. destruct a, b; cbn; intros H K; try easy. now apply K. Qed.
Lemma alike_eq {A} (a : res A) : alike eq a a. Proof. destruct a; reflexivity. Qed.
Lemma alike_impl {A B} (R S : A -> B -> Prop) a b : (forall x y, R x y -> S x y) -> alike R a b -> alike S a b.
Proof. intro H. destruct a, b; cbn; auto. Qed.

(** ** Parameters *)
Definition peq (p q : xp) : Prop := bare p = bare q.
Lemma peq_get k : forall p q, peq p q -> eq_opt (fun a b => map pval_str a = map pval_str b) (dict_get k p) (dict_get k q).
Proof.
  unfold peq, bare. induction p as [|[j a] p IH]; intros [|[i b] q] H; cbn in *; try discriminate; [exact I|]. injection H as -> H1 H2. destruct (str_eqb k i); [exact H1|now apply IH].
Qed.
Lemma peq_set k a b : map pval_str a = map pval_str b -> forall p q, peq p q -> peq (dict_set k a p) (dict_set k b q).
Proof.
  intro E. unfold peq, bare. induction p as [|[j x] p IH]; intros [|[i y] q] H; cbn in *; try discriminate; [now rewrite E|]. injection H as -> H1 H2.
  destruct (str_eqb k i); cbn; [now rewrite E, H2|]. rewrite H1. f_equal. now apply IH.
Qed.
Lemma peq_del k : forall p q, peq p q -> peq (dict_del k p) (dict_del k q).
Proof.
  unfold peq, bare. induction p as [|[j x] p IH]; intros [|[i y] q] H; cbn in *; try discriminate; [reflexivity|]. injection H as -> H1 H2.
  destruct (str_eqb k i); cbn; [exact H2|]. rewrite H1. f_equal. now apply IH.
Qed.
Lemma peq_update : forall x y p q, peq x y -> peq p q -> peq (dict_update p x) (dict_update q y).
Proof.
  unfold dict_update. induction x as [|[j a] x IH]; intros [|[i b] y] p q H HP; try discriminate; [exact HP|]. unfold peq, bare in H. cbn in H. injection H as -> H1 H2. cbn [fold_left fst snd]. apply IH; [exact H2|]. now apply peq_set.
Qed.
Lemma peq_nil p : peq [] p -> p = []. Proof. destruct p; [reflexivity|discriminate]. Qed.
Lemma peq_line n p q v : peq p q -> item_eq (ILine (mk_line n p v)) (ILine (mk_line n q v)).
Proof. intro H. constructor. split; [reflexivity|split; [reflexivity|exact H]]. Qed.
Lemma item_refl it : item_eq it it.
Proof.
  revert it. fix IH 1. intros [l|n its]; [constructor; repeat split|]. constructor. induction its; constructor; auto.
Qed.
Lemma F2_refl {A} (R : A -> A -> Prop) : (forall x, R x x) -> forall l, Forall2 R l l.
Proof. intros H l. induction l; now constructor. Qed.

Section Same.
Variable X : ext.
Notation alarm := M_Comp.alarm. Notation entry := M_Comp.entry.
Definition itz (a b : list item * zones) : Prop := Forall2 item_eq (fst a) (fst b) /\ snd a = snd b.
Definition sxz (a b : str * xp * zones) : Prop := fst (fst a) = fst (fst b) /\ peq (snd (fst a)) (snd (fst b)) /\ snd a = snd b.
Definition oxz (a b : item * zones) : Prop := item_eq (fst a) (fst b) /\ snd a = snd b.

Lemma itz_nil zs : alike itz (Ok ([], zs)) (Ok ([], zs)). Proof. split; [constructor|reflexivity]. Qed.
Lemma dt_same d e p q zs : eq_dt X d e -> peq p q -> alike sxz (dt_serialize X d p zs) (dt_serialize X e q zs).
Proof.
  intros (W & F & Z) P. unfold dt_serialize.
  assert (S : serialize_dt (D X) d [] (Some zs) = serialize_dt (D X) e [] (Some zs)).
  { unfold serialize_dt. rewrite W. destruct Z as [->|[U U']]; [reflexivity|]. unfold utc, D in *. destruct (dtz d), (dtz e); try easy. now rewrite U, U'. }
  rewrite S. eapply alike_bind; [apply alike_eq|]. intros [[s r] zs'] ? <-. split; [reflexivity|]. split; [|reflexivity]. cbn [fst snd]. destruct (dict_get (py "TZID") r); [apply peq_set; [reflexivity|exact P]|exact P].
Qed.
Definition vxp (a b : vconv * xp) : Prop := fst a = fst b /\ peq (snd a) (snd b).
Lemma isinst_same c v w : eq_val X v w -> isinst c v = isinst c w.
Proof. destruct v, w; cbn; intro H; try discriminate H; try reflexivity; try (injection H; intros; subst; reflexivity); try easy. destruct H as (-> & _). reflexivity. Qed.
Lemma find_same convs v w : eq_val X v w -> forall first p q, peq p q -> alike vxp (find_conv first convs v p) (find_conv first convs w q).
Proof.
  intro V. induction convs as [|c convs IH]; intros first p q P; cbn [find_conv]; [reflexivity|]. rewrite (isinst_same c v w V). destruct (isinst c w); [|now apply IH].
  split; [reflexivity|]. cbn. destruct first; [exact P|]. apply peq_set; [reflexivity|exact P].
Qed.
Lemma vser_same c v w p q zs : eq_val X v w -> peq p q -> alike sxz (vserialize X c v p zs) (vserialize X c w q zs).
Proof.
  intros V P. assert (OK : forall s, alike sxz (Ok (s, p, zs)) (Ok (s, q, zs))) by (intro s; split; [reflexivity|split; [exact P|reflexivity]]).
  destruct v, w; cbn in V; try discriminate V; try easy; try (injection V as <-); try (injection V as <- <-); destruct c; cbn [vserialize]; try reflexivity; try (apply OK); try (now apply dt_same).
  all: try (destruct V as (-> & -> & B); (split; [reflexivity|]); (split; [|reflexivity]); cbn [fst snd]; now apply peq_update).
  subst. apply OK.
Qed.

(** ** Attributes *)
Section Comp.
Variable M : Type.
Variable dump_m : M -> zones -> res (item * zones).
Variable EM : M -> M -> Prop.
Hypothesis HM : forall m n zs, EM m n -> alike oxz (dump_m m zs) (dump_m n zs).
Variables c d : comp M.
Hypothesis Q : eq_comp X EM c d.
Lemma attr_same a : eq_attr X (get_attr a c) (get_attr a d).
Proof. unfold get_attr. pose proof (eq_attrs X EM c d Q a) as H. destruct (dict_get a (c_attrs c)), (dict_get a (c_attrs d)); cbn in H; try easy. Qed.
Lemma params_same k : alike peq (single_params k c) (single_params k d).
Proof.
  unfold single_params. pose proof (eq_params X EM c d Q k) as H. destruct (dict_get k (c_params c)) as [[p|l]|], (dict_get k (c_params d)) as [[q|m]|]; cbn in H; try easy.
  destruct l, m; try discriminate H; reflexivity.
Qed.
Lemma single_same a name convs zs : alike itz (serialize_single X a name convs c zs) (serialize_single X a name convs d zs).
Proof.
  unfold serialize_single. pose proof (attr_same (a_attr a)) as A. destruct (get_attr (a_attr a) c) as [|v|l], (get_attr (a_attr a) d) as [|w|m]; cbn in A; try easy; [apply itz_nil| |eapply alike_bind; [apply params_same|easy]].
  eapply alike_bind; [apply params_same|]. intros p q P. eapply alike_bind; [exact (find_same convs v w A true p q P)|]. intros [k p1] [k' q1] [K P1]. cbn in K, P1. subst k'.
  eapply alike_bind; [exact (vser_same k v w p1 q1 zs A P1)|]. intros [[s p2] z] [[s' q2] z'] (S & P2 & Z). cbn in *. subst. split; [|reflexivity]. constructor; [now apply peq_line|constructor].
Qed.
Definition vpe (a b : val * xp) : Prop := eq_val X (fst a) (fst b) /\ peq (snd a) (snd b).
Lemma merge_same p q : peq p q ->
  (match dict_get MERGE p with Some [t] => str_eqb (pval_str t) (py "TRUE") | _ => false end) = (match dict_get MERGE q with Some [t] => str_eqb (pval_str t) (py "TRUE") | _ => false end).
Proof.
  intro P. pose proof (peq_get MERGE p q P) as G. destruct (dict_get MERGE p) as [[|a [|a' l]]|], (dict_get MERGE q) as [[|b [|b' m]]|]; cbn in G; try easy. now injection G as ->.
Qed.
Lemma values_same name convs vs ws : Forall2 vpe vs ws -> forall cur cur' acc merging zs, eq_opt peq cur cur' ->
  alike itz (serialize_values X name convs vs cur acc merging zs) (serialize_values X name convs ws cur' acc merging zs).
Proof.
  induction 1 as [|[v p] [w q] vs ws [V P] F IH]; intros cur cur' acc merging zs C; cbn [serialize_values]; [destruct merging; [reflexivity|apply itz_nil]|].
  cbn in V, P. rewrite (merge_same p q P). eapply alike_bind; [apply (find_same convs v w V true); now apply peq_del|]. intros [k p1] [k' q1] [K P1]. cbn in K, P1. subst k'.
  eapply alike_bind; [exact (vser_same k v w p1 q1 zs V P1)|]. intros [[s p2] z] [[s' q2] z'] (S & P2 & Z). cbn in S, P2, Z. subst.
  eapply (alike_bind eq).
  - destruct cur as [r|], cur' as [r'|]; cbn in C; try easy. change (strs r) with (bare r). change (strs r') with (bare r'). change (strs p2) with (bare p2). change (strs q2) with (bare q2). unfold peq in *. rewrite C, P2. apply alike_eq.
  - intros [] [] _. set (mg := match dict_get MERGE q with Some [t] => _ | _ => _ end). destruct mg.
    + apply IH. destruct cur, cur'; cbn in *; (exact C || exact P2 || easy).
    + eapply alike_bind; [apply IH; exact I|]. intros [its z1] [its' z2] [IT Z]. cbn in IT, Z. subst. split; [|reflexivity]. cbn. constructor; [now apply peq_line|exact IT].
Qed.
Lemma bare_F2 : forall l m, map bare l = map bare m -> Forall2 peq l m.
Proof. induction l as [|x l IH]; intros [|y m] H; try discriminate; constructor; injection H as H1 H2; [exact H1|now apply IH]. Qed.
Lemma combine_same : forall vs ws ps qs, Forall2 (eq_val X) vs ws -> Forall2 peq ps qs -> Forall2 vpe (combine vs ps) (combine ws qs).
Proof. intros vs ws ps qs V. revert ps qs. induction V as [|v w vs ws H V IH]; intros ps qs P; [constructor|]. destruct P; cbn; constructor; [now split|]. now apply IH. Qed.
Lemma F2_len {A B} (R : A -> B -> Prop) l m : Forall2 R l m -> length l = length m. Proof. induction 1; cbn; congruence. Qed.
Lemma multi_same a name convs zs : alike itz (serialize_multi X a name convs c zs) (serialize_multi X a name convs d zs).
Proof.
  unfold serialize_multi. pose proof (attr_same (a_attr a)) as A. destruct (get_attr (a_attr a) c) as [|v|l], (get_attr (a_attr a) d) as [|w|m]; cbn in A; try easy.
  assert (N : alike itz (serialize_values X name convs (map (fun v => (v, [])) l) None [] false zs) (serialize_values X name convs (map (fun v => (v, [])) m) None [] false zs)).
  { apply values_same; [|exact I]. clear - A. induction A; cbn; constructor; [split; [assumption|reflexivity]|assumption]. }
  pose proof (eq_params X EM c d Q (a_key a)) as H. pose proof (F2_len _ _ _ A) as L. destruct (dict_get (a_key a) (c_params c)) as [[p|ps]|], (dict_get (a_key a) (c_params d)) as [[q|qs]|]; cbn in H; try easy.
  - destruct p as [|x p], q as [|y q]; try discriminate H; [exact N|]. assert (LP : length (x :: p) = length (y :: q)) by (apply (f_equal (@length _)) in H; unfold bare in H; rewrite !map_length in H; exact H). rewrite LP, L. destruct (Nat.eqb _ _); reflexivity.
  - apply bare_F2 in H. destruct H as [|x y ps qs XY PQ]; [exact N|]. pose proof (F2_len _ _ _ PQ) as LP. cbn [length]. rewrite LP, L. destruct (Nat.eqb _ _); [|reflexivity]. apply values_same; [|exact I]. apply combine_same; [exact A|]. now constructor.
Qed.
Lemma date_same day x y p q zs : eq_dt X x y -> peq p q -> alike sxz (span_date X day x p zs) (span_date X day y q zs).
Proof.
  intros DT P. unfold span_date. destruct day; [|now apply dt_same]. destruct DT as (-> & _ & _). split; [reflexivity|]. split; [|reflexivity]. cbn. apply peq_set; [reflexivity|exact P].
Qed.
Lemma span_same a zs : alike itz (serialize_span X a c zs) (serialize_span X a d zs).
Proof.
  unfold serialize_span. pose proof (attr_same (a_attr a)) as A. destruct (get_attr (a_attr a) c) as [|v|l], (get_attr (a_attr a) d) as [|w|m]; cbn in A; try easy.
  destruct v, w; cbn in A; try discriminate A; try easy. destruct A as (K & B & EN & DU & PR). assert (DAY : is_all_day t = is_all_day t0) by (unfold is_all_day; now rewrite PR). rewrite DAY.
  eapply (alike_bind itz).
  - destruct (ts_begin t) as [b|], (ts_begin t0) as [b'|]; cbn in B; try easy; [|apply itz_nil]. eapply alike_bind; [apply params_same|]. intros p q P. eapply alike_bind; [apply date_same; [exact B|exact P]|].
    intros [[s p2] z] [[s' q2] z'] (S & P2 & Z). cbn in *. subst. split; [|reflexivity]. constructor; [now apply peq_line|constructor].
  - intros [i1 z1] [i1' z1'] [I1 Z1]. cbn in I1, Z1. subst z1'. eapply (alike_bind itz).
    + unfold end_representation. rewrite <- DU. destruct (ts_dur t) as [du|] eqn:DT.
      * eapply alike_bind; [apply params_same|]. intros p q P. unfold eff_duration. rewrite <- DU, DT. cbn [bind]. split; [|reflexivity]. constructor; [now apply peq_line|constructor].
      * destruct (ts_end t) as [e|] eqn:ET, (ts_end t0) as [e'|] eqn:ET'; cbn in EN; try easy; [|apply itz_nil]. rewrite K. eapply alike_bind; [apply params_same|]. intros p q P. unfold eff_end. rewrite ET, ET'. cbn [bind].
        eapply alike_bind; [apply date_same; [exact EN|exact P]|]. intros [[s p2] z] [[s' q2] z'] (S & P2 & Z). cbn in *. subst. split; [|reflexivity]. constructor; [now apply peq_line|constructor].
    + intros [i2 z2] [i2' z2'] [I2 Z2]. cbn in I2, Z2. subst. split; [|reflexivity]. cbn. now apply Forall2_app.
Qed.
Lemma action_same zs : alike itz (serialize_action c zs) (serialize_action d zs).
Proof.
  unfold serialize_action, action. rewrite (eq_cls X EM c d Q). eapply (alike_bind eq).
  - destruct (c_cls d); try reflexivity. pose proof (attr_same (py "_action")) as A. destruct (get_attr (py "_action") c) as [|v|l], (get_attr (py "_action") d) as [|w|m]; cbn in A; try easy.
    destruct v, w; cbn in A; try discriminate A; try easy. injection A as ->. reflexivity.
  - intros x ? <-. eapply alike_bind; [apply params_same|]. intros p q P. split; [|reflexivity]. constructor; [now apply peq_line|constructor].
Qed.
Lemma list_same l m : Forall2 EM l m -> forall zs, alike itz (dump_list M dump_m l zs) (dump_list M dump_m m zs).
Proof.
  induction 1 as [|x y l m XY F IH]; intro zs; cbn [dump_list]; [apply itz_nil|]. eapply alike_bind; [apply HM; exact XY|]. intros [i z] [i' z'] [IT Z]. cbn in IT, Z. subst.
  eapply alike_bind; [apply IH|]. intros [is z1] [is' z1'] [ITS Z]. cbn in ITS, Z. subst. split; [|reflexivity]. cbn. now constructor.
Qed.
Lemma conv_same a zs : alike itz (serialize_conv X M dump_m a c zs) (serialize_conv X M dump_m a d zs).
Proof.
  unfold serialize_conv. destruct (a_kind a).
  - destruct multi; [apply multi_same|apply single_same].
  - apply span_same.
  - pose proof (eq_mem X EM c d Q (a_attr a)) as ME. assert (G : Forall2 EM (get_mem (a_attr a) c) (get_mem (a_attr a) d)) by (unfold get_mem; destruct (dict_get (a_attr a) (c_mem c)), (dict_get (a_attr a) (c_mem d)); cbn in ME; (exact ME || easy || constructor)).
    pose proof (eq_params X EM c d Q (a_key a)) as H. destruct (dict_get (a_key a) (c_params c)) as [[[|x p]|[|x p]]|], (dict_get (a_key a) (c_params d)) as [[[|y q]|[|y q]]|]; cbn in H; try discriminate H; try easy; now apply list_same.
  - apply action_same.
  - apply itz_nil.
Qed.
Lemma convs_same l : forall zs, alike itz (serialize_convs X M dump_m l c zs) (serialize_convs X M dump_m l d zs).
Proof.
  induction l as [|a l IH]; intro zs; cbn [serialize_convs]; [apply itz_nil|]. eapply alike_bind; [apply conv_same|]. intros [i z] [i' z'] [IT Z]. cbn in IT, Z. subst.
  eapply alike_bind; [apply IH|]. intros [is z1] [is' z1'] [ITS Z]. cbn in ITS, Z. subst. split; [|reflexivity]. cbn. now apply Forall2_app.
Qed.
Lemma container_same n xs ys : Forall2 item_eq xs ys -> alike item_eq (Container n xs) (Container n ys).
Proof. intro F. unfold Container. destruct (upper n); [reflexivity|]. now constructor. Qed.
Theorem comp_same zs : alike oxz (dump_comp X M dump_m c zs) (dump_comp X M dump_m d zs).
Proof.
  unfold dump_comp. rewrite (eq_cls X EM c d Q), (eq_name X EM c d Q). eapply alike_bind; [apply convs_same|]. intros [i z] [i' z'] [IT Z]. cbn in IT, Z. subst.
  eapply alike_bind; [apply container_same, Forall2_app; [exact IT|exact (eq_extra X EM c d Q)]|]. intros x y XY. now split.
Qed.
End Comp.
Theorem alarm_same m n zs : equal_alarm X m n -> alike oxz (dump_alarm X m zs) (dump_alarm X n zs).
Proof. intro H. unfold dump_alarm. refine (comp_same Empty_set dump_none (fun _ _ => True) _ m n H zs). intros []. Qed.
Theorem entry_same m n zs : equal_entry X m n -> alike oxz (dump_entry X m zs) (dump_entry X n zs).
Proof. intro H. exact (comp_same alarm (dump_alarm X) (equal_alarm X) alarm_same m n H zs). Qed.
Theorem calendar_same c d : equal_calendar X c d -> alike item_eq (dump_calendar X c) (dump_calendar X d).
Proof.
  intro H. unfold dump_calendar. eapply alike_bind; [exact (convs_same entry (dump_entry X) (equal_entry X) entry_same c d H _ [])|]. intros [i z] [i' z'] [IT Z]. cbn in IT, Z. subst.
  eapply alike_bind; [exact (convs_same entry (dump_entry X) (equal_entry X) entry_same c d H _ z')|]. intros [i2 z2] [i2' z2'] [IT2 Z2]. cbn in IT2, Z2. subst.
  eapply alike_bind; [apply alike_eq|]. intros t ? <-. rewrite (eq_name X _ c d H). apply container_same. apply Forall2_app; [exact IT|]. apply Forall2_app; [apply F2_refl, item_refl|]. apply Forall2_app; [exact IT2|exact (eq_extra X _ c d H)].
Qed.
End Same.
