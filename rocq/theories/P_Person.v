(** * Proofs about organizers and attendees *)
From Verif Require Import M_Base M_Text M_Line M_Codec M_Cal M_Time M_Span M_Dt M_Tree M_Comp M_Person S_Line S_Codec S_Person.
From Verif Require Import P_Base P_Line P_Codec P_Comp P_Rt P_Clone.
From Coq Require Import Lia ZifyBool ZifyNat ZifyN.
Open Scope N_scope.

(** ** Dictionaries *)
Lemma get_del_same {V} k (d : dict V) : NoDup (keys d) -> dict_get k (dict_del k d) = None.
Proof.
  induction d as [|[j v] d IH]; cbn; [easy|]. intro ND. inversion ND as [|? ? Nj ND']; subst.
  destruct (str_eqb k j) eqn:E; cbn; [|rewrite E; now apply IH]. apply str_eqb_eq in E. subst. now apply dict_get_None.
Qed.
Lemma get_del_other {V} k j (d : dict V) : k <> j -> dict_get k (dict_del j d) = dict_get k d.
Proof.
  intro H. induction d as [|[i v] d IH]; cbn; [easy|]. destruct (str_eqb j i) eqn:E; cbn.
  - apply str_eqb_eq in E. subst. now rewrite (proj2 (str_eqb_neq _ _) H).
  - now rewrite IH.
Qed.
Lemma del_In {V} k (d : dict V) j v : In (j, v) (dict_del k d) -> In (j, v) d.
Proof.
  induction d as [|[i w] d IH]; cbn; [easy|]. destruct (str_eqb k i); cbn; [now right|]. intros [H|H]; [now left|right; now apply IH].
Qed.
Lemma keys_del {V} k (d : dict V) : NoDup (keys d) -> NoDup (keys (dict_del k d)).
Proof.
  induction d as [|[i v] d IH]; cbn; [easy|]. intro ND. inversion ND as [|? ? Ni ND']; subst.
  destruct (str_eqb k i) eqn:E; [easy|]. cbn. constructor; [|now apply IH]. intro H. apply Ni.
  apply in_map_iff in H as ([j w] & <- & H). apply del_In in H. now apply (in_map fst) in H.
Qed.
Lemma keys_set {V} k (v : V) d : NoDup (keys d) -> NoDup (keys (dict_set k v d)).
Proof.
  induction d as [|[i w] d IH]; cbn; intro ND; [constructor; [easy|constructor]|]. inversion ND as [|? ? Ni ND']; subst.
  destruct (str_eqb k i) eqn:E; cbn; [apply str_eqb_eq in E; subst; now constructor|]. constructor; [|now apply IH].
  intro H. apply keys_set_In in H as [->|H]; [now rewrite str_eqb_refl in E|contradiction].
Qed.
Lemma set_In {V} k (v : V) d j w : In (j, w) (dict_set k v d) -> (j = k /\ w = v) \/ In (j, w) d.
Proof.
  induction d as [|[i u] d IH]; cbn; [intros [H|[]]; injection H as <- <-; now left|]. destruct (str_eqb k i) eqn:E; cbn.
  - intros [H|H]; [|right; now right]. injection H as <- <-. apply str_eqb_eq in E. subst. now left.
  - intros [H|H]; [right; now left|]. destruct (IH H); [now left|right; now right].
Qed.

Section Person.
Variable X : ext.

(** ** The properties of a role *)
Lemma props_distinct r : NoDup (map pp_attr (props r)) /\ NoDup (map pp_name (props r)).
Proof. split; apply nodupb_spec; destruct r; vm_compute; reflexivity. Qed.
Lemma props_eq r a b : In a (props r) -> In b (props r) -> pp_name a = pp_name b -> a = b.
Proof. intros Ha Hb. apply (NoDup_map_eq pp_name (props r)); [apply props_distinct|easy|easy]. Qed.
Lemma props_attr r a b : In a (props r) -> In b (props r) -> pp_attr a = pp_attr b <-> pp_name a = pp_name b.
Proof.
  intros Ha Hb. split; intro E; [|apply (props_eq r a b Ha Hb) in E; now subst].
  apply (NoDup_map_eq pp_attr (props r)) in E; [now subst|apply props_distinct|easy|easy].
Qed.
Lemma props_name r a : In a (props r) -> none_of [61; 58; 59] (pp_name a).
Proof.
  intros Ha c Hc Hin. assert (G : forallb (fun a => forallb (fun c => negb (existsb (N.eqb c) (pp_name a))) [61; 58; 59]) (props r) = true)
    by (destruct r; vm_compute; reflexivity).
  rewrite forallb_forall in G. specialize (G a Ha). rewrite forallb_forall in G. specialize (G c Hc).
  apply Bool.negb_true_iff in G. enough (existsb (N.eqb c) (pp_name a) = true) by congruence.
  apply existsb_exists. exists c. split; [easy|]. apply N.eqb_refl.
Qed.

(** ** Setting and reading one attribute *)
Lemma one_back c v : right_one X c v -> exists s, pserialize X c v = Ok s /\ pparse X c (PRaw s) = Ok v.
Proof.
  destruct c, v; cbn; intro H; try contradiction; eexists; (split; [reflexivity|]); cbn.
  - reflexivity.
  - now rewrite H.
  - now destruct b.
Qed.
Lemma all_back c l : Forall (right_one X c) l -> exists ss, pserialize_all X c l = Ok ss /\ pparse_all X c (raw ss) = Ok l.
Proof.
  induction 1 as [|v l H HF IH]; [now exists []|]. destruct (one_back _ _ H) as (s & S & P), IH as (ss & SS & PP).
  exists (s :: ss). change (raw (s :: ss)) with (PRaw s :: raw ss). cbn [pserialize_all pparse_all]. rewrite S, SS, P, PP. now split.
Qed.
Lemma set_right a v p : right_value X a v -> exists l,
  pset X a v p = Ok (mk_person (p_role p) (p_email p) (dict_set (pp_name a) (raw l) (p_extra p))) /\
  forall q, dict_get (pp_name a) (p_extra q) = Some (raw l) -> pget X a q = Ok v.
Proof.
  unfold right_value, pset, pget. destruct (pp_multi a).
  - intros (vs & -> & F). destruct (all_back _ _ F) as (ss & S & P). exists ss. cbn [iterate bind]. rewrite S. split; [easy|].
    intros q ->. now rewrite P.
  - intro H. destruct (one_back _ _ H) as (s & S & P). exists [s]. rewrite S. split; [easy|]. intros q ->. exact P.
Qed.
Lemma get_ext a p q : dict_get (pp_name a) (p_extra p) = dict_get (pp_name a) (p_extra q) -> pget X a p = pget X a q.
Proof. unfold pget. now intros ->. Qed.
Lemma step_spec r o p : right_op X r o -> NoDup (keys (p_extra p)) ->
  NoDup (keys (p_extra (pstep X o p))) /\ p_role (pstep X o p) = p_role p /\
  p_email (pstep X o p) = email_after (p_email p) [o] /\
  (forall a, In a (props r) -> pget X a (pstep X o p) = field_after (pp_attr a) (pget X a p) [o]) /\
  (forall k, ~ In k (map pp_name (props r)) -> dict_get k (p_extra (pstep X o p)) = dict_get k (p_extra p)).
Proof.
  destruct o as [b v|b|e]; cbn [right_op pstep field_after email_after]; intros HR ND.
  - destruct HR as [Hb HV]. destruct (set_right b v p HV) as (l & -> & HG). cbn [p_extra p_role p_email].
    split; [now apply keys_set|]. split; [easy|]. split; [easy|]. split.
    + intros a Ha. destruct (str_eqb (pp_attr a) (pp_attr b)) eqn:E.
      * apply str_eqb_eq in E. apply (props_attr r a b Ha Hb) in E. pose proof (props_eq r a b Ha Hb E) as ->.
        apply HG. cbn. apply dict_get_set_same.
      * apply str_eqb_neq in E. apply get_ext. cbn. apply dict_get_set_other. intro E2. apply E. now apply (props_attr r a b).
    + intros k Hk. apply dict_get_set_other. intro E. apply Hk. rewrite <- E. now apply in_map.
  - cbn [p_extra p_role p_email pdel]. split; [now apply keys_del|]. split; [easy|]. split; [easy|]. split.
    + intros a Ha. destruct (str_eqb (pp_attr a) (pp_attr b)) eqn:E.
      * apply str_eqb_eq in E. apply (props_attr r a b Ha HR) in E. pose proof (props_eq r a b Ha HR E) as ->.
        unfold pget. cbn [p_extra pdel]. now rewrite get_del_same.
      * apply str_eqb_neq in E. apply get_ext. cbn. apply get_del_other. intro E2. apply E. now apply (props_attr r a b).
    + intros k Hk. apply get_del_other. intro E. apply Hk. rewrite E. now apply in_map.
  - easy.
Qed.
Lemma field_app a h1 h2 b : field_after a b (h1 ++ h2) = field_after a (field_after a b h1) h2.
Proof. revert b. induction h1 as [|[c v|c|e] h1 IH]; intro b; cbn; auto. Qed.
Lemma email_app h1 h2 e : email_after e (h1 ++ h2) = email_after (email_after e h1) h2.
Proof. revert e. induction h1 as [|[c v|c|e'] h1 IH]; intro e; cbn; auto. Qed.
Lemma history h : forall p, NoDup (keys (p_extra p)) -> Forall (right_op X (p_role p)) h ->
  NoDup (keys (p_extra (prun X h p))) /\ p_role (prun X h p) = p_role p /\ p_email (prun X h p) = email_after (p_email p) h /\
  (forall a, In a (props (p_role p)) -> pget X a (prun X h p) = field_after (pp_attr a) (pget X a p) h) /\
  (forall k, ~ In k (map pp_name (props (p_role p))) -> dict_get k (p_extra (prun X h p)) = dict_get k (p_extra p)).
Proof.
  induction h as [|o h IH]; intros p ND HF; [easy|]. inversion HF as [|? ? Ho HF']; subst.
  destruct (step_spec _ _ _ Ho ND) as (ND1 & R1 & E1 & G1 & K1). change (prun X (o :: h) p) with (prun X h (pstep X o p)).
  rewrite <- R1 in HF'. destruct (IH _ ND1 HF') as (ND2 & R2 & E2 & G2 & K2). rewrite R1 in G2, K2. split; [easy|]. split; [congruence|].
  split; [rewrite E2, E1; symmetry; exact (email_app [o] h (p_email p))|]. split.
  - intros a Ha. rewrite (G2 a Ha), (G1 a Ha). symmetry. exact (field_app (pp_attr a) [o] h _).
  - intros k Hk. rewrite (K2 k Hk). now apply K1.
Qed.

(** ** What is read from a parameter *)
Lemma pparse_iff c v x : pparse X c v = Ok x <-> stands X c v x.
Proof.
  destruct c; cbn [pparse stands].
  - split; [now intros [= <-]|now intros ->].
  - destruct v as [s|s].
    + split.
      * intro H. destruct (x_urlparse X s) as [u|] eqn:E; [|discriminate]. injection H as <-. left. eauto.
      * intros [(s' & u & [= <-] & -> & ->)|[[=] _]]. reflexivity.
    + destruct s; [split; [intros [= <-]; now right|]|split; [discriminate|]]; intros [(s' & u & [=] & _)|[H ->]]; [reflexivity|discriminate H].
  - split.
    + intro H. destruct (bool_parse (pval_str v)) as [b|] eqn:E; [|discriminate]. injection H as <-. apply bool_parse_exact in E as (w & I & L). eauto.
    + intros (b & w & -> & I & L). assert (bool_parse (pval_str v) = Ok b) as -> by (apply bool_parse_exact; eauto). reflexivity.
Qed.
Lemma pparse_all_iff c vs : forall l, pparse_all X c vs = Ok l <-> Forall2 (stands X c) vs l.
Proof.
  induction vs as [|v vs IH]; intro l; cbn [pparse_all].
  - split; [intros [= <-]; constructor|]. intro H. now inversion H.
  - split.
    + intro H. unbind H. unbind H. injection H as <-. constructor; [now apply pparse_iff|now apply IH].
    + intro H. inversion H as [|? x ? l' H1 H2]; subst. apply pparse_iff in H1 as ->. apply IH in H2 as ->. reflexivity.
Qed.
Lemma get_iff a p x : pget X a p = Ok x <-> field_is X a (dict_get (pp_name a) (p_extra p)) x.
Proof.
  unfold pget, field_is. destruct (dict_get (pp_name a) (p_extra p)) as [vs|]; [|split; [now intros [= <-]|now intros ->]].
  destruct (pp_multi a).
  - split.
    + intro H. destruct (pparse_all X (pp_conv a) vs) as [l|] eqn:E; [|discriminate]. injection H as <-. exists l. split; [easy|]. now apply pparse_all_iff.
    + intros (l & -> & H). apply pparse_all_iff in H as ->. reflexivity.
  - destruct vs as [|v [|w vs]].
    + split; [intros [= <-]; now left|]. intros [[_ ->]|(v & [=] & _)]. reflexivity.
    + rewrite pparse_iff. split; [intro H; right; eauto|]. intros [[[=] _]|(v' & [= <-] & H)]. exact H.
    + split; [discriminate|]. intros [[[=] _]|(v' & [=] & _)].
Qed.
Lemma several a p v w vs : pp_multi a = false -> dict_get (pp_name a) (p_extra p) = Some (v :: w :: vs) -> pget X a p = Err ValueError.
Proof. unfold pget. now intros -> ->. Qed.

(** ** Making a person *)
Lemma set_all_run kw : forall p q, set_all X kw p = Ok q -> q = prun X (map (fun o => OSet (fst o) (snd o)) kw) p.
Proof.
  induction kw as [|[a v] kw IH]; intros p q H; cbn [set_all] in H; [now injection H as <-|]. unbind H. apply IH in H.
  change (q = prun X (map (fun o => OSet (fst o) (snd o)) kw) (match pset X a v p with Ok p' => p' | Err _ => p end)). now rewrite Ha.
Qed.
Lemma set_all_right r kw : Forall (fun o => In (fst o) (props r) /\ right_value X (fst o) (snd o)) kw -> forall p, exists q, set_all X kw p = Ok q.
Proof.
  induction 1 as [|[a v] kw [Ha HV] HF IH]; intro p; cbn [set_all]; [eauto|]. destruct (set_right a v p HV) as (l & -> & _). cbn [bind]. apply IH.
Qed.
Lemma new_spec r e extra kw : NoDup (keys extra) -> Forall (fun o => In (fst o) (props r) /\ right_value X (fst o) (snd o)) kw ->
  exists p, new_person X r e extra kw = Ok p /\ p_role p = r /\ p_email p = e /\
    (forall a, In a (props r) -> pget X a p = field_after (pp_attr a) (pget X a (mk_person r e extra)) (map (fun o => OSet (fst o) (snd o)) kw)) /\
    (forall k, ~ In k (map pp_name (props r)) -> dict_get k (p_extra p) = dict_get k extra).
Proof.
  intros ND HF. destruct (set_all_right r kw HF (mk_person r e extra)) as (p & E). exists p. split; [exact E|]. apply set_all_run in E. subst p.
  assert (HO : Forall (right_op X r) (map (fun o => OSet (fst o) (snd o)) kw)) by (apply Forall_map; eapply Forall_impl; [|exact HF]; intros [a v] H; exact H).
  destruct (history (map (fun o => OSet (fst o) (snd o)) kw) (mk_person r e extra) ND HO) as (_ & R & EM & G & K). split; [exact R|]. split; [|split; [exact G|exact K]].
  rewrite EM. cbn [p_email]. clear. induction kw as [|[a v] kw IH]; [easy|exact IH].
Qed.

(** ** What is stored can be written *)
Lemma one_plain c v s : right_one X c v -> writable_one X v -> pserialize X c v = Ok s -> plain s.
Proof.
  destruct c, v; cbn; intros HR HW H; try contradiction; injection H as <-; try easy.
  unfold plain. destruct b; (split; [discriminate|]); intro H; vm_compute in H; intuition discriminate.
Qed.
Lemma all_plain c l : Forall (right_one X c) l -> Forall (writable_one X) l -> forall ss, pserialize_all X c l = Ok ss ->
  Forall plain ss /\ length ss = length l.
Proof.
  induction 1 as [|v l H HF IH]; intros HW ss HS; cbn in HS; [injection HS as <-; now split|].
  inversion HW as [|? ? W1 W2]; subst. unbind HS. unbind HS. injection HS as <-. destruct (IH W2 _ Ha0) as [P L].
  split; [constructor; [now apply (one_plain c v)|easy]|cbn; now rewrite L].
Qed.
Lemma plain_wf l : l <> [] -> Forall plain l -> wf_pvals (raw l).
Proof.
  intros HN F. unfold wf_pvals. split; [now destruct l|]. split.
  - intros v Hv. apply in_map_iff in Hv as (s & <- & Hs). cbn. rewrite Forall_forall in F. now apply F.
  - destruct (exists_last HN) as (l' & s & ->). unfold raw. rewrite map_app. cbn [map]. rewrite last_last. intro E. injection E as E.
    rewrite Forall_forall in F. destruct (F s) as [Hs _]; [apply in_or_app; right; now left|easy].
Qed.
Lemma step_writable r o p : right_op X r o -> writable_op X o -> writable_extra (p_extra p) -> writable_extra (p_extra (pstep X o p)).
Proof.
  intros HR HW [ND HE]. destruct o as [a v|a|e]; cbn [pstep right_op] in *.
  - destruct HR as [Ha HV]. assert (G : forall l, l <> [] -> Forall plain l -> writable_extra (dict_set (pp_name a) (raw l) (p_extra p))).
    { intros l Hl Fl. split; [now apply keys_set|]. intros k vs Hk. apply set_In in Hk as [[-> ->]|Hk]; [|now apply HE].
      split; [now apply (props_name r)|now apply plain_wf]. }
    unfold pset, right_value in *. destruct (pp_multi a).
    + destruct HV as (vs & -> & F). destruct HW as [Hne FW]. cbn [iterate bind]. destruct (pserialize_all X (pp_conv a) vs) as [ss|] eqn:S; [|easy].
      cbn. destruct (all_plain _ _ F FW _ S) as [P L]. apply G; [|easy]. destruct ss, vs; easy.
    + destruct (pserialize X (pp_conv a) v) as [s|] eqn:S; [|easy]. cbn. apply (G [s]); [easy|]. constructor; [|constructor].
      apply (one_plain (pp_conv a) v); [easy| |easy]. destruct v; try easy.
  - cbn. split; [now apply keys_del|]. intros k vs Hk. apply del_In in Hk. now apply HE.
  - easy.
Qed.
Lemma run_writable h : forall p, Forall (right_op X (p_role p)) h -> Forall (writable_op X) h ->
  writable_extra (p_extra p) -> writable_extra (p_extra (prun X h p)).
Proof.
  induction h as [|o h IH]; intros p HF HW HE; [easy|]. inversion HF; subst. inversion HW; subst.
  change (prun X (o :: h) p) with (prun X h (pstep X o p)).
  destruct (step_spec (p_role p) o p) as (_ & R & _); [easy|apply HE|]. apply IH; [now rewrite R|easy|]. eapply step_writable; eauto.
Qed.

(** ** The line of a person *)
Lemma get_requote k (d : xp) : dict_get k (map (fun kv => (fst kv, map requote (snd kv))) d) = option_map (map requote) (dict_get k d).
Proof. induction d as [|[j v] d IH]; cbn; [easy|]. destruct (str_eqb k j); [easy|apply IH]. Qed.
Lemma line_back p u : writable_extra (p_extra p) -> x_urlparse X (email_str X (p_email p)) = Ok u ->
  exists t, person_text X p = Ok t /\
    read_person X (p_role p) t =
      Ok (mk_person (p_role p) (EUrl u) (map (fun kv => (fst kv, map requote (snd kv))) (p_extra p))).
Proof.
  intros [ND HE] HU. destruct p as [r e x]. cbn [p_role p_email p_extra] in *.
  assert (HL : person_line X (mk_person r e x) = Ok (mk_line (ics_type (conv_of r)) x (email_str X e))).
  { unfold person_line. destruct r; cbn -[dict_update]; now rewrite dict_update_nil. }
  unfold person_text. rewrite HL. eexists. split; [reflexivity|]. unfold read_person.
  rewrite line_roundtrip_exact.
  - unfold requote_line. cbn [bind cl_value cl_params]. destruct r; unfold conv_of, vparse, person_parse; rewrite HU; reflexivity.
  - split; [|split; [|split]]; cbn [cl_name cl_params].
    + destruct r; intros c Hc Hin; vm_compute in Hin; cbn in Hc; intuition (subst; discriminate).
    + now destruct r.
    + exact ND.
    + exact HE.
Qed.
Lemma get_line a p q : p_extra q = map (fun kv => (fst kv, map requote (snd kv))) (p_extra p) ->
  pp_conv a <> PUri -> pget X a q = pget X a p.
Proof.
  intros E HC. unfold pget. rewrite E, get_requote. destruct (dict_get (pp_name a) (p_extra p)) as [vs|]; [|easy]. cbn.
  assert (H1 : forall v, pparse X (pp_conv a) (requote v) = pparse X (pp_conv a) v).
  { intro v. unfold pparse. rewrite requote_str. now destruct (pp_conv a). }
  destruct (pp_multi a).
  - f_equal. induction vs as [|v vs IH]; cbn; [easy|]. rewrite H1. now rewrite IH.
  - destruct vs as [|v [|w vs]]; cbn; [easy|apply H1|easy].
Qed.
Lemma requote_plain v : unquoted v -> requote v = v.
Proof.
  intros (s & -> & HN). cbn. destruct (needs_quote s) eqn:E; [|easy]. unfold needs_quote in E. apply existsb_exists in E as (c & Hc & E).
  exfalso. cbn in E. rewrite !Bool.orb_true_iff in E. destruct E as [[E|E]|E]; apply N.eqb_eq in E; subst;
    (eapply HN; [|exact Hc]); cbn; auto.
Qed.
Lemma get_line_uri a p q : p_extra q = map (fun kv => (fst kv, map requote (snd kv))) (p_extra p) ->
  (forall vs, dict_get (pp_name a) (p_extra p) = Some vs -> Forall unquoted vs) -> pget X a q = pget X a p.
Proof.
  intros E HC. apply get_ext. rewrite E, get_requote. destruct (dict_get (pp_name a) (p_extra p)) as [vs|]; [|easy]. cbn. f_equal.
  specialize (HC vs eq_refl). induction HC as [|v vs Hv HF IH]; cbn; [easy|]. now rewrite requote_plain, IH.
Qed.
Lemma line_spec p u : writable_extra (p_extra p) -> x_urlparse X (email_str X (p_email p)) = Ok u ->
  exists t q, person_text X p = Ok t /\ read_person X (p_role p) t = Ok q /\
    p_role q = p_role p /\ p_email q = EUrl u /\ strs (p_extra q) = strs (p_extra p) /\
    forall a, In a (props (p_role p)) ->
      pp_conv a <> PUri \/ (forall vs, dict_get (pp_name a) (p_extra p) = Some vs -> Forall unquoted vs) ->
      pget X a q = pget X a p.
Proof.
  intros HE HU. destruct (line_back p u HE HU) as (t & HT & HR). eexists. eexists. split; [exact HT|]. split; [exact HR|].
  split; [easy|]. split; [easy|]. split.
  - cbn. unfold strs. rewrite map_map. apply map_ext. intros [k vs]. cbn. f_equal. rewrite map_map. apply map_ext. apply requote_str.
  - intros a _ [HC|HC]; [now apply get_line|now apply get_line_uri].
Qed.
Lemma survive p h u : writable_extra (p_extra p) -> Forall (right_op X (p_role p)) h -> Forall (writable_op X) h ->
  x_urlparse X (email_str X (email_after (p_email p) h)) = Ok u ->
  exists t q, person_text X (prun X h p) = Ok t /\ read_person X (p_role p) t = Ok q /\
    p_role q = p_role p /\ p_email q = EUrl u /\
    (forall a, In a (props (p_role p)) -> pp_conv a <> PUri -> pget X a q = field_after (pp_attr a) (pget X a p) h) /\
    (forall k, ~ In k (map pp_name (props (p_role p))) ->
       option_map (map pval_str) (dict_get k (p_extra q)) = option_map (map pval_str) (dict_get k (p_extra p))).
Proof.
  intros HE HF HW HU. destruct (history h p (proj1 HE) HF) as (ND & R & E & G & K). rewrite <- E in HU.
  pose proof (run_writable h p HF HW HE) as HE2. destruct (line_back (prun X h p) u HE2 HU) as (t & HT & HR). rewrite R in HR.
  eexists. eexists. split; [exact HT|]. split; [exact HR|]. split; [easy|]. split; [easy|]. split.
  - intros a Ha HC. rewrite <- (G a Ha). now apply get_line.
  - intros k Hk. cbn [p_extra]. rewrite get_requote, (K k Hk). destruct (dict_get k (p_extra p)) as [vs|]; [|easy]. cbn. f_equal.
    rewrite map_map. apply map_ext. apply requote_str.
Qed.
(** An address is quoted when it is written, and a quoted one cannot be read. *)
Lemma uri_lost a v p q s : In a (props (p_role p)) -> pp_conv a = PUri -> pp_multi a = false ->
  right_value X a v -> pserialize X PUri v = Ok s -> In 58 s ->
  writable_extra (p_extra q) -> pset X a v p = Ok q -> forall t q', person_text X q = Ok t -> read_person X (p_role p) t = Ok q' ->
  pget X a q' = Err AttributeError.
Proof.
  intros Ha HC HM HV HS H58 HE Hset t q' HT HR. unfold pset in Hset. rewrite HM, HC, HS in Hset. injection Hset as <-.
  unfold person_text in HT. unfold read_person in HR.
  destruct p as [r e x]. cbn [p_role p_email p_extra] in *. set (x2 := dict_set (pp_name a) [PRaw s] x) in *.
  assert (HL : person_line X (mk_person r e x2) = Ok (mk_line (ics_type (conv_of r)) x2 (email_str X e))).
  { unfold person_line. destruct r; cbn -[dict_update]; now rewrite dict_update_nil by apply HE. }
  rewrite HL in HT. injection HT as <-. rewrite line_roundtrip_exact in HR.
  - cbn [bind cl_value cl_params requote_line] in HR.
    assert (HX : p_extra q' = map (fun kv => (fst kv, map requote (snd kv))) x2).
    { unfold requote_line in HR. cbn [cl_value cl_params] in HR.
      destruct r; unfold conv_of, vparse, person_parse in HR; destruct (x_urlparse X (email_str X e)) as [u|]; try discriminate; cbn [bind] in HR; now injection HR as <-. }
    unfold pget. rewrite HX, get_requote. unfold x2. rewrite dict_get_set_same, HM, HC. cbn.
    assert (HN : needs_quote s = true).
    { unfold needs_quote. apply existsb_exists. exists 58. now split. }
    rewrite HN. cbn. destruct s; [contradiction|reflexivity].
  - split; [|split; [|split]]; cbn [cl_name cl_params].
    + destruct r; intros c Hc Hin; vm_compute in Hin; cbn in Hc; intuition (subst; discriminate).
    + now destruct r.
    + apply HE.
    + apply HE.
Qed.
(** A string assigned to an address attribute is read as a parsed address. *)
Lemma str_uri a s p q u : pp_conv a = PUri -> pp_multi a = false -> x_urlparse X s = Ok u ->
  pset X a (PyStr s) p = Ok q -> pget X a q = Ok (PyUrl u).
Proof.
  intros HC HM HU H. unfold pset in H. rewrite HM, HC in H. injection H as <-. unfold pget. cbn [p_extra]. rewrite dict_get_set_same, HM, HC.
  cbn. now rewrite HU.
Qed.
End Person.
