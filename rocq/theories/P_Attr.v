From Verif Require Import M_Base P_Base M_Attr S_Attr.
From Coq Require Import Lia.

Section Attr.
Variable V : Type.
Notation klass := (klass V).

Definition klass_rect' (P : klass -> Prop)
  (H0 : forall id own, P (Klass id own None))
  (H1 : forall id own b, P b -> P (Klass id own (Some b))) : forall c, P c :=
  fix go c := match c with
              | Klass id own None => H0 id own
              | Klass id own (Some b) => H1 id own b (go b)
              end.

Lemma get_update {A} (own d : dict A) key :
  dict_get key (dict_update d own) =
  match find (fun e => str_eqb key (fst e)) (rev own) with Some e => Some (snd e) | None => dict_get key d end.
Proof.
  revert d; induction own as [|[k v] own IH] using rev_ind; intro d; [reflexivity|].
  unfold dict_update in *. rewrite fold_left_app, rev_app_distr. cbn [fold_left rev app find fst snd].
  destruct (str_eqb key k) eqn:E.
  - apply str_eqb_eq in E; subst k. apply dict_get_set_same.
  - rewrite dict_get_set_other by (apply str_eqb_neq in E; congruence). apply IH.
Qed.
Lemma get_fields (c : klass) key : dict_get key (fields_dict c) = declared c key.
Proof.
  induction c as [id own|id own b IH] using klass_rect'; cbn [fields_dict declared]; rewrite get_update; [reflexivity|].
  now rewrite IH.
Qed.
Lemma keys_set {A} k (v : A) d : NoDup (keys d) -> NoDup (keys (dict_set k v d)).
Proof.
  intro H. induction d as [|[k2 v2] d IH]; cbn.
  - constructor; [easy|constructor].
  - inversion H as [|? ? N ND]; subst. destruct (str_eqb k k2) eqn:E; cbn.
    + apply str_eqb_eq in E; subst. now constructor.
    + constructor; [|now apply IH]. intro I. apply N.
      destruct (dict_get k2 (dict_set k v d)) eqn:G.
      * rewrite dict_get_set_other in G by (apply str_eqb_neq in E; congruence).
        destruct (dict_get k2 d) eqn:G2; [|discriminate].
        destruct (in_dec (list_eq_dec N.eq_dec) k2 (keys d)) as [J|J]; [exact J|].
        apply dict_get_None in J. congruence.
      * apply dict_get_None in G. contradiction.
Qed.
Lemma keys_update {A} (own d : dict A) : NoDup (keys d) -> NoDup (keys (dict_update d own)).
Proof.
  unfold dict_update. revert d; induction own as [|[k v] own IH]; intros d H; cbn; [exact H|].
  apply IH. now apply keys_set.
Qed.
Lemma keys_fields (c : klass) : NoDup (keys (fields_dict c)).
Proof.
  induction c as [id own|id own b IH] using klass_rect'; cbn [fields_dict]; apply keys_update; [constructor|exact IH].
Qed.

(** ** The cache *)
Lemma cached_In id (k : caches V) f : cached V id k = Some f -> In (id, f) k.
Proof.
  unfold cached. destruct (find _ k) as [[i g]|] eqn:E; [|discriminate]. cbn. intros [= <-].
  apply find_some in E. destruct E as [I E]. cbn in E. apply N.eqb_eq in E. now subst.
Qed.

Definition cache_ok (K : klass -> Prop) (k : caches V) : Prop :=
  forall id f, In (id, f) k -> exists d, K d /\ k_id d = id /\ f = fields_dict d.

Lemma find_fields_from (c : klass) k f : find_fields c k = Some f ->
  exists d, (d = c \/ base_of d c) /\ In (k_id d, f) k.
Proof.
  induction c as [id own|id own b IH] using klass_rect'; cbn [find_fields].
  - destruct (cached V id k) eqn:E; [|discriminate]. intros [= <-].
    exists (Klass id own None). split; [now left|]. now apply cached_In in E.
  - destruct (cached V id k) eqn:E.
    + intros [= <-]. exists (Klass id own (Some b)). split; [now left|]. now apply cached_In in E.
    + intro F. destruct (IH F) as [d [D I]]. exists d. split; [|exact I]. right. cbn. destruct D; auto.
Qed.

Lemma use_ok K (c : klass) k : unrelated K -> K c -> cache_ok K k ->
  (forall key, dict_get key (fst (use_fields c k)) = declared c key) /\ cache_ok K (snd (use_fields c k)).
Proof.
  intros [U1 [U2 U3]] Kc CO.
  assert (New : (forall key, dict_get key (fields_dict c) = declared c key) /\ cache_ok K ((k_id c, fields_dict c) :: k)).
  { split; [apply get_fields|]. intros id f [[= <- <-]|I]; [exists c; auto|now apply CO]. }
  unfold use_fields. destruct (find_fields c k) as [[|e r]|] eqn:E; [exact New| |exact New].
  split; [|exact CO]. cbn [fst].
  destruct (find_fields_from _ _ _ E) as [b [B I]].
  destruct (CO _ _ I) as [d [Kd [ID F]]]. rewrite F.
  assert (EQ : d = c \/ base_of d c).
  { destruct B as [-> | B]; [left; now apply U1|]. right. rewrite <- (U2 c d b Kc Kd B (eq_sym ID)). exact B. }
  intro key. rewrite get_fields. destruct EQ as [-> | EQ]; [reflexivity|].
  destruct (U3 c d Kc Kd EQ) as [N|S]; [|apply S].
  destruct e as [n g]. specialize (N n). rewrite <- get_fields, <- F in N. cbn in N. now rewrite str_eqb_refl in N.
Qed.

Lemma checked_ought fs (c : klass) key v : (forall key, dict_get key fs = declared c key) ->
  checked fs c key v = ought c key v.
Proof.
  intro H. unfold checked, ought. rewrite H. destruct (declared c key); [|reflexivity].
  destruct (f_conv f v); [|reflexivity]. cbn. now destruct (f_valid f (k_id c) a).
Qed.
Lemma ought_accepted (c : klass) key v v' : ought c key v = Ok v' -> accepted c key v'.
Proof.
  unfold ought, accepted. destruct (declared c key); [|easy].
  destruct (f_conv f v) eqn:E; [|discriminate]. destruct (f_valid f (k_id c) a) as [[]|] eqn:G; [|discriminate].
  intros [= <-]. split; [now exists v|exact G].
Qed.

(** ** Construction *)
Lemma init_conv_get (fs : dict (field V)) vals attrs : init_conv fs vals = Ok attrs -> NoDup (keys fs) ->
  (forall key v, dict_get key attrs = Some v -> exists f, dict_get key fs = Some f /\ f_conv f (vals key) = Ok v) /\
  (forall key, dict_get key fs <> None -> dict_get key attrs <> None).
Proof.
  revert attrs; induction fs as [|[n f] fs IH]; intros attrs E ND; cbn in E.
  - injection E as <-. split; [discriminate|easy].
  - destruct (f_conv f (vals n)) eqn:C; [|discriminate]. cbn in E.
    destruct (init_conv fs vals) eqn:R; [|discriminate]. injection E as <-.
    inversion ND as [|? ? N ND']; subst.
    destruct (IH _ eq_refl ND') as [I1 I2]. split; intro key; cbn; destruct (str_eqb key n) eqn:Q.
    + apply str_eqb_eq in Q; subst. intros v0 [= <-]. now exists f.
    + apply I1.
    + discriminate.
    + apply I2.
Qed.
Lemma init_valid_get (fs : dict (field V)) id attrs : init_valid fs id attrs = Ok tt ->
  forall key f, In (key, f) fs -> exists v, dict_get key attrs = Some v /\ f_valid f id v = Ok tt.
Proof.
  induction fs as [|[n g] fs IH]; intros E key f I; [easy|]. cbn in E.
  destruct (dict_get n attrs) eqn:G; [|discriminate]. destruct (f_valid g id v) as [[]|] eqn:VV; [|discriminate].
  destruct I as [[= -> ->]|I]; [now exists v|]. now apply IH.
Qed.
Lemma get_In {A} key (f : A) d : dict_get key d = Some f -> In (key, f) d.
Proof.
  induction d as [|[k v] d IH]; cbn; [discriminate|]. destruct (str_eqb key k) eqn:E.
  - apply str_eqb_eq in E; subst. intros [= ->]. now left.
  - right. now apply IH.
Qed.
Lemma construct_valid (c : klass) vals o : construct c vals = Ok o ->
  i_cls o = c /\ valid_inst o /\ complete_inst o.
Proof.
  unfold construct. destruct (init_conv (fields_dict c) vals) as [attrs|] eqn:E; [|discriminate]. cbn.
  destruct (init_valid _ _ attrs) as [[]|] eqn:G; [|discriminate]. cbn. intros [= <-].
  destruct (init_conv_get _ _ _ E (keys_fields c)) as [I1 I2].
  split; [reflexivity|]. split.
  - intros key v D. cbn in D. destruct (I1 key v D) as [f [F C]]. unfold accepted. cbn.
    rewrite <- get_fields, F. split; [now exists (vals key)|].
    destruct (init_valid_get _ _ _ G key f (get_In _ _ _ F)) as [v' [D' VV]].
    rewrite D in D'. now injection D' as <-.
  - intros key D. cbn in *. apply I2. now rewrite get_fields.
Qed.

(** ** Histories *)
Lemma nth_replace {A} i (x : A) l : (i < length l)%nat -> nth_error (replace_at i x l) i = Some x.
Proof. revert i; induction l; intros [|i] H; cbn in *; try lia; [reflexivity|apply IHl; lia]. Qed.
Lemma nth_replace_other {A} i j (x : A) l : i <> j -> nth_error (replace_at i x l) j = nth_error l j.
Proof. revert i j; induction l; intros [|i] [|j] H; cbn; try easy; apply IHl; lia. Qed.
Lemma In_replace {A} i (x y : A) l : In y (replace_at i x l) -> y = x \/ In y l.
Proof. revert i; induction l; intros [|i]; cbn; try tauto; intros [->|H]; auto; destruct (IHl _ H); auto. Qed.

Definition inv (K : klass -> Prop) (w : world V) : Prop :=
  cache_ok K (w_cache w) /\ Forall (fun o => K (i_cls o) /\ valid_inst o /\ complete_inst o) (w_objs w).

Lemma nth_Forall {A} (P : A -> Prop) l i o : Forall P l -> nth_error l i = Some o -> P o.
Proof. rewrite Forall_forall. intros H E. apply H. eapply nth_error_In; eauto. Qed.

Lemma set_valid (o : inst V) key v : valid_inst o -> accepted (i_cls o) key v ->
  valid_inst (mk_inst (i_cls o) (dict_set key v (i_attrs o))).
Proof.
  intros H A k2 v2. cbn. destruct (str_eqb k2 key) eqn:E.
  - apply str_eqb_eq in E; subst. rewrite dict_get_set_same. now intros [= <-].
  - rewrite dict_get_set_other by (apply str_eqb_neq in E; congruence). apply H.
Qed.
Lemma set_complete (o : inst V) key v : complete_inst o -> complete_inst (mk_inst (i_cls o) (dict_set key v (i_attrs o))).
Proof.
  intros H k2 D. cbn in *. destruct (str_eqb k2 key) eqn:E.
  - apply str_eqb_eq in E; subst. now rewrite dict_get_set_same.
  - rewrite dict_get_set_other by (apply str_eqb_neq in E; congruence). now apply H.
Qed.

Lemma act_inv K w a : unrelated K -> uses K [a] -> inv K w -> inv K (fst (act w a)).
Proof.
  intros U US [CO OB]. destruct a as [c vals|i key v]; cbn [act].
  - destruct (construct c vals) as [o|] eqn:E; [|now split]. split; [exact CO|]. cbn.
    apply Forall_app. split; [exact OB|]. constructor; [|constructor].
    destruct (construct_valid _ _ _ E) as [-> [H1 H2]]. split; [|now split]. apply (US c vals). now left.
  - destruct (nth_error (w_objs w) i) as [o|] eqn:E; [|now split].
    destruct (nth_Forall _ _ _ _ OB E) as [Ko [Vo Co]].
    destruct (use_ok K (i_cls o) (w_cache w) U Ko CO) as [G CO']. destruct (use_fields (i_cls o) (w_cache w)) as [fs k]. cbn [fst snd] in *.
    destruct (checked fs (i_cls o) key v) as [v'|] eqn:C; cbn; split; auto. cbn.
    rewrite Forall_forall in *. intros y I. apply In_replace in I. destruct I as [-> | I]; [|auto]. cbn.
    split; [exact Ko|]. split; [|now apply set_complete]. apply set_valid; [exact Vo|].
    rewrite (checked_ought fs (i_cls o) key v G) in C. eapply ought_accepted; eauto.
Qed.
Lemma play_inv (K : klass -> Prop) h : unrelated K -> uses K h -> inv K (play start h).
Proof.
  intros U US. unfold play. assert (I : inv K start) by (split; [easy|constructor]).
  revert I US. generalize (@start V). induction h as [|a h IH]; intros w I US; [exact I|].
  cbn. apply IH; [|intros c vals J; apply (US c vals); now right].
  apply act_inv; auto. intros c vals [J|[]]. apply (US c vals). now left.
Qed.

Lemma assign_ok (K : klass -> Prop) h i o key v : unrelated K -> uses K h ->
  nth_error (w_objs (play start h)) i = Some o ->
  let r := act (play start h) (Assign i key v) in
  match ought (i_cls o) key v with
  | Err e => snd r = Err e /\ w_objs (fst r) = w_objs (play start h)
  | Ok v' =>
      snd r = Ok tt /\
      (forall j, j <> i -> nth_error (w_objs (fst r)) j = nth_error (w_objs (play start h)) j) /\
      exists o', nth_error (w_objs (fst r)) i = Some o' /\ i_cls o' = i_cls o /\
        dict_get key (i_attrs o') = Some v' /\
        forall k2, k2 <> key -> dict_get k2 (i_attrs o') = dict_get k2 (i_attrs o)
  end.
Proof.
  intros U US E r. unfold r. clear r. destruct (play_inv K h U US) as [CO OB].
  destruct (nth_Forall _ _ _ _ OB E) as [Ko _]. cbn [act]. rewrite E.
  destruct (use_ok K (i_cls o) _ U Ko CO) as [G _]. destruct (use_fields (i_cls o) _) as [fs k]. cbn [fst] in G.
  rewrite (checked_ought fs (i_cls o) key v G). destruct (ought (i_cls o) key v) as [v'|e]; cbn; [|now split].
  split; [reflexivity|]. split; [intros j J; apply nth_replace_other; congruence|].
  eexists. split; [apply nth_replace; apply nth_error_Some; congruence|]. cbn.
  split; [reflexivity|]. split; [apply dict_get_set_same|]. intros k2 N. apply dict_get_set_other; congruence.
Qed.

Lemma act_rejected (w : world V) a e : snd (act w a) = Err e -> w_objs (fst (act w a)) = w_objs w.
Proof.
  destruct a as [c vals|i key v]; cbn.
  - now destruct (construct c vals).
  - destruct (nth_error (w_objs w) i) as [o|]; [|easy]. destruct (use_fields (i_cls o) (w_cache w)) as [fs k].
    now destruct (checked fs (i_cls o) key v).
Qed.

Lemma shadowed (b : klass) id own vb vc ob oc k0 v0 key v :
  let c := Klass id own (Some b) in
  id <> k_id b -> construct b vb = Ok ob -> construct c vc = Ok oc ->
  (exists k1, declared b k1 <> None) -> declared b key = None ->
  exists o', nth_error (w_objs (play start [New b vb; Assign 0 k0 v0; New c vc; Assign 1 key v])) 1 = Some o' /\
    i_cls o' = c /\ dict_get key (i_attrs o') = Some v.
Proof.
  intros c NI EB EC [k1 D1] DK. destruct (construct_valid _ _ _ EB) as [CB _]. destruct (construct_valid _ _ _ EC) as [CC _].
  assert (UF : use_fields b [] = (fields_dict b, [(k_id b, fields_dict b)])).
  { assert (F : find_fields b [] = None) by (clear; induction b using klass_rect'; cbn; auto).
    unfold use_fields. now rewrite F. }
  assert (UC : use_fields c [(k_id b, fields_dict b)] = (fields_dict b, [(k_id b, fields_dict b)])).
  { assert (F : find_fields c [(k_id b, fields_dict b)] = Some (fields_dict b)).
    { unfold c. cbn [find_fields]. assert (Q : cached V id [(k_id b, fields_dict b)] = None).
      { unfold cached. cbn. destruct (N.eqb_spec (k_id b) id); [congruence|reflexivity]. }
      rewrite Q. assert (Q2 : cached V (k_id b) [(k_id b, fields_dict b)] = Some (fields_dict b)).
      { unfold cached. cbn. now rewrite N.eqb_refl. }
      clear - Q2. destruct b as [i o p]. cbn [k_id] in Q2. cbn [find_fields]. cbn [k_id]. now rewrite Q2. }
    unfold use_fields. rewrite F. destruct (fields_dict b) eqn:FB; [|reflexivity].
    exfalso. apply D1. now rewrite <- get_fields, FB. }
  assert (CH : checked (fields_dict b) c key v = Ok v) by (unfold checked; now rewrite get_fields, DK).
  assert (S3 : exists ob', play start [New b vb; Assign 0 k0 v0; New c vc] = mk_world [(k_id b, fields_dict b)] [ob'; oc]).
  { unfold play. cbn [fold_left act start w_objs w_cache]. rewrite EB. cbn [fst app w_objs w_cache nth_error].
    rewrite CB, UF. destruct (checked (fields_dict b) b k0 v0); cbn [fst w_objs w_cache replace_at];
      rewrite EC; cbn [fst w_objs w_cache app]; eexists; reflexivity. }
  destruct S3 as [ob' S3].
  change [New b vb; Assign 0 k0 v0; New c vc; Assign 1 key v] with ([New b vb; Assign 0 k0 v0; New c vc] ++ [Assign 1 key v]).
  unfold play in *. rewrite fold_left_app, S3. cbn [fold_left act w_objs w_cache nth_error]. rewrite CC, UC, CH.
  cbn. eexists. split; [reflexivity|]. cbn. split; [reflexivity|apply dict_get_set_same].
Qed.
End Attr.
