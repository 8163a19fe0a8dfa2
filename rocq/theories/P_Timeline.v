(** * Proofs about timelines *)
From Verif Require Import M_Base P_Base M_Codec M_Cal P_Cal M_Time M_Span S_Span P_Span M_Event M_Cmp S_Cmp P_Cmp M_Heap P_Heap M_Timeline S_Timeline.
From Coq Require Import Lia ZifyBool ZifyNat ZifyN Permutation Sorted.
Ltac Zify.zify_post_hook ::= Z.div_mod_to_equations.
Open Scope Z_scope.

(** ** Normalisation keeps begin and end present *)
Lemma make_fields E k b e d p t : make E k b e d p = Ok t -> t = mk_ts k b e d p /\ validate E t = Ok tt.
Proof. unfold make. intros H. apply bind_ok in H as ([] & H1 & [= <-]). easy. Qed.
Lemma tl_span_shape E N t s : tl_span E N t = Ok s ->
  ts_kind s = ts_kind t /\ is_none (ts_begin s) = is_none (ts_begin t) /\ is_none (ts_end s) = is_none (ts_end t).
Proof.
  unfold tl_span. destruct N as [n|]; [|now intros [= <-]]. unfold normalize_span. destruct (nm_action n (is_floating t)); [now intros [= <-]| |].
  - unfold ts_replace_timezone. intros H. apply bind_ok in H as (_ & _ & H).
    destruct (ts_end t) as [e|] eqn:EE; unfold ts_replace in H; apply make_fields in H as [-> _]; cbn; rewrite ?EE; now destruct (ts_begin t).
  - unfold ts_convert_timezone. intros H. apply bind_ok in H as (_ & _ & H). apply bind_ok in H as (b & HB & H).
    assert (HN : is_none b = is_none (ts_begin t)).
    { destruct (ts_begin t); cbn [opt_res] in HB; [apply rmap_ok in HB as (x & _ & ->); easy|now injection HB as <-]. }
    destruct (ts_end t) as [e|] eqn:EE.
    + apply bind_ok in H as (e' & _ & H). unfold ts_replace in H; apply make_fields in H as [-> _]; cbn. easy.
    + unfold ts_replace in H; apply make_fields in H as [-> _]; cbn. now rewrite EE.
Qed.
Lemma event_truthy E x : event_ok E x -> ts_truthy (en_span x) = has_begin x.
Proof.
  intros [HK HV]. unfold ts_truthy, has_begin. destruct (ts_begin (en_span x)) as [b|] eqn:EB; [easy|].
  unfold validate in HV. rewrite HK, EB in HV. apply bind_ok in HV as ([] & _ & HV). destruct (ts_end (en_span x)); [discriminate|easy].
Qed.
Lemma truthy_shape E N t s : tl_span E N t = Ok s -> ts_truthy s = ts_truthy t.
Proof. intros H. apply tl_span_shape in H as (_ & H1 & H2). unfold ts_truthy. now rewrite H1, H2. Qed.

(** ** The items of the heap *)
Definition shown E N (x : entry) (s : timespan) : Prop := tl_span E N (en_span x) = Ok s.
Lemma tl_items_ok E N l spans : Forall2 (shown E N) l spans ->
  tl_items E N l = Ok (filter (fun p => ts_truthy (fst p)) (combine spans l)).
Proof.
  induction 1 as [|x s l spans H _ IH]; [easy|]. cbn [tl_items]. unfold shown in H. rewrite H. cbn [bind]. rewrite IH. cbn [bind combine filter fst]. now destruct (ts_truthy s).
Qed.
Lemma tl_items_none E l : tl_items E None l = Ok (map (fun x => (en_span x, x)) (filter (fun x => ts_truthy (en_span x)) l)).
Proof. induction l as [|x l IH]; [easy|]. cbn [tl_items tl_span bind]. rewrite IH. cbn [bind filter]. now destruct (ts_truthy (en_span x)). Qed.
Lemma tl_items_err E N l x : In x l -> (forall s, tl_span E N (en_span x) <> Ok s) -> exists e, tl_items E N l = Err e.
Proof.
  intros HI HE. induction l as [|y l IH]; [easy|]. cbn [tl_items]. destruct (tl_span E N (en_span y)) as [s|e] eqn:EY; [|now exists e]. cbn [bind].
  destruct HI as [->|HI]; [now apply HE in EY|]. destruct (IH HI) as (e & ->). now exists e.
Qed.

Lemma sort_key_fun E P t k l : sort_key E P t k -> sort_key E P t l -> k = l.
Proof. intros (e & HE & _ & _ & _ & _ & ->) (e' & HE' & _ & _ & _ & _ & ->). rewrite HE in HE'. now injection HE' as <-. Qed.
Lemma key_lt_dec_trans a b c : ~ key_lt b a -> ~ key_lt c b -> ~ key_lt c a.
Proof. unfold key_lt. lia. Qed.

Section Order.
Variable E : env.
Hypothesis GL : good_local E.
Variable P : datetime -> Prop.
Hypothesis HT : tame E P.
Definition keyed (p : item) : Prop :=
  (exists k, sort_key E P (fst p) k) /\ (exists k, sort_key E P (en_span (snd p)) k).
Definition item_le (p q : item) : Prop := not_after E P (fst p) (fst q).
Lemma item_le_trans x y z : keyed x -> keyed y -> keyed z -> item_le x y -> item_le y z -> item_le x z.
Proof.
  intros _ [[l KY] _] _ H1 H2 k m KX KZ. apply (key_lt_dec_trans k l m); [now apply H1|now apply H2].
Qed.
Lemma le_of_lex c s t k l : sort_key E P s k -> sort_key E P t l -> lex k l = c -> c <> Gt -> not_after E P s t.
Proof.
  intros HK HL HC HN k' l' HK' HL' HX. assert (k' = k) by now apply (sort_key_fun E P s). assert (l' = l) by now apply (sort_key_fun E P t). subst k' l'.
  apply lex_lt in HX. rewrite lex_antisym in HX. destruct (lex k l); cbn in *; congruence.
Qed.
Lemma le_of_lex' c s t k l : sort_key E P s k -> sort_key E P t l -> lex k l = c -> c <> Lt -> not_after E P t s.
Proof.
  intros HK HL HC HN. apply (le_of_lex (lex l k) t s l k); try easy. rewrite lex_antisym, HC. now destruct c.
Qed.
(** The comparison of items agrees with the keys, provided that items which compare
    equal have equal keys. *)
Definition eq_keys (p q : item) : Prop :=
  span_eqb E (fst p) (fst q) = true -> forall k l, sort_key E P (fst p) k -> sort_key E P (fst q) l -> k = l.
Lemma item_lt_le p q : keyed p -> keyed q -> eq_keys p q ->
  exists b, item_lt E p q = Ok b /\ if b then item_le p q else item_le q p.
Proof.
  intros [[k KP] [k' KP']] [[l KQ] [l' KQ']] HE. unfold item_lt. destruct (span_eqb E (fst p) (fst q)) eqn:ES; cbn [negb].
  - pose proof (HE ES k l KP KQ) as ->.
    assert (H1 : item_le p q). { apply (le_of_lex Eq _ _ l l); [easy|easy|now apply lex_eq|easy]. }
    assert (H2 : item_le q p). { apply (le_of_lex Eq _ _ l l); [easy|easy|now apply lex_eq|easy]. }
    destruct (entry_eqb E (snd p) (snd q)); cbn [negb]; [now exists false|].
    rewrite (entry_op_lex E GL P HT CLt _ _ k' l' KP' KQ'). eexists. split; [reflexivity|]. now destruct (op_of _ _).
  - rewrite (span_op_lex E GL P HT CLt _ _ k l KP KQ). eexists. split; [reflexivity|].
    destruct (lex k l) eqn:EL; cbn [op_of].
    + now apply (le_of_lex' Eq _ _ k l).
    + now apply (le_of_lex Lt _ _ k l).
    + now apply (le_of_lex' Gt _ _ k l).
Qed.
(** Without normalisation it is enough that entries which compare equal have equal keys. *)
Lemma plain_lt_le p q : fst p = en_span (snd p) -> fst q = en_span (snd q) -> keyed p -> keyed q ->
  (entry_eqb E (snd p) (snd q) = true -> forall k l, sort_key E P (fst p) k -> sort_key E P (fst q) l -> k = l) ->
  exists b, item_lt E p q = Ok b /\ if b then item_le p q else item_le q p.
Proof.
  intros FP FQ [[k KP] _] [[l KQ] _] HE. unfold item_lt, item_le.
  destruct (span_eqb E (fst p) (fst q)) eqn:ES; cbn [negb].
  - destruct (entry_eqb E (snd p) (snd q)) eqn:EE; cbn [negb].
    + pose proof (HE eq_refl k l KP KQ) as ->. exists false. split; [easy|]. apply (le_of_lex Eq _ _ l l); [easy|easy|now apply lex_eq|easy].
    + rewrite FP in KP. rewrite FQ in KQ. rewrite (entry_op_lex E GL P HT CLt _ _ k l KP KQ). eexists. split; [reflexivity|].
      rewrite FP, FQ. destruct (lex k l) eqn:EL; cbn [op_of].
      * destruct (str_cmp _ _); [now apply (le_of_lex' Eq _ _ k l)|now apply (le_of_lex Eq _ _ k l)|now apply (le_of_lex' Eq _ _ k l)].
      * now apply (le_of_lex Lt _ _ k l).
      * now apply (le_of_lex' Gt _ _ k l).
  - rewrite (span_op_lex E GL P HT CLt _ _ k l KP KQ). eexists. split; [reflexivity|].
    destruct (lex k l) eqn:EL; cbn [op_of].
    + now apply (le_of_lex' Eq _ _ k l).
    + now apply (le_of_lex Lt _ _ k l).
    + now apply (le_of_lex' Gt _ _ k l).
Qed.
(** Where clocks run evenly, equal spans have equal keys. *)
Lemma eqb_moment a b : P a -> P b -> convertible E a -> convertible E b -> dt_eqb E a b = true -> moment E a = moment E b.
Proof.
  intros PA PB [CA _] [CB _]. unfold dt_eqb. destruct (same_tz (dtz a) (dtz b)) eqn:ES.
  - intros H. assert (HZ : dtz a = dtz b).
    { unfold same_tz in ES. destruct (dtz a) as [[n|o|]|], (dtz b) as [[m|o'|]|]; try discriminate; try easy. apply N.eqb_eq in ES. now subst. }
    pose proof (ta_order _ _ HT a b PA PB HZ CA) as HO. assert (wall a = wall b) by lia. rewrite H0, Z.compare_refl in HO.
    symmetry in HO. now apply Z.compare_eq.
  - unfold moment, naive. destruct (dtz a), (dtz b); cbn [orb]; intros H; try discriminate. lia.
Qed.
Lemma even_keys p q : even E P -> eq_keys p q.
Proof.
  intros HV HS k l (e & HE & P1 & P2 & C1 & C2 & ->) (f & HF & P3 & P4 & C3 & C4 & ->).
  unfold span_eqb in HS. rewrite !andb_true_iff in HS. destruct HS as [[[[HK HB] HN] HD] HP].
  assert (KE : ts_kind (fst p) = ts_kind (fst q)) by (destruct (ts_kind (fst p)), (ts_kind (fst q)); easy).
  assert (PE : ts_prec (fst p) = ts_prec (fst q)).
  { destruct (ts_prec (fst p)), (ts_prec (fst q)); try discriminate; try easy. cbn in HP. apply N.eqb_eq in HP. now subst. }
  assert (DE : ts_dur (fst p) = ts_dur (fst q)).
  { destruct (ts_dur (fst p)), (ts_dur (fst q)); try discriminate; try easy. cbn in HD. f_equal. lia. }
  assert (MB : moment E (or1900 (ts_begin (fst p))) = moment E (or1900 (ts_begin (fst q)))).
  { destruct (ts_begin (fst p)), (ts_begin (fst q)); try discriminate; cbn [or1900] in *; [now apply eqb_moment|easy]. }
  assert (ME : moment E (or1900 e) = moment E (or1900 f)).
  { unfold eff_end in HE, HF. destruct (ts_end (fst p)) as [x|] eqn:EX, (ts_end (fst q)) as [y|] eqn:EY; try discriminate.
    - injection HE as <-. injection HF as <-. cbn [or1900 opt_dt_eqb] in *. now apply eqb_moment.
    - destruct (ts_begin (fst p)) as [b|] eqn:EB, (ts_begin (fst q)) as [c|] eqn:EC; try discriminate.
      2: { injection HE as <-. now injection HF as <-. }
      apply bind_ok in HE as (d & HE1 & HE2). apply bind_ok in HF as (d' & HF1 & HF2).
      assert (d = d').
      { unfold eff_duration in HE1, HF1. rewrite EX, DE, KE, PE in HE1. rewrite EY in HF1. congruence. }
      subst d'. destruct d as [d|].
      + apply rmap_ok in HE2 as (x & HX & ->). apply rmap_ok in HF2 as (y & HY & ->). cbn [or1900] in *.
        rewrite (HV _ _ _ P1 P2 HX), (HV _ _ _ P3 P4 HY). lia.
      + injection HE2 as <-. now injection HF2 as <-. }
  rewrite KE. destruct (ts_kind (fst q)); congruence.
Qed.

Lemma sorted_map (l : list item) : StronglySorted item_le l ->
  StronglySorted (not_after E P) (map fst l).
Proof. induction 1 as [|a l H IH HF]; constructor; [easy|]. apply Forall_map. easy. Qed.

Lemma Forall2_combine {A B} (R : A -> B -> Prop) l m : Forall2 R l m -> Forall (fun p => R (snd p) (fst p)) (combine m l).
Proof. induction 1; constructor; auto. Qed.
Lemma combine_filter N l spans : (forall x, In x l -> event_ok E x) -> Forall2 (shown E N) l spans ->
  map snd (filter (fun p => ts_truthy (fst p)) (combine spans l)) = filter has_begin l.
Proof.
  intros HO H. induction H as [|x s l spans H H' IH]; [easy|]. cbn [combine filter fst].
  rewrite (truthy_shape E N (en_span x) s H), (event_truthy E x) by (apply HO; now left).
  destruct (has_begin x); cbn [map snd]; rewrite IH; try easy; intros y HY; apply HO; now right.
Qed.
(** With normalisation. *)
Lemma iterator_norm N events spans : even E P -> (forall x, In x events -> event_ok E x) ->
  Forall2 (shown E N) events spans ->
  (forall s x, In (s, x) (combine spans events) -> has_begin x = true -> keyed (s, x)) ->
  exists r, tl_iterator E N events = (r, None) /\
    Permutation (map snd r) (filter has_begin events) /\ (forall s x, In (s, x) r -> shown E N x s) /\
    StronglySorted (not_after E P) (map fst r).
Proof.
  intros HV HO HS HK. unfold tl_iterator. rewrite (tl_items_ok E N events spans HS). cbn [gstart].
  set (items := filter _ _). 
  assert (HF : forall s x, In (s, x) items -> shown E N x s /\ keyed (s, x)).
  { intros s x HI. apply filter_In in HI as [HI HB]. cbn [fst] in HB.
    assert (SH : shown E N x s).
    { pose proof (Forall2_combine _ _ _ HS) as HA. rewrite Forall_forall in HA. apply (HA _ HI). }
    split; [easy|]. apply HK; [easy|]. rewrite <- (event_truthy E x).
    - now rewrite <- (truthy_shape E N (en_span x) s).
    - apply HO. apply in_combine_r in HI. easy. }
  destruct (heap_iter_ok (item_lt E) item_le keyed item_le_trans) with (items := items) as (r & H1 & H2 & H3).
  - intros p q KP KQ. apply item_lt_le; [easy|easy|]. now apply even_keys.
  - apply Forall_forall. intros [s x] HI. now apply HF.
  - exists r. split; [easy|]. split; [|split].
    + rewrite H2. unfold items. now rewrite (combine_filter N events spans).
    + intros s x HI. apply HF. now apply (Permutation_in _ H2).
    + now apply sorted_map.
Qed.
(** Without. *)
Lemma iterator_plain events : (forall x, In x events -> event_ok E x) ->
  (forall x, In x events -> has_begin x = true -> exists k, sort_key E P (en_span x) k) ->
  (forall x y k l, In x events -> In y events -> sort_key E P (en_span x) k -> sort_key E P (en_span y) l ->
     entry_eqb E x y = true -> k = l) ->
  exists r, tl_iterator E None events = (map (fun x => (en_span x, x)) r, None) /\
    Permutation r (filter has_begin events) /\ StronglySorted (fun x y => not_after E P (en_span x) (en_span y)) r.
Proof.
  intros HO HK HE. unfold tl_iterator. rewrite tl_items_none. cbn [gstart].
  assert (HFB : filter (fun x => ts_truthy (en_span x)) events = filter has_begin events).
  { apply filter_ext_in. intros x HI. apply (event_truthy E). now apply HO. }
  rewrite HFB. set (kept := filter has_begin events).
  set (D := fun p : item => fst p = en_span (snd p) /\ In (snd p) events /\ has_begin (snd p) = true).
  assert (DK : forall p, D p -> keyed p).
  { intros [s x] (H1 & H2 & H3). cbn [fst snd] in *. subst s. destruct (HK x H2 H3) as (k & Hk). split; now exists k. }
  destruct (heap_iter_ok (item_lt E) item_le D) with (items := map (fun x => (en_span x, x)) kept) as (r & H1 & H2 & H3).
  - intros x y z DX DY DZ. now apply item_le_trans; apply DK.
  - intros p q DP DQ. apply plain_lt_le; [apply DP|apply DQ|now apply DK|now apply DK|].
    intros HX k l KP KQ. destruct DP as (D1 & D2 & _), DQ as (D3 & D4 & _). rewrite D1 in KP. rewrite D3 in KQ. now apply (HE (snd p) (snd q)).
  - apply Forall_forall. intros p HI. apply in_map_iff in HI as (x & <- & HX). apply filter_In in HX as [HX1 HX2]. now split.
  - assert (HR : r = map (fun x => (en_span x, x)) (map snd r)).
    { rewrite map_map. transitivity (map (fun p : item => p) r); [now rewrite map_id|]. apply map_ext_in. intros [s x] HI. cbn [snd]. f_equal.
      apply (Permutation_in _ H2) in HI. apply in_map_iff in HI as (y & [= <- <-] & _). easy. }
    exists (map snd r). split; [rewrite H1; now rewrite <- HR|]. split.
    + rewrite H2, map_map. cbn [snd]. now rewrite map_id.
    + rewrite HR in H3. clear -H3. induction (map snd r) as [|x m IH]; [constructor|]. cbn [map] in H3. inversion H3 as [|? ? S1 S2]; subst.
      constructor; [now apply IH|]. rewrite Forall_map in S2. exact S2.
Qed.
End Order.

(** ** Queries *)
Lemma gfilter_picked {A} (Q : A -> Prop) p (r : list A) :
  (forall a, In a r -> exists b, p a = Ok b /\ (b = true <-> Q a)) ->
  exists l, gfilter p (r, None) = (l, None) /\ picked Q r l.
Proof.
  unfold gfilter. cbn [fst snd]. induction r as [|a r IH]; intros H; [exists []; split; [easy|constructor]|].
  destruct IH as (l & HL & PL); [intros x HX; apply H; now right|]. cbn [gfilter_list].
  destruct (H a (or_introl eq_refl)) as (b & -> & HQ). destruct b.
  - exists (a :: l). rewrite HL. split; [easy|]. constructor; [now apply HQ|easy].
  - exists l. split; [easy|]. constructor; [|easy]. intros HA. apply HQ in HA. discriminate.
Qed.
Lemma interval_fun E P s B N B' N' : interval E P s B N -> interval E P s B' N' -> B' = B /\ N' = N.
Proof.
  intros (b & e & (_ & HB & HE & _) & _ & _ & -> & ->) (b' & e' & (_ & HB' & HE' & _) & _ & _ & -> & ->).
  rewrite HB in HB'. rewrite HE in HE'. injection HB' as <-. injection HE' as <-. easy.
Qed.

Section Query.
Variable E : env.
Hypothesis GL : good_local E.
Variable P : datetime -> Prop.
Hypothesis HT : tame E P.
Variables (N : option normalization) (events : list entry) (r : list item).
Hypothesis HR : tl_iterator E N events = (r, None).
Hypothesis TD : timed E P r.

Lemma included_picked start stop q B' N' : tl_query E N start stop = Ok q -> interval E P q B' N' ->
  exists l, tl_included E N events start stop = (map snd l, None) /\
    picked (fun p => exists B M, interval E P (fst p) B M /\ B' <= B /\ M < N') r l.
Proof.
  intros HQ IQ. unfold tl_included. rewrite HQ, HR. cbn [gstart].
  destruct (gfilter_picked (fun p => exists B M, interval E P (fst p) B M /\ B' <= B /\ M < N')
    (fun p : item => is_included_in E (fst p) q) r) as (l & HL & PL).
  - intros p HP. destruct (TD p HP) as (_ & B & M & IP).
    destruct (predicates_exact E GL P HT _ _ _ _ _ _ IP IQ) as (_ & _ & _ & _ & ->). eexists. split; [reflexivity|]. split.
    + intros H. exists B, M. split; [easy|]. lia.
    + intros (B1 & M1 & I1 & H1). destruct (interval_fun _ _ _ _ _ _ _ IP I1) as [-> ->]. lia.
  - exists l. split; [exact (f_equal (gmap snd) HL)|exact PL].
Qed.
Lemma overlap_exact (p : item) B M q B' N' : validate E (fst p) = Ok tt -> interval E P (fst p) B M -> interval E P q B' N' -> B' < N' ->
  exists b, intersects E (fst p) q = Ok b /\ (b = true <-> shares B M B' N' \/ touches B M B' N').
Proof.
  intros HV IP IQ L. pose proof (valid_interval E P HT _ _ _ HV IP) as HL.
  destruct (predicates_exact E GL P HT _ _ _ _ _ _ IP IQ) as (_ & _ & -> & _ & _). eexists. split; [reflexivity|]. unfold shares, touches, inside. split.
  - intros H. destruct (Z.eq_dec B M) as [->|HN].
    + left. right. lia.
    + destruct (Z.eq_dec M B'); [right; lia|]. destruct (Z.eq_dec B N'); [right; lia|]. left. left. exists (Z.max B B'). lia.
  - intros [[(x & H1 & H2)|H]|H]; lia.
Qed.
Lemma overlapping_picked start stop q B' N' : tl_query E N start stop = Ok q -> interval E P q B' N' -> B' < N' ->
  exists l, tl_overlapping E N events start stop = (map snd l, None) /\
    picked (fun p => exists B M, interval E P (fst p) B M /\ (shares B M B' N' \/ touches B M B' N')) r l.
Proof.
  intros HQ IQ L. unfold tl_overlapping. rewrite HQ, HR. cbn [gstart].
  destruct (gfilter_picked (fun p => exists B M, interval E P (fst p) B M /\ (shares B M B' N' \/ touches B M B' N'))
    (fun p : item => intersects E (fst p) q) r) as (l & HL & PL).
  - intros p HP. destruct (TD p HP) as (HV & B & M & IP). destruct (overlap_exact p B M q B' N' HV IP IQ L) as (b & -> & HB).
    exists b. split; [easy|]. rewrite HB. split.
    + intros H. now exists B, M.
    + intros (B1 & M1 & I1 & H1). destruct (interval_fun _ _ _ _ _ _ _ IP I1) as [-> ->]. easy.
  - exists l. split; [exact (f_equal (gmap snd) HL)|exact PL].
Qed.
Lemma at_picked v d : tl_datetime E N v = Ok (Some d) -> convertible E d -> P d ->
  exists l, tl_at E N events v = (map snd l, None) /\
    picked (fun p => exists B M, interval E P (fst p) B M /\ inside (moment E d) B M) r l.
Proof.
  intros HQ CD PD. unfold tl_at. rewrite HQ, HR. cbn [gstart].
  destruct (gfilter_picked (fun p => exists B M, interval E P (fst p) B M /\ inside (moment E d) B M)
    (fun p : item => includes_dt E (fst p) d) r) as (l & HL & PL).
  - intros p HP. destruct (TD p HP) as (_ & B & M & IP). rewrite (includes_dt_exact E GL P HT _ _ _ _ IP CD PD).
    eexists. split; [reflexivity|]. unfold inside. split.
    + intros H. exists B, M. split; [easy|]. lia.
    + intros (B1 & M1 & I1 & H1). destruct (interval_fun _ _ _ _ _ _ _ IP I1) as [-> ->]. lia.
  - exists l. split; [exact (f_equal (gmap snd) HL)|exact PL].
Qed.
Lemma start_after_picked v d : tl_datetime E N v = Ok (Some d) -> convertible E d -> P d ->
  (forall p b, In p r -> ts_begin (fst p) = Some b -> naive b = naive d) ->
  exists l, tl_start_after E N events v = (map snd l, None) /\
    picked (fun p => exists b, ts_begin (fst p) = Some b /\ moment E d < moment E b) r l.
Proof.
  intros HQ CD PD HA. unfold tl_start_after. rewrite HQ, HR. cbn [gstart].
  destruct (gfilter_picked (fun p => exists b, ts_begin (fst p) = Some b /\ moment E d < moment E b)
    (fun p : item => match ts_begin (fst p), Some d with
    | Some b, Some d => dt_gt E b d | Some _, None => Err TypeError | None, _ => Ok false end) r) as (l & HL & PL).
  - intros p HP. destruct (TD p HP) as (_ & B & M & (b & e & (_ & HB & _ & CB & _) & PB & _)). rewrite HB.
    specialize (HA p b HP HB). unfold dt_gt, dt_lt, dt_cmp.
    assert (HC : (if same_tz (dtz d) (dtz b) then Ok (wall d ?= wall b)
      else if naive d || naive b then Err TypeError else Ok (instant E d ?= instant E b)) = Ok (moment E d ?= moment E b)).
    { destruct (same_tz (dtz d) (dtz b)) eqn:ES.
      - f_equal. apply (ta_order _ _ HT); [easy|easy| |apply CD].
        unfold same_tz in ES. destruct (dtz d) as [[n|o|]|], (dtz b) as [[m|o'|]|]; try discriminate; try easy. apply N.eqb_eq in ES. now subst.
      - unfold moment. unfold naive in *. destruct (dtz d), (dtz b); try discriminate. easy. }
    rewrite HC. cbn [rmap]. eexists. split; [reflexivity|]. split.
    + intros H. exists b. split; [easy|]. destruct (Z.compare_spec (moment E d) (moment E b)); try discriminate; lia.
    + intros (b' & [= <-] & H). destruct (Z.compare_spec (moment E d) (moment E b)); try easy; lia.
  - exists l. split; [exact (f_equal (gmap snd) HL)|exact PL].
Qed.
End Query.

(** ** The query of [on] *)
Lemma day_start_floor d : floor_midnight d = day_start d.
Proof. unfold floor_midnight, day_start. f_equal. rewrite US_DAY_val. lia. Qed.
Lemma day_end_pos d : wall (day_start d) < day_end_wall d.
Proof. unfold day_start, day_end_wall. cbn [wall]. rewrite US_DAY_val, US_SEC_val. destruct (_ <=? _); lia. Qed.
Lemma tl_day_value E N v d : ensure_datetime v = Ok (Some d) -> stored d ->
  tl_day E N v = if wall_ok (day_end_wall d)
    then tl_span E N (mk_ts KBase (Some (day_start d)) (Some (mk_dt (day_end_wall d) false (dtz d))) None PSecond)
    else Err OverflowError.
Proof.
  intros HV [HW HL]. unfold tl_day. rewrite HV. cbn [bind]. unfold dt_add at 1.
  pose proof US_DAY_val as HD. pose proof US_SEC_val as HSv.
  assert (HM : wall_ok (wall d + US_SEC) = false -> wall_ok (day_end_wall d) = false).
  { unfold wall_ok, day_end_wall in *. destruct (_ <=? US_DAY - _) eqn:EM; rewrite ?HD, ?HSv in *; lia. }
  destruct (wall_ok (wall d + US_SEC)) eqn:EW; [|rewrite HM by easy; reflexivity]. cbn [bind].
  rewrite (ceil_value E (mk_dt (wall d + US_SEC) false (dtz d))) by (now split). unfold dt_add, floor_midnight. cbn [wall dtz].
  assert (HX : (if (wall d + US_SEC) mod US_DAY =? 0 then Ok (mk_dt (wall d + US_SEC) false (dtz d))
     else if wall_ok (wall d + US_SEC - (wall d + US_SEC) mod US_DAY + US_DAY)
          then Ok (mk_dt (wall d + US_SEC - (wall d + US_SEC) mod US_DAY + US_DAY) false (dtz d)) else Err OverflowError) =
     if wall_ok (day_end_wall d) then Ok (mk_dt (day_end_wall d) false (dtz d)) else Err OverflowError).
  { clear HM. assert (HQ : day_end_wall d = if (wall d + US_SEC) mod US_DAY =? 0 then wall d + US_SEC else wall d + US_SEC - (wall d + US_SEC) mod US_DAY + US_DAY).
    { unfold day_end_wall. rewrite HD, HSv. destruct (Z.leb_spec (wall d mod 86400000000) (86400000000 - 1000000)), (Z.eqb_spec ((wall d + 1000000) mod 86400000000) 0); lia. }
    rewrite HQ. destruct (_ =? 0) eqn:E0; [now rewrite EW|reflexivity]. }
  rewrite HX. clear HX HM. destruct (wall_ok (day_end_wall d)) eqn:EE; [|reflexivity]. cbn [bind].
  unfold tl_query. cbn [ensure_datetime bind]. fold (floor_midnight d). rewrite day_start_floor.
  assert (MK : make E KBase (Some (day_start d)) (Some (mk_dt (day_end_wall d) false (dtz d))) None PSecond =
    Ok (mk_ts KBase (Some (day_start d)) (Some (mk_dt (day_end_wall d) false (dtz d))) None PSecond)).
  { pose proof (day_end_pos d) as HP.
    assert (OZ : one_zone (day_start d) (mk_dt (day_end_wall d) false (dtz d))) by (split; [reflexivity|exact HL]).
    assert (OZ' : one_zone (mk_dt (day_end_wall d) false (dtz d)) (day_start d)) by (split; [reflexivity|exact HL]).
    unfold make, validate, validate_base. cbn [ts_begin ts_end ts_dur ts_prec ts_kind is_day].
    unfold validate_precision. cbn [ts_prec is_day bind]. unfold dt_gt, dt_lt. rewrite (dt_cmp_one E _ _ OZ'). cbn [rmap bind wall].
    assert (HC : (day_end_wall d ?= wall (day_start d)) = Gt) by (apply Z.compare_gt_iff; lia). rewrite HC.
    cbn [guard bind is_none negb]. unfold naive. cbn [dtz day_start].
    replace (guard _ ValueError) with (Ok tt) by (destruct (dtz d); reflexivity). cbn [bind].
    replace (guard _ ValueError) with (Ok tt) by (destruct (dtz d); reflexivity). cbn [bind].
    unfold eff_duration. cbn [ts_dur ts_end ts_begin]. rewrite (dt_sub_one E _ _ OZ'). cbn [rmap bind wall].
    destruct (_ =? 0); [reflexivity|]. cbn [td_cache bind].
    assert (HZ : (day_end_wall d - wall (day_start d)) mod US_SEC = 0).
    { unfold day_end_wall, day_start. cbn [wall]. rewrite HD, HSv. destruct (_ <=? _); lia. }
    rewrite HZ. reflexivity. }
  rewrite MK. reflexivity.
Qed.

Section On.
Variable E : env.
Hypothesis GL : good_local E.
Variable P : datetime -> Prop.
Hypothesis HT : tame E P.
Variables (events : list entry) (r : list item) (v : val) (d : datetime).
Hypothesis HR : tl_iterator E None events = (r, None).
Hypothesis TD : timed E P r.
Hypothesis HV : ensure_datetime v = Ok (Some d).
Hypothesis SD : stored d.
Hypothesis DS : convertible E (day_start d) /\ P (day_start d).
Hypothesis DE : convertible E (next_day d) /\ P (next_day d).

Lemma day_interval e : convertible E e -> P e ->
  interval E P (mk_ts KBase (Some (day_start d)) (Some e) None PSecond) (moment E (day_start d)) (moment E e).
Proof. intros CE PE. exists (day_start d), e. split; [|easy]. split; [discriminate|]. split; [easy|]. split; [easy|]. now split. Qed.
Lemma day_moments e : P e -> dtz e = dtz d -> wall (day_start d) < wall e -> moment E (day_start d) < moment E e.
Proof.
  intros PE HZ HW. pose proof (ta_order _ _ HT (day_start d) e (proj2 DS) PE (eq_sym HZ) (proj2 SD)) as HO.
  unfold Z.lt in *. rewrite <- HO. exact HW.
Qed.
Lemma next_day_val : wall d mod US_DAY <= US_DAY - US_SEC -> mk_dt (day_end_wall d) false (dtz d) = next_day d.
Proof. intros H. unfold day_end_wall, next_day. destruct (Z.leb_spec (wall d mod US_DAY) (US_DAY - US_SEC)); [reflexivity|lia]. Qed.
Lemma on_strict : wall d mod US_DAY <= US_DAY - US_SEC -> wall_ok (wall (next_day d)) = true ->
  exists l, tl_on E None events v true = Ok (map snd l, None) /\
    picked (fun p => exists B M, interval E P (fst p) B M /\ moment E (day_start d) <= B /\ M < moment E (next_day d)) r l.
Proof.
  intros HM HN. unfold tl_on. rewrite (tl_day_value E None v d HV SD). pose proof (next_day_val HM) as NV.
  assert (WE : day_end_wall d = wall (next_day d)) by (rewrite <- NV; reflexivity). rewrite WE, HN, <- WE, NV. cbn [tl_span bind].
  destruct (included_picked E GL P HT None events r HR TD (VSpan (mk_ts KBase (Some (day_start d)) (Some (next_day d)) None PSecond)) VNone _
    _ _ eq_refl (day_interval (next_day d) (proj1 DE) (proj2 DE))) as (l & HL & PL).
  exists l. split; [now rewrite HL|easy].
Qed.
Lemma on_overlap : wall d mod US_DAY <= US_DAY - US_SEC -> wall_ok (wall (next_day d)) = true ->
  exists l, tl_on E None events v false = Ok (map snd l, None) /\
    picked (fun p => exists B M, interval E P (fst p) B M /\
      (shares B M (moment E (day_start d)) (moment E (next_day d)) \/ touches B M (moment E (day_start d)) (moment E (next_day d)))) r l.
Proof.
  intros HM HN. unfold tl_on. rewrite (tl_day_value E None v d HV SD). pose proof (next_day_val HM) as NV.
  assert (WE : day_end_wall d = wall (next_day d)) by (rewrite <- NV; reflexivity). rewrite WE, HN, <- WE, NV. cbn [tl_span bind].
  destruct (overlapping_picked E GL P HT None events r HR TD (VSpan (mk_ts KBase (Some (day_start d)) (Some (next_day d)) None PSecond)) VNone _
    _ _ eq_refl (day_interval (next_day d) (proj1 DE) (proj2 DE))) as (l & HL & PL).
  - apply day_moments; [easy|reflexivity|]. rewrite <- NV. apply day_end_pos.
  - exists l. split; [now rewrite HL|easy].
Qed.
Lemma picked_in {A} (Q : A -> Prop) r0 l p : picked Q r0 l -> (In p l <-> In p r0 /\ Q p).
Proof.
  induction 1 as [|a r1 l HQ _ IH|a r1 l HQ _ IH]; cbn.
  - tauto.
  - rewrite IH. split; [intros [->|[H1 H2]]; auto|intros [[->|H1] H2]; auto].
  - rewrite IH. split; [intros [H1 H2]; auto|intros [[->|H1] H2]; auto]. contradiction.
Qed.
(** Also in the last second of the day nothing is missed. *)
Lemma on_complete : let after := mk_dt (day_end_wall d) false (dtz d) in
  wall_ok (day_end_wall d) = true -> convertible E after -> P after ->
  exists l, tl_on E None events v false = Ok (map snd l, None) /\
    (forall p, In p l -> In p r) /\
    forall p B M, In p r -> interval E P (fst p) B M ->
      shares B M (moment E (day_start d)) (moment E (next_day d)) -> In p l.
Proof.
  intros after HW CA PA. unfold tl_on. rewrite (tl_day_value E None v d HV SD), HW. cbn [tl_span bind]. fold after.
  destruct (overlapping_picked E GL P HT None events r HR TD (VSpan (mk_ts KBase (Some (day_start d)) (Some after) None PSecond)) VNone _
    _ _ eq_refl (day_interval after CA PA)) as (l & HL & PL).
  - apply day_moments; [easy|reflexivity|]. apply day_end_pos.
  - exists l. split; [now rewrite HL|]. split; [intros p HP; now apply (picked_in _ _ _ _ PL) in HP|].
    intros p B M HI IP HSH. apply (picked_in _ _ _ _ PL). split; [easy|]. exists B, M. split; [easy|]. left.
    assert (LE : moment E (next_day d) <= moment E after).
    { pose proof (ta_order _ _ HT (next_day d) after (proj2 DE) PA eq_refl (proj2 SD)) as HO. unfold Z.le. rewrite <- HO.
      change (wall (next_day d) <= wall after). unfold next_day, after, day_end_wall. cbn [wall]. rewrite US_DAY_val. destruct (_ <=? _); lia. }
    unfold shares, inside in *. destruct HSH as [(x & H1 & H2)|[H1 H2]]; [left; exists x; lia|right; lia].
Qed.
End On.

Lemma iter_plain E P events : good_local E -> tame E P ->
  (forall x, In x events -> event_ok E x) ->
  (forall x, In x events -> has_begin x = true -> exists k, sort_key E P (en_span x) k) ->
  (forall x y k l, In x events -> In y events -> sort_key E P (en_span x) k -> sort_key E P (en_span y) l ->
     entry_eqb E x y = true -> k = l) ->
  exists r, tl_iter E None events = (r, None) /\
    Permutation r (filter has_begin events) /\
    StronglySorted (fun x y => not_after E P (en_span x) (en_span y)) r.
Proof.
  intros GL HT HO HK HE. destruct (iterator_plain E GL P HT events HO HK HE) as (r & H1 & H2 & H3).
  exists r. split; [|easy]. unfold tl_iter. rewrite H1. unfold gmap. cbn [fst snd]. rewrite map_map. cbn [snd]. now rewrite map_id.
Qed.
Lemma not_after_iff E P s t k l : sort_key E P s k -> sort_key E P t l ->
  (not_after E P s t <-> fst k < fst l \/ fst k = fst l /\ snd k <= snd l).
Proof.
  intros KS KT. split.
  - intros H. specialize (H k l KS KT). unfold key_lt in H. lia.
  - intros H k' l' KS' KT'. assert (k' = k) by now apply (sort_key_fun E P s). assert (l' = l) by now apply (sort_key_fun E P t).
    subst. unfold key_lt. lia.
Qed.
Lemma entry_rest E x y : entry_eqb E x y = true -> en_rest x = en_rest y.
Proof. unfold entry_eqb. rewrite !andb_true_iff. intros [_ H]. now apply N.eqb_eq. Qed.
Lemma iter_all_day E n events x : In x events -> is_all_day (en_span x) = true ->
  is_floating (en_span x) = true -> nm_floating n <> AIgnore ->
  exists e, tl_iter E (Some n) events = ([], Some e).
Proof.
  intros HI HA HF HN. destruct (tl_items_err E (Some n) events x HI) as (e & He).
  - intros s. unfold tl_span, normalize_span, nm_action. rewrite HF. destruct (nm_floating n); [easy| |].
    + unfold ts_replace_timezone. rewrite HA. discriminate.
    + unfold ts_convert_timezone. rewrite HA. discriminate.
  - exists e. unfold tl_iter, tl_iterator. rewrite He. reflexivity.
Qed.
Lemma query_range E N start stop b e q : ensure_datetime start = Ok b -> ensure_datetime stop = Ok e ->
  make E KBase b e None PSecond = Ok q ->
  tl_query E N start stop = tl_query E N (VSpan q) VNone /\ (stop <> VNone -> tl_query E N (VSpan q) stop = Err ValueError).
Proof.
  intros HB HE HM. split.
  - unfold tl_query. destruct start; try discriminate; rewrite HB; cbn [bind]; rewrite HE; cbn [bind]; rewrite HM; reflexivity.
  - intros HN. unfold tl_query. now destruct stop.
Qed.
Lemma picked_fun {A} (Q : A -> Prop) r l l' : picked Q r l -> picked Q r l' -> l = l'.
Proof.
  intros H. revert l'. induction H as [|a r l HQ _ IH|a r l HQ _ IH]; intros l' H'; inversion H'; subst; try contradiction; [easy| |]; [f_equal|]; now apply IH.
Qed.
Lemma start_after_mixed E events v d p r b :
  tl_iterator E None events = (p :: r, None) -> ensure_datetime v = Ok (Some d) ->
  ts_begin (fst p) = Some b -> naive b <> naive d ->
  tl_start_after E None events v = ([], Some TypeError).
Proof.
  intros HR HV HB HN. unfold tl_start_after, tl_datetime. rewrite HV. cbn [bind gstart]. rewrite HR.
  unfold gfilter. cbn [fst snd gfilter_list]. rewrite HB. unfold dt_gt, dt_lt, dt_cmp.
  assert (HS : same_tz (dtz d) (dtz b) = false) by (unfold naive in HN; destruct (dtz d) as [[]|], (dtz b) as [[]|]; try easy; now destruct HN).
  rewrite HS. replace (naive d || naive b) with true by (destruct (naive d), (naive b); easy). reflexivity.
Qed.
Lemma open_query E P events v d p r : good_local E -> tame E P ->
  tl_iterator E None events = (p :: r, None) -> timed E P (p :: r) ->
  ensure_datetime v = Ok (Some d) -> convertible E d ->
  tl_included E None events v VNone = ([], Some ValueError) /\ tl_overlapping E None events v VNone = ([], Some ValueError).
Proof.
  intros GL HT HR TD HV CD. destruct (TD p (or_introl eq_refl)) as (_ & B & M & (b & e & HRn & _)).
  destruct (tuple_runs E GL _ _ _ HRn) as (b' & e' & TS & _).
  destruct (norm_ok E GL d CD) as (d' & ND & _).
  set (q := mk_ts KBase (Some d) None None PSecond).
  assert (HQ : tl_query E None v VNone = Ok q).
  { unfold tl_query. destruct v; try discriminate; rewrite HV; reflexivity. }
  assert (TQ : span_tuple E None q = Ok (mk_tup true (Some d') None)).
  { unfold span_tuple. cbn [q ts_begin or_default opt_res]. rewrite ND. reflexivity. }
  unfold tl_included, tl_overlapping. rewrite HQ. cbn [gstart]. rewrite HR. unfold gfilter. cbn [fst snd gfilter_list].
  unfold is_included_in, intersects, two. rewrite TS. cbn [bind]. rewrite TQ. split; reflexivity.
Qed.
Lemma today_on E N events w strict : tl_today E N events w strict = tl_on E N events (VDt (mk_dt w false None)) strict.
Proof. reflexivity. Qed.
Lemma on_last_day E N events v d strict : ensure_datetime v = Ok (Some d) -> stored d ->
  wall_ok (wall (next_day d)) = false -> tl_on E N events v strict = Err OverflowError.
Proof.
  intros HV SD HW. unfold tl_on. rewrite (tl_day_value E N v d HV SD).
  assert (HE : wall_ok (day_end_wall d) = false).
  { destruct SD as [HD _]. unfold day_end_wall, next_day in *. cbn [wall] in HW. unfold wall_ok in *. rewrite US_DAY_val in *. destruct (_ <=? _ - _); lia. }
  rewrite HE. reflexivity.
Qed.

Lemma tame_sub E (P Q : datetime -> Prop) : (forall d, Q d -> P d) -> tame E P -> tame E Q.
Proof. intros H [H1 H2]. split; intros; [apply H1|apply H2]; auto. Qed.
Lemma late_tame : tame env_ex ex_late.
Proof. apply (tame_sub _ ex_tame); [|exact tame_ex]. intros d [H1 H2]. split; [easy|now right]. Qed.
Lemma late_off n w f w' f' : ref + 3 * hour <= w -> ref + 3 * hour <= w' -> env_off env_ex n w f = env_off env_ex n w' f'.
Proof.
  intros H H'. destruct (N.eq_dec n 1) as [->|Hn]; [|now apply env_ex_offn]. rewrite !off1_tame by now right.
  rewrite hour_val in *. destruct (Z.ltb_spec w (ref + 2 * 3600000000)), (Z.ltb_spec w' (ref + 2 * 3600000000)); try easy; lia.
Qed.
Lemma late_even : even env_ex ex_late.
Proof.
  intros a d a' [LA WA] [LA' WA'] H. unfold dt_add in H. destruct (wall_ok (wall a + d)); [|discriminate]. injection H as <-.
  cbn [wall dtz] in *. unfold moment, instant, utcoffset. cbn [wall fold dtz]. destruct (dtz a) as [[n|o|]|]; [| |easy|].
  - cbn [tz_off]. rewrite (late_off n (wall a + d) false (wall a) (fold a)) by easy. lia.
  - cbn [tz_off]. lia.
  - rewrite !env_ex_local. rewrite (late_off 1 (wall a + d) false (wall a) (fold a)) by easy. lia.
Qed.
