(** * Proofs about interval predicates and ordering *)
From Verif Require Import M_Base P_Base M_Codec M_Cal M_Time M_Span S_Span P_Span M_Cmp S_Cmp.
From Coq Require Import Lia ZifyBool ZifyNat ZifyN.
Open Scope Z_scope.

Section S.
Variable E : env.
Hypothesis GL : good_local E.

Definition nz (d d' : datetime) : Prop :=
  instant E d' = moment E d /\ naive d' = false /\
  match dtz d with None => dtz d' = Some TzLocal | Some z => d' = d end.
Lemma norm_ok d : convertible E d -> exists d', normalize_dt E CMP_NORM d = Ok d' /\ nz d d'.
Proof.
  intros [HL HN]. unfold normalize_dt, nm_action, naive, nz. destruct (dtz d) as [z|] eqn:Ez.
  - exists d. unfold moment, naive. rewrite Ez. easy.
  - destruct (HN eq_refl) as [W1 W2]. unfold moment in *. rewrite Ez in *. cbn [CMP_NORM nm_floating nm_repl].
    unfold dt_astimezone, naive, utcoffset. rewrite Ez. cbn [negb andb]. rewrite W1. cbn [tz_fromutc].
    pose proof (GL (wall d - env_local_off E (wall d) (fold d))) as HG.
    destruct (env_tzl_fromutc E _) as [w f]. cbn [fst] in W2. rewrite W2. eexists. split; [reflexivity|].
    unfold instant, utcoffset. cbn. easy.
Qed.

(** How two normalised values compare. *)
Definition order (a b : datetime) : comparison :=
  match dtz a, dtz b with
  | Some (TzObj n), Some (TzObj m) => if N.eqb n m then wall a ?= wall b else moment E a ?= moment E b
  | _, _ => moment E a ?= moment E b
  end.
Lemma cmp_norm a b a' b' : nz a a' -> nz b b' -> dt_cmp E a' b' = Ok (order a b).
Proof.
  intros (A1 & A2 & A3) (B1 & B2 & B3). unfold dt_cmp, order. rewrite A2, B2, A1, B1. cbn [orb].
  destruct (dtz a) as [za|] eqn:Ea.
  - subst a'. rewrite Ea. destruct (dtz b) as [zb|] eqn:Eb.
    + subst b'. rewrite Eb. destruct za, zb; cbn [same_tz]; try easy. now destruct (N.eqb n n0).
    + rewrite B3. now destruct za.
  - rewrite A3. cbn. reflexivity.
Qed.
Lemma order_sym a b : order b a = CompOpp (order a b).
Proof.
  unfold order. destruct (dtz a) as [[n|o|]|], (dtz b) as [[m|o'|]|]; try apply Z.compare_antisym.
  rewrite (N.eqb_sym m n). destruct (N.eqb n m); apply Z.compare_antisym.
Qed.
Lemma order_tame P a b : tame E P -> P a -> P b -> order a b = (moment E a ?= moment E b).
Proof.
  intros HT HA HB. unfold order. destruct (dtz a) as [[n|o|]|] eqn:Ea, (dtz b) as [[m|o'|]|] eqn:Eb; try easy.
  destruct (N.eqb_spec n m) as [->|]; [|easy]. apply (ta_order _ _ HT); congruence.
Qed.
Lemma eqb_norm P a b a' b' : tame E P -> P a -> P b -> convertible E a -> convertible E b ->
  normalize_dt E CMP_NORM a = Ok a' -> normalize_dt E CMP_NORM b = Ok b' -> dt_eqb E a' b' = (moment E a =? moment E b).
Proof.
  intros HT PA PB CA CB NA NB. pose proof (order_tame P a b HT PA PB) as HO. unfold order in HO.
  assert (HA : nz a a') by (destruct (norm_ok a CA) as (x & X1 & X2); congruence).
  assert (HB : nz b b') by (destruct (norm_ok b CB) as (x & X1 & X2); congruence).
  assert (FM : forall d d', P d -> nz d d' -> normalize_dt E CMP_NORM d = Ok d' -> fold_matters E d' = false).
  { intros d d' PD (D1 & D2 & D3) ND. pose proof (ta_fold _ _ HT d PD) as HU. unfold fold_matters, unambiguous in *.
    destruct (dtz d) as [z|] eqn:Ed.
    - subst d'. rewrite Ed. apply negb_false_iff, Z.eqb_eq. congruence.
    - rewrite D3. unfold normalize_dt, nm_action, naive in ND. rewrite Ed in ND. cbn [CMP_NORM nm_floating nm_repl] in ND.
      unfold dt_astimezone, naive, utcoffset in ND. rewrite Ed in ND. cbn [negb andb] in ND. unfold moment in HU. rewrite Ed in HU.
      destruct (wall_ok _); [|discriminate]. cbn [tz_fromutc] in ND.
      destruct (env_tzl_fromutc E _) as [w f]. destruct (wall_ok w); [|discriminate]. injection ND as <-. cbn [tz_off wall fold].
      rewrite HU, Z.eqb_refl. reflexivity. }
  unfold dt_eqb. rewrite (FM a a' PA HA NA), (FM b b' PB HB NB). destruct HA as (A1 & A2 & A3), HB as (B1 & B2 & B3).
  rewrite A1, A2, B1, B2. cbn [orb negb]. rewrite !andb_true_r.
  destruct (same_tz (dtz a') (dtz b')) eqn:ES; [|easy].
  destruct (dtz a) as [za|] eqn:Ea; [|rewrite A3 in ES; destruct (dtz b') as [[| |]|]; discriminate].
  destruct (dtz b) as [zb|] eqn:Eb; [|rewrite B3 in ES; destruct (dtz a') as [[| |]|]; discriminate].
  subst a' b'. rewrite Ea, Eb in *. destruct za, zb; try discriminate. cbn in ES. rewrite ES in HO.
  destruct (Z.eqb_spec (wall a) (wall b)) as [H|H], (Z.eqb_spec (moment E a) (moment E b)) as [H'|H']; try easy.
  - rewrite H, Z.compare_refl in HO. symmetry in HO. now apply Z.compare_eq in HO.
  - rewrite H', Z.compare_refl in HO. now apply Z.compare_eq in HO.
Qed.
Lemma steady_tame P : steady E -> tame E P.
Proof.
  intros HS. split.
  - intros a b _ _ Hz Hl. unfold moment, instant, utcoffset. rewrite <- Hz. destruct (dtz a) as [[n|o|]|]; cbn [tz_off].
    + rewrite (st_zone E HS n (wall a)), (st_zone E HS n (wall b)). symmetry. apply compare_shift.
    + symmetry. apply compare_shift.
    + congruence.
    + rewrite (st_local E HS (wall a)), (st_local E HS (wall b)). symmetry. apply compare_shift.
  - intros a _. unfold unambiguous. destruct (dtz a) as [[n|o|]|]; cbn [tz_off].
    + now rewrite (st_zone E HS n _ (fold a)), (st_zone E HS n _ (negb (fold a))).
    + easy.
    + now rewrite (st_tzl E HS _ (fold a)), (st_tzl E HS _ (negb (fold a))).
    + destruct (env_tzl_fromutc E _) as [w f]. now rewrite (st_tzl E HS _ f), (st_tzl E HS _ (negb f)).
Qed.

(** ** Tuples *)
Lemma tuple_runs t b e : runs E t b e -> exists b' e', span_tuple E None t = Ok (mk_tup true (Some b') (Some e')) /\ nz b b' /\ nz e e'.
Proof.
  intros (HK & HB & HE & CB & CE). destruct (norm_ok b CB) as (b' & N1 & N2). destruct (norm_ok e CE) as (e' & N3 & N4).
  exists b', e'. split; [|easy]. unfold span_tuple. rewrite HB, HE. cbn [or_default opt_res bind]. rewrite N1, N3. cbn.
  destruct (ts_kind t); easy.
Qed.
Definition ole (a b : datetime) : bool := match order a b with Gt => false | _ => true end.
Definition olt (a b : datetime) : bool := match order a b with Lt => true | _ => false end.
Lemma le_norm a b a' b' : nz a a' -> nz b b' -> dt_le E a' b' = Ok (ole a b).
Proof. intros HA HB. unfold dt_le. now rewrite (cmp_norm a b). Qed.
Lemma lt_norm a b a' b' : nz a a' -> nz b b' -> dt_lt E a' b' = Ok (olt a b).
Proof. intros HA HB. unfold dt_lt. now rewrite (cmp_norm a b). Qed.
Lemma within_norm a b c a' b' c' : nz a a' -> nz b b' -> nz c c' ->
  within E (Ok a') (Ok b') (Ok c') = Ok (ole a b && olt b c).
Proof.
  intros HA HB HC. unfold within. cbn [bind]. rewrite (le_norm a b) by easy. cbn [bind].
  destruct (ole a b); [|easy]. now apply lt_norm.
Qed.

Lemma pred_values s b e o c f : runs E s b e -> runs E o c f ->
  starts_within E s o = Ok (ole c b && olt b f) /\
  ends_within E s o = Ok (ole c e && olt e f) /\
  intersects E s o = Ok (ole c b && olt b f || (ole c e && olt e f || (ole b c && olt c e || ole b f && olt f e))) /\
  includes E s o = Ok (ole b c && olt f e) /\
  is_included_in E s o = Ok (ole c b && olt e f).
Proof.
  intros HS HO. destruct (tuple_runs _ _ _ HS) as (b' & e' & TS & NB & NE). destruct (tuple_runs _ _ _ HO) as (c' & f' & TO & NC & NF).
  unfold starts_within, ends_within, intersects, includes, is_included_in, two. rewrite TS, TO. cbn [bind].
  unfold require, t_begin, t_end. cbn [tp_named tp_1 tp_2 is_none andb orb guard bind].
  rewrite !(within_norm c b f c' b' f') by easy. rewrite !(within_norm c e f c' e' f') by easy. rewrite !(within_norm b c e b' c' e') by easy.
  rewrite !(within_norm b f e b' f' e') by easy. unfold le_res, lt_res. cbn [bind].
  rewrite !(le_norm b c b' c'), !(le_norm c b c' b'), !(lt_norm e f e' f'), !(lt_norm f e f' e') by easy.
  unfold or_res, and_res. cbn [bind].
  repeat split.
  - destruct (ole c b && olt b f), (ole c e && olt e f), (ole b c && olt c e); reflexivity.
  - destruct (ole b c); reflexivity.
  - destruct (ole c b); reflexivity.
Qed.
Lemma intersects_symm s b e o c f : runs E s b e -> runs E o c f -> intersects E s o = intersects E o s.
Proof.
  intros HS HO. destruct (pred_values _ _ _ _ _ _ HS HO) as (_ & _ & -> & _). destruct (pred_values _ _ _ _ _ _ HO HS) as (_ & _ & -> & _).
  f_equal. destruct (ole c b && olt b f), (ole c e && olt e f), (ole b c && olt c e), (ole b f && olt f e); reflexivity.
Qed.
Lemma included_converse s b e o c f : runs E s b e -> runs E o c f -> is_included_in E s o = includes E o s.
Proof.
  intros HS HO. destruct (pred_values _ _ _ _ _ _ HS HO) as (_ & _ & _ & _ & ->). now destruct (pred_values _ _ _ _ _ _ HO HS) as (_ & _ & _ & -> & _).
Qed.

Section Tame.
Variable P : datetime -> Prop.
Hypothesis HS : tame E P.
Lemma ole_z a b : P a -> P b -> ole a b = (moment E a <=? moment E b).
Proof. intros HA HB. unfold ole. rewrite (order_tame P a b) by easy. unfold Z.leb. now destruct (_ ?= _). Qed.
Lemma olt_z a b : P a -> P b -> olt a b = (moment E a <? moment E b).
Proof. intros HA HB. unfold olt. rewrite (order_tame P a b) by easy. reflexivity. Qed.

Lemma predicates_exact s B N o B' N' : interval E P s B N -> interval E P o B' N' ->
  starts_within E s o = Ok ((B' <=? B) && (B <? N')) /\
  ends_within E s o = Ok ((B' <=? N) && (N <? N')) /\
  intersects E s o = Ok ((B' <=? B) && (B <? N') || (B' <=? N) && (N <? N') || (B <=? B') && (B' <? N) || (B <=? N') && (N' <? N)) /\
  includes E s o = Ok ((B <=? B') && (N' <? N)) /\
  is_included_in E s o = Ok ((B' <=? B) && (N <? N')).
Proof.
  intros (b & e & HR & PB & PE & -> & ->) (c & f & HR' & PC & PF & -> & ->). destruct (pred_values _ _ _ _ _ _ HR HR') as (P1 & P2 & P3 & P4 & P5).
  rewrite P1, P2, P3, P4, P5, !ole_z, !olt_z, !orb_assoc by easy. repeat split.
Qed.
Lemma includes_dt_exact s B N d : interval E P s B N -> convertible E d -> P d ->
  includes_dt E s d = Ok ((B <=? moment E d) && (moment E d <? N)).
Proof.
  intros (b & e & HR & PB & PE & -> & ->) HD PD. destruct (tuple_runs _ _ _ HR) as (b' & e' & TS & NB & NE).
  destruct (norm_ok d HD) as (d' & N1 & N2). unfold includes_dt. rewrite TS. cbn [bind]. rewrite N1. cbn [bind tp_1 tp_2 is_none orb guard].
  unfold t_begin, t_end. cbn [tp_named tp_1 tp_2]. rewrite (within_norm b d e) by easy. now rewrite ole_z, olt_z.
Qed.
Lemma includes_trans s o r B N B' N' B'' N'' : interval E P s B N -> interval E P o B' N' -> interval E P r B'' N'' ->
  includes E s o = Ok true -> includes E o r = Ok true -> includes E s r = Ok true.
Proof.
  intros H1 H2 H3 I1 I2. destruct (predicates_exact _ _ _ _ _ _ H1 H2) as (_ & _ & _ & Q1 & _).
  destruct (predicates_exact _ _ _ _ _ _ H2 H3) as (_ & _ & _ & Q2 & _). destruct (predicates_exact _ _ _ _ _ _ H1 H3) as (_ & _ & _ & -> & _).
  rewrite Q1 in I1. rewrite Q2 in I2. injection I1 as I1. injection I2 as I2. f_equal. lia.
Qed.
(** A valid span ends no earlier than it begins. *)
Lemma valid_interval t B N : validate E t = Ok tt -> interval E P t B N -> B <= N.
Proof.
  intros HV (b & e & (HK & HB & HE & CB & CE) & PB & PE & -> & ->). pose proof (validate_consistent _ _ HV) as HC.
  assert (HM : forall x y, P x -> P y -> dtz x = dtz y -> dtz x <> Some TzLocal -> wall x <= wall y -> moment E x <= moment E y).
  { intros x y PX PY Hz Hl Hw. pose proof (ta_order _ _ HS x y PX PY Hz Hl) as HO.
    unfold Z.le in *. now rewrite <- HO. }
  unfold eff_end in HE. destruct (ts_end t) as [e0|] eqn:Ee.
  - injection HE as ->. pose proof (co_order _ _ HC _ _ HB Ee) as H. unfold not_before in H.
    destruct (dtz b) as [[n|o|]|] eqn:Eb, (dtz e) as [[m|o'|]|] eqn:Eee; try easy;
    try (unfold moment; rewrite Eb, Eee; exact H).
    + destruct (N.eqb_spec n m) as [->|]; [|unfold moment; rewrite Eb, Eee; exact H].
      apply HM; [easy|easy|congruence| |easy]. rewrite Eb. discriminate.
    + apply HM; [easy|easy|congruence| |easy]. congruence.
  - rewrite HB in HE. apply bind_ok in HE as (d & Hd & HE). destruct d as [d|]; [|discriminate].
    apply rmap_ok in HE as (x & Hx & [= <-]). unfold dt_add in Hx. destruct (wall_ok (wall b + d)); [|discriminate].
    injection Hx as <-. apply HM; [easy|easy|easy|apply CB|]. cbn [wall]. unfold eff_duration in Hd. rewrite Ee in Hd.
    destruct (ts_dur t) as [d0|] eqn:Ed.
    + injection Hd as ->. pose proof (co_dur_pos _ _ HC _ Ed). lia.
    + destruct (ts_kind t); try discriminate. injection Hd as <-. pose proof US_DAY_val. destruct (is_day _); lia.
Qed.
Lemma includes_intersects s o B N B' N' : interval E P s B N -> interval E P o B' N' -> validate E o = Ok tt ->
  includes E s o = Ok true -> intersects E s o = Ok true.
Proof.
  intros H1 H2 HV I. pose proof (valid_interval _ _ _ HV H2) as HL.
  destruct (predicates_exact _ _ _ _ _ _ H1 H2) as (_ & _ & -> & Q1 & _).
  rewrite Q1 in I. injection I as I. f_equal. lia.
Qed.
Lemma intersects_instants s o B N B' N' : interval E P s B N -> interval E P o B' N' -> B < N -> B' < N' ->
  (intersects E s o = Ok true <-> (exists x, inside x B N /\ inside x B' N') \/ N = B' \/ N' = B).
Proof.
  intros H1 H2 L1 L2. destruct (predicates_exact _ _ _ _ _ _ H1 H2) as (_ & _ & -> & _). unfold inside. split.
  - intros [= H]. destruct (Z.eq_dec N B'); [now right; left|]. destruct (Z.eq_dec N' B); [now right; right|].
    left. exists (Z.max B B'). lia.
  - intros [(x & X1 & X2)|H]; f_equal; lia.
Qed.
Lemma includes_instants s o B N B' N' : interval E P s B N -> interval E P o B' N' -> B' < N' ->
  (includes E s o = Ok true <-> (forall x, inside x B' N' -> inside x B N) /\ N' <> N).
Proof.
  intros H1 H2 L2. destruct (predicates_exact _ _ _ _ _ _ H1 H2) as (_ & _ & _ & -> & _). unfold inside. split.
  - intros [= H]. split; [intros x; lia|lia].
  - intros [H Hn]. pose proof (H B' ltac:(lia)). pose proof (H (N' - 1) ltac:(lia)). f_equal. lia.
Qed.
(** An event of no length meets a proper span exactly when it lies inside. *)
Lemma intersects_empty s o B B' N' : interval E P s B B -> interval E P o B' N' ->
  (intersects E s o = Ok true <-> inside B B' N').
Proof.
  intros H1 H2. destruct (predicates_exact _ _ _ _ _ _ H1 H2) as (_ & _ & -> & _). unfold inside. split.
  - intros [= H]. lia.
  - intros H. f_equal. lia.
Qed.

(** ** Ordering *)
Definition lex (a b : Z * Z) : comparison := match fst a ?= fst b with Eq => snd a ?= snd b | c => c end.
Definition nzp (d d' : datetime) : Prop := P d /\ convertible E d /\ normalize_dt E CMP_NORM d = Ok d'.
Lemma nzp_nz d d' : nzp d d' -> nz d d'.
Proof. intros (PD & CD & ND). destruct (norm_ok d CD) as (x & X1 & X2). congruence. Qed.
Lemma cmp_tuple_key t k : sort_key E P t k -> exists d1 d2 d1' d2', cmp_tuple E t = Ok (d1', d2') /\
  nzp d1 d1' /\ nzp d2 d2' /\ k = (moment E d1, moment E d2).
Proof.
  intros (e & HE & P1 & P2 & C1 & C2 & ->). destruct (norm_ok _ C1) as (b' & N1 & N2). destruct (norm_ok _ C2) as (e' & N3 & N4).
  unfold cmp_tuple, span_tuple. rewrite HE.
  assert (O1 : or_default (Some CMP_DEFAULT) (ts_begin t) = Some (or1900 (ts_begin t))) by now destruct (ts_begin t).
  assert (O2 : or_default (Some CMP_DEFAULT) e = Some (or1900 e)) by now destruct e.
  rewrite O1. cbn [opt_res bind]. rewrite N1. cbn [rmap bind]. rewrite O2. cbn [opt_res]. rewrite N3. cbn [rmap bind].
  destruct (ts_kind t); cbn [tp_1 tp_2].
  - exists (or1900 (ts_begin t)), (or1900 e), b', e'. now unfold nzp.
  - exists (or1900 (ts_begin t)), (or1900 e), b', e'. now unfold nzp.
  - exists (or1900 e), (or1900 (ts_begin t)), e', b'. now unfold nzp.
Qed.
Lemma cmp2_lex o x a1 a2 b1 b2 a1' a2' b1' b2' : nzp a1 a1' -> nzp a2 a2' -> nzp b1 b1' -> nzp b2 b2' ->
  cmp2 E o (op_of o x) a1' a2' b1' b2' =
  Ok (op_of o (match lex (moment E a1, moment E a2) (moment E b1, moment E b2) with Eq => x | c => c end)).
Proof.
  intros HA1 HA2 HB1 HB2. unfold cmp2, dt_op, lex. cbn [fst snd].
  pose proof (nzp_nz _ _ HA1) as Z1. pose proof (nzp_nz _ _ HA2) as Z2. pose proof (nzp_nz _ _ HB1) as Z3. pose proof (nzp_nz _ _ HB2) as Z4.
  destruct HA1 as (PA1 & CA1 & NA1), HA2 as (PA2 & CA2 & NA2), HB1 as (PB1 & CB1 & NB1), HB2 as (PB2 & CB2 & NB2).
  rewrite (eqb_norm P a1 b1 a1' b1'), (eqb_norm P a2 b2 a2' b2') by easy. rewrite (cmp_norm a1 b1), (cmp_norm a2 b2) by easy.
  rewrite (order_tame P a1 b1), (order_tame P a2 b2) by easy. cbn [rmap].
  destruct (Z.eqb_spec (moment E a1) (moment E b1)) as [->|H1].
  - rewrite Z.compare_refl. cbn [negb]. destruct (Z.eqb_spec (moment E a2) (moment E b2)) as [->|H2].
    + now rewrite Z.compare_refl.
    + cbn [negb]. destruct (Z.compare_spec (moment E a2) (moment E b2)); try easy; lia.
  - cbn [negb]. destruct (Z.compare_spec (moment E a1) (moment E b1)); try easy; lia.
Qed.
Lemma span_op_lex o s t k l : sort_key E P s k -> sort_key E P t l -> span_op E o s t = Ok (op_of o (lex k l)).
Proof.
  intros H1 H2. destruct (cmp_tuple_key _ _ H1) as (a1 & a2 & a1' & a2' & T1 & A1 & A2 & ->).
  destruct (cmp_tuple_key _ _ H2) as (b1 & b2 & b1' & b2' & T2 & B1 & B2 & ->).
  unfold span_op. rewrite T1. cbn [bind]. rewrite T2. cbn [bind]. rewrite (cmp2_lex o Eq a1 a2 b1 b2) by easy.
  now destruct (lex _ _).
Qed.
Lemma entry_op_lex o s t k l : sort_key E P (en_span s) k -> sort_key E P (en_span t) l ->
  entry_op E o s t = Ok (op_of o (match lex k l with Eq => str_cmp (en_name s) (en_name t) | c => c end)).
Proof.
  intros H1 H2. destruct (cmp_tuple_key _ _ H1) as (a1 & a2 & a1' & a2' & T1 & A1 & A2 & ->).
  destruct (cmp_tuple_key _ _ H2) as (b1 & b2 & b1' & b2' & T2 & B1 & B2 & ->).
  unfold entry_op. rewrite T1. cbn [bind]. rewrite T2. cbn [bind]. now apply cmp2_lex.
Qed.
Lemma lex_lt a b : lex a b = Lt <-> key_lt a b.
Proof.
  unfold lex, key_lt. destruct (Z.compare_spec (fst a) (fst b)) as [H|H|H].
  - rewrite Z.compare_lt_iff. lia.
  - split; [lia|easy].
  - split; [discriminate|lia].
Qed.
Lemma lex_antisym a b : lex b a = CompOpp (lex a b).
Proof.
  unfold lex. rewrite (Z.compare_antisym (fst b) (fst a)), (Z.compare_antisym (snd b) (snd a)).
  now destruct (fst b ?= fst a), (snd b ?= snd a).
Qed.
Lemma lex_eq a b : lex a b = Eq <-> a = b.
Proof.
  unfold lex. destruct a as [x y], b as [x' y']. cbn. destruct (Z.compare_spec x x') as [->|H|H].
  - destruct (Z.compare_spec y y') as [->|H|H]; split; try easy; intros [= Q]; lia.
  - split; [easy|]. intros [= Q1 Q2]. lia.
  - split; [easy|]. intros [= Q1 Q2]. lia.
Qed.
Lemma str_cmp_antisym a b : str_cmp b a = CompOpp (str_cmp a b).
Proof.
  revert b. induction a as [|x a IH]; intros [|y b]; try easy. cbn. rewrite (N.compare_antisym x y).
  destruct (N.compare x y); cbn; auto.
Qed.
Lemma str_cmp_eq a b : str_cmp a b = Eq <-> a = b.
Proof.
  revert b. induction a as [|x a IH]; intros [|y b]; try easy. cbn. destruct (N.compare_spec x y) as [->|H|H].
  - rewrite IH. split; [now intros ->|congruence].
  - split; [easy|]. intros [= Q1 Q2]. lia.
  - split; [easy|]. intros [= Q1 Q2]. lia.
Qed.
Lemma str_cmp_trans a b c : str_cmp a b = Lt -> str_cmp b c = Lt -> str_cmp a c = Lt.
Proof.
  revert b c. induction a as [|x a IH]; intros [|y b] [|z c]; try easy. cbn.
  destruct (N.compare_spec x y) as [->|H|H]; try easy.
  - destruct (N.compare_spec y z) as [->|H|H]; try easy. apply IH.
  - intros _. destruct (N.compare_spec y z) as [->|H'|H']; try easy; intros _;
    destruct (N.compare_spec x z); try easy; lia.
Qed.
(** The combined order of entries. *)
Definition ecmp (a b : (Z * Z) * str) : comparison :=
  match lex (fst a) (fst b) with Eq => str_cmp (snd a) (snd b) | c => c end.
Lemma ecmp_antisym a b : ecmp b a = CompOpp (ecmp a b).
Proof. unfold ecmp. rewrite (lex_antisym (fst a)), (str_cmp_antisym (snd a)). now destruct (lex (fst a) (fst b)). Qed.
Lemma ecmp_eq a b : ecmp a b = Eq <-> a = b.
Proof.
  unfold ecmp. destruct a as [k s], b as [l t]. cbn. destruct (lex k l) eqn:EL.
  - apply lex_eq in EL as ->. rewrite str_cmp_eq. split; [now intros ->|congruence].
  - split; [easy|]. intros [= -> _]. assert (lex l l = Eq) by now apply lex_eq. congruence.
  - split; [easy|]. intros [= -> _]. assert (lex l l = Eq) by now apply lex_eq. congruence.
Qed.
Lemma ecmp_trans a b c : ecmp a b = Lt -> ecmp b c = Lt -> ecmp a c = Lt.
Proof.
  unfold ecmp. destruct (lex (fst a) (fst b)) eqn:E1, (lex (fst b) (fst c)) eqn:E2; try discriminate; intros H1 H2.
  - apply lex_eq in E1, E2. assert (E3 : lex (fst a) (fst c) = Eq) by (apply lex_eq; congruence). rewrite E3.
    now apply (str_cmp_trans _ (snd b)).
  - apply lex_eq in E1. now rewrite E1, E2.
  - apply lex_eq in E2. now rewrite <- E2, E1.
  - apply lex_lt in E1, E2. assert (E3 : lex (fst a) (fst c) = Lt) by (apply lex_lt; unfold key_lt in *; lia). now rewrite E3.
Qed.
Lemma span_weak : weak_order (fun t => exists k, sort_key E P t k) (span_op E CLt).
Proof.
  split.
  - intros x y (k & K) (l & L). rewrite (span_op_lex _ _ _ _ _ K L). now eexists.
  - intros x (k & K). rewrite (span_op_lex _ _ _ _ _ K K). now rewrite (proj2 (lex_eq k k)).
  - intros x y z (k & K) (l & L) (m & M). rewrite (span_op_lex _ _ _ _ _ K L), (span_op_lex _ _ _ _ _ L M), (span_op_lex _ _ _ _ _ K M).
    intros [= H1] [= H2]. f_equal.
    assert (A1 : lex k l = Lt) by now destruct (lex k l). assert (A2 : lex l m = Lt) by now destruct (lex l m).
    apply lex_lt in A1, A2. rewrite (proj2 (lex_lt k m)); [easy|]. unfold key_lt in *. lia.
  - intros x y z (k & K) (l & L) (m & M).
    rewrite (span_op_lex _ _ _ _ _ K L), (span_op_lex _ _ _ _ _ L K), (span_op_lex _ _ _ _ _ L M), (span_op_lex _ _ _ _ _ M L),
      (span_op_lex _ _ _ _ _ K M), (span_op_lex _ _ _ _ _ M K).
    rewrite (lex_antisym k l), (lex_antisym l m). intros [= H1] [= H2] [= H3] [= H4].
    assert (A1 : lex k l = Eq) by now destruct (lex k l). assert (A2 : lex l m = Eq) by now destruct (lex l m).
    apply lex_eq in A1, A2. subst. now rewrite (proj2 (lex_eq m m)).
Qed.
Lemma span_consistent : consistent_ops (fun t => exists k, sort_key E P t k) (span_op E).
Proof.
  split; intros x y (k & K) (l & L); rewrite (span_op_lex _ _ _ _ _ K L), (span_op_lex _ _ _ _ _ L K), (lex_antisym l k);
  destruct (lex l k); easy.
Qed.
Lemma ecmp_op o x y k l : sort_key E P (en_span x) k -> sort_key E P (en_span y) l ->
  entry_op E o x y = Ok (op_of o (ecmp (k, en_name x) (l, en_name y))).
Proof. intros H1 H2. rewrite (entry_op_lex o x y k l H1 H2). reflexivity. Qed.
Lemma entry_weak : weak_order (fun x => exists k, sort_key E P (en_span x) k) (entry_op E CLt).
Proof.
  split.
  - intros x y (k & K) (l & L). rewrite (ecmp_op _ _ _ _ _ K L). now eexists.
  - intros x (k & K). rewrite (ecmp_op _ _ _ _ _ K K). now rewrite (proj2 (ecmp_eq (k, en_name x) (k, en_name x))).
  - intros x y z (k & K) (l & L) (m & M). rewrite (ecmp_op _ _ _ _ _ K L), (ecmp_op _ _ _ _ _ L M), (ecmp_op _ _ _ _ _ K M).
    intros [= H1] [= H2]. f_equal.
    assert (A1 : ecmp (k, en_name x) (l, en_name y) = Lt) by now destruct (ecmp _ _).
    assert (A2 : ecmp (l, en_name y) (m, en_name z) = Lt) by now destruct (ecmp (l, _) _).
    now rewrite (ecmp_trans _ _ _ A1 A2).
  - intros x y z (k & K) (l & L) (m & M).
    rewrite (ecmp_op _ _ _ _ _ K L), (ecmp_op _ _ _ _ _ L K), (ecmp_op _ _ _ _ _ L M), (ecmp_op _ _ _ _ _ M L),
      (ecmp_op _ _ _ _ _ K M), (ecmp_op _ _ _ _ _ M K).
    rewrite (ecmp_antisym (k, en_name x) (l, en_name y)), (ecmp_antisym (l, en_name y) (m, en_name z)). intros [= H1] [= H2] [= H3] [= H4].
    assert (A1 : ecmp (k, en_name x) (l, en_name y) = Eq) by now destruct (ecmp (k, _) (l, _)).
    assert (A2 : ecmp (l, en_name y) (m, en_name z) = Eq) by now destruct (ecmp (l, _) (m, _)).
    apply ecmp_eq in A1, A2. rewrite A1, A2. now rewrite (proj2 (ecmp_eq (m, en_name z) (m, en_name z))).
Qed.
Lemma entry_consistent : consistent_ops (fun x => exists k, sort_key E P (en_span x) k) (entry_op E).
Proof.
  split; intros x y (k & K) (l & L); rewrite (ecmp_op _ _ _ _ _ K L), (ecmp_op _ _ _ _ _ L K), (ecmp_antisym (l, _) (k, _));
  destruct (ecmp (l, _) (k, _)); easy.
Qed.
Lemma str_cmp_lt a b : str_cmp a b = Lt <-> str_lt a b.
Proof.
  split.
  - revert b. induction a as [|x a IH]; intros [|y b]; cbn; try discriminate; [constructor|].
    destruct (N.compare_spec x y) as [->|H|H]; try discriminate; intros; [apply sl_tail|apply sl_head]; auto.
  - induction 1; cbn; [easy| |].
    + now rewrite (proj2 (N.compare_lt_iff x y)).
    + now rewrite N.compare_refl.
Qed.
Lemma span_lt_key s t k l : sort_key E P s k -> sort_key E P t l ->
  exists x, span_op E CLt s t = Ok x /\ (x = true <-> key_lt k l).
Proof.
  intros K L. rewrite (span_op_lex _ _ _ _ _ K L). eexists. split; [reflexivity|]. rewrite <- lex_lt. now destruct (lex k l).
Qed.
Lemma entry_lt_key x y k l : sort_key E P (en_span x) k -> sort_key E P (en_span y) l ->
  exists r, entry_op E CLt x y = Ok r /\ (r = true <-> key_lt k l \/ k = l /\ str_lt (en_name x) (en_name y)).
Proof.
  intros K L. rewrite (ecmp_op _ _ _ _ _ K L). eexists. split; [reflexivity|]. rewrite <- lex_lt, <- lex_eq, <- str_cmp_lt. unfold ecmp. cbn [fst snd].
  destruct (lex k l) eqn:EL; cbn; try (destruct (str_cmp _ _)); split; try easy; try (intros [H|[H1 H2]]; easy); auto.
Qed.
End Tame.
End S.

Lemma op_repr E o s s' t : ts_kind s' = ts_kind s -> ts_begin s' = ts_begin s -> eff_end E s' = eff_end E s ->
  span_op E o s' t = span_op E o s t /\ span_op E o t s' = span_op E o t s.
Proof.
  intros H1 H2 H3. assert (HC : cmp_tuple E s' = cmp_tuple E s) by (unfold cmp_tuple, span_tuple; now rewrite H1, H2, H3).
  unfold span_op. now rewrite HC.
Qed.
Lemma entry_repr E o x x' y : ts_kind (en_span x') = ts_kind (en_span x) -> ts_begin (en_span x') = ts_begin (en_span x) ->
  eff_end E (en_span x') = eff_end E (en_span x) -> en_name x' = en_name x ->
  entry_op E o x' y = entry_op E o x y /\ entry_op E o y x' = entry_op E o y x.
Proof.
  intros H1 H2 H3 H4. assert (HC : cmp_tuple E (en_span x') = cmp_tuple E (en_span x)) by (unfold cmp_tuple, span_tuple; now rewrite H1, H2, H3).
  unfold entry_op. now rewrite HC, H4.
Qed.

Lemma all_repr E o x x' y :
  ts_kind (en_span x') = ts_kind (en_span x) -> ts_begin (en_span x') = ts_begin (en_span x) ->
  eff_end E (en_span x') = eff_end E (en_span x) -> en_name x' = en_name x ->
  span_op E o (en_span x') (en_span y) = span_op E o (en_span x) (en_span y) /\
  span_op E o (en_span y) (en_span x') = span_op E o (en_span y) (en_span x) /\
  entry_op E o x' y = entry_op E o x y /\ entry_op E o y x' = entry_op E o y x.
Proof.
  intros H1 H2 H3 H4. destruct (op_repr E o _ _ (en_span y) H1 H2 H3). destruct (entry_repr E o x x' y H1 H2 H3 H4). easy.
Qed.
Lemma ok_true_iff b (Q : Prop) : (b = true <-> Q) -> (Ok b = Ok true <-> Q).
Proof. intros H. rewrite <- H. split; [now intros [= ->]|now intros ->]. Qed.
Lemma predicates_prop E P s B N o B' N' : good_local E -> tame E P ->
  interval E P s B N -> interval E P o B' N' ->
  (starts_within E s o = Ok true <-> inside B B' N') /\
  (ends_within E s o = Ok true <-> inside N B' N') /\
  (intersects E s o = Ok true <-> inside B B' N' \/ inside N B' N' \/ inside B' B N \/ inside N' B N) /\
  (includes E s o = Ok true <-> B <= B' /\ N' < N) /\
  (is_included_in E s o = Ok true <-> B' <= B /\ N < N') /\
  (forall p, In p [starts_within; ends_within; intersects; includes; is_included_in] -> exists b, p E s o = Ok b).
Proof.
  intros GL HT H1 H2. destruct (predicates_exact E GL P HT s B N o B' N' H1 H2) as (P1 & P2 & P3 & P4 & P5). unfold inside.
  split; [rewrite P1; apply ok_true_iff; lia|]. split; [rewrite P2; apply ok_true_iff; lia|].
  split; [rewrite P3; apply ok_true_iff; lia|]. split; [rewrite P4; apply ok_true_iff; lia|].
  split; [rewrite P5; apply ok_true_iff; lia|].
  intros p [<-|[<-|[<-|[<-|[<-|[]]]]]]; eauto.
Qed.
Lemma includes_dt_prop E P s B N d : good_local E -> tame E P -> interval E P s B N -> convertible E d -> P d ->
  exists b, includes_dt E s d = Ok b /\ (b = true <-> inside (moment E d) B N).
Proof.
  intros GL HT H1 H2 H3. rewrite (includes_dt_exact E GL P HT s B N d H1 H2 H3). eexists. split; [reflexivity|]. unfold inside. lia.
Qed.
Lemma includes_self E P s B N : good_local E -> tame E P -> interval E P s B N -> includes E s s = Ok false.
Proof.
  intros GL HT H. destruct (predicates_exact E GL P HT s B N s B N H H) as (_ & _ & _ & -> & _). f_equal. lia.
Qed.
Lemma todo_predicates E s o b e c f : good_local E ->
  ts_kind s = KTodo -> ts_begin s = Some b -> eff_end E s = Ok (Some e) -> convertible E b -> convertible E e ->
  runs E o c f ->
  starts_within E s o = Err AttributeError /\ ends_within E s o = Err AttributeError /\
  intersects E s o = Err AttributeError /\ includes E s o = Err AttributeError /\ is_included_in E s o = Err AttributeError.
Proof.
  intros GL HK HB HE CB CE HO. destruct (norm_ok E GL b CB) as (b' & N1 & N2). destruct (norm_ok E GL e CE) as (e' & N3 & N4).
  destruct (tuple_runs E GL _ _ _ HO) as (c' & f' & TO & _ & _).
  assert (TS : span_tuple E None s = Ok (mk_tup false (Some e') (Some b'))).
  { unfold span_tuple. rewrite HB, HE, HK. cbn [or_default opt_res bind]. rewrite N1, N3. reflexivity. }
  unfold starts_within, ends_within, intersects, includes, is_included_in, two. rewrite TS, TO. cbn [bind].
  cbn. repeat split.
Qed.
Lemma no_begin_predicates E o s c f : good_local E -> ts_kind s <> KTodo -> ts_begin s = None -> ts_end s = None -> ts_dur s = None ->
  runs E o c f ->
  starts_within E s o = Err ValueError /\ ends_within E s o = Err ValueError /\
  intersects E s o = Err ValueError /\ includes E s o = Err ValueError /\ is_included_in E s o = Err ValueError.
Proof.
  intros GL HK HB HE HD HO. destruct (tuple_runs E GL _ _ _ HO) as (c' & f' & TO & _ & _).
  assert (TS : span_tuple E None s = Ok (mk_tup true None None)).
  { unfold span_tuple, eff_end, eff_duration. rewrite HB, HE. cbn [or_default opt_res bind]. now destruct (ts_kind s). }
  unfold starts_within, ends_within, intersects, includes, is_included_in, two. rewrite TS, TO. cbn. repeat split.
Qed.

(** ** Missing begin or end *)
Lemma tuple_ends E t b e : good_local E -> ends E t b e -> exists b' e', span_tuple E None t = Ok (mk_tup true b' e') /\
  (b = None <-> b' = None) /\ (e = None <-> e' = None) .
Proof.
  intros GL (HK & HB & HE & CB & CE). unfold span_tuple. rewrite HB, HE.
  assert (G : forall o, (forall d, o = Some d -> convertible E d) -> exists o', opt_res (normalize_dt E CMP_NORM) (or_default None o) = Ok o' /\ (o = None <-> o' = None)).
  { intros [d|] C; cbn [or_default opt_res]; [|now exists None]. destruct (norm_ok E GL d (C d eq_refl)) as (d' & -> & _). exists (Some d'). split; [easy|split; discriminate]. }
  destruct (G b CB) as (b' & -> & IB), (G e CE) as (e' & EE & IE). cbn [bind]. rewrite EE. cbn [bind]. exists b', e'. split; [|easy]. now destruct (ts_kind t).
Qed.
Lemma cmp_not_value E a b : dt_cmp E a b <> Err ValueError.
Proof. unfold dt_cmp. destruct (same_tz _ _); [discriminate|]. destruct (_ || _); discriminate. Qed.
Lemma le_not_value E a b : dt_le E a b <> Err ValueError.
Proof. unfold dt_le. pose proof (cmp_not_value E a b). destruct (dt_cmp E a b); cbn; congruence. Qed.
Lemma lt_not_value E a b : dt_lt E a b <> Err ValueError.
Proof. unfold dt_lt. pose proof (cmp_not_value E a b). destruct (dt_cmp E a b); cbn; congruence. Qed.
Definition not_value {A} (r : res A) : Prop := r <> Err ValueError.
Lemma within_not_value E a b c : not_value a -> not_value b -> not_value c -> not_value (within E a b c).
Proof.
  unfold not_value, within. intros HA HB HC. destruct a as [a|]; [cbn [bind]|cbn [bind]; congruence]. destruct b as [b|]; [cbn [bind]|cbn [bind]; congruence].
  pose proof (le_not_value E a b). destruct (dt_le E a b) as [[]|]; cbn [bind]; [|discriminate|congruence]. destruct c as [c|]; [cbn [bind]|cbn [bind]; congruence]. apply lt_not_value.
Qed.
Lemma or_not_value a b : not_value a -> not_value b -> not_value (or_res a b).
Proof. unfold not_value, or_res. intros. destruct a as [[]|]; cbn [bind]; congruence. Qed.
Lemma and_not_value a b : not_value a -> not_value b -> not_value (and_res a b).
Proof. unfold not_value, and_res. intros. destruct a as [[]|]; cbn [bind]; congruence. Qed.
Lemma le_res_not_value E a b : not_value a -> not_value b -> not_value (le_res E a b).
Proof. unfold not_value, le_res. intros. destruct a as [a|]; [cbn [bind]|cbn [bind]; congruence]. destruct b as [b|]; [cbn [bind]|cbn [bind]; congruence]. apply le_not_value. Qed.
Lemma lt_res_not_value E a b : not_value a -> not_value b -> not_value (lt_res E a b).
Proof. unfold not_value, lt_res. intros. destruct a as [a|]; [cbn [bind]|cbn [bind]; congruence]. destruct b as [b|]; [cbn [bind]|cbn [bind]; congruence]. apply lt_not_value. Qed.
Lemma begin_not_value p : not_value (t_begin p).
Proof. unfold not_value, t_begin. destruct (tp_named p), (tp_1 p); discriminate. Qed.
Lemma end_not_value p : not_value (t_end p).
Proof. unfold not_value, t_end. destruct (tp_named p), (tp_2 p); discriminate. Qed.
Lemma require_value r1 r2 r3 r4 p q : require r1 r2 r3 r4 p q = if (r1 && is_none (tp_1 p) || r2 && is_none (tp_2 p) || r3 && is_none (tp_1 q) || r4 && is_none (tp_2 q))%bool then Err ValueError else Ok tt.
Proof. unfold require, guard. now destruct (_ || _). Qed.
Lemma is_none_iff {A} (o : option A) : is_none o = true <-> o = None.
Proof. destruct o; cbn; split; congruence. Qed.
Lemma required_predicates E s o sb se ob oe : good_local E -> ends E s sb se -> ends E o ob oe ->
  (starts_within E s o = Err ValueError <-> sb = None \/ ob = None \/ oe = None) /\
  (ends_within E s o = Err ValueError <-> se = None \/ ob = None \/ oe = None) /\
  (intersects E s o = Err ValueError <-> sb = None \/ se = None \/ ob = None \/ oe = None) /\
  (includes E s o = Err ValueError <-> sb = None \/ se = None \/ ob = None \/ oe = None) /\
  (is_included_in E s o = Err ValueError <-> sb = None \/ se = None \/ ob = None \/ oe = None).
Proof.
  intros GL HS HO. destruct (tuple_ends E s sb se GL HS) as (sb' & se' & TS & -> & ->), (tuple_ends E o ob oe GL HO) as (ob' & oe' & TO & -> & ->).
  unfold starts_within, ends_within, intersects, includes, is_included_in, two. rewrite TS, TO. cbn [bind]. rewrite !require_value. cbn [tp_1 tp_2 andb orb].
  rewrite <- !is_none_iff.
  assert (G : forall (b : bool) (r : res bool) (P : Prop), not_value r -> (b = true <-> P) -> (bind (if b then Err ValueError else Ok tt) (fun _ => r) = Err ValueError <-> P)).
  { intros b r P NR HP. rewrite <- HP. destruct b; cbn [bind]; [easy|]. split; [intro; contradiction|discriminate]. }
  repeat match goal with |- _ /\ _ => split end; (apply G; [|rewrite ?Bool.orb_true_iff; intuition discriminate]);
    repeat first [apply or_not_value|apply and_not_value|apply within_not_value|apply le_res_not_value|apply lt_res_not_value|apply begin_not_value|apply end_not_value].
Qed.

(** ** The example environment *)
Lemma hour_val : hour = 3600000000. Proof. reflexivity. Qed.
Lemma good_local_ex : good_local env_ex.
Proof.
  intros u. cbn [env_ex env_tzl_fromutc env_tzl_off]. pose proof hour_val as HH. clear - HH.
  generalize dependent ref. intros r. generalize dependent hour. intros h HH.
  destruct (Z.ltb_spec u (r + h)).
  - destruct (Z.ltb_spec (u + 2 * h) (r + 2 * h)); [lia|]. destruct (Z.ltb_spec (u + 2 * h) (r + 3 * h)); lia.
  - destruct (Z.ltb_spec (u + h) (r + 2 * h)); [lia|]. destruct (Z.ltb_spec (u + h) (r + 3 * h)); destruct (Z.ltb_spec u (r + 2 * h)); lia.
Qed.
Lemma env_ex_off1 w f : env_off env_ex 1 w f =
  if w <? ref + 2 * hour then 2 * hour else if w <? ref + 3 * hour then (if f : bool then hour else 2 * hour) else hour.
Proof. reflexivity. Qed.
Lemma env_ex_offn n w f w' f' : n <> 1%N -> env_off env_ex n w f = env_off env_ex n w' f'.
Proof.
  intros H. cbn [env_ex env_off]. destruct n as [|[[p|p|]|[p|p|]|]]; try easy.
Qed.
Lemma env_ex_local w f : env_local_off env_ex w f = env_off env_ex 1 w f. Proof. reflexivity. Qed.
Lemma env_ex_tzl w f : env_tzl_off env_ex w f = env_off env_ex 1 w f. Proof. reflexivity. Qed.
Lemma env_ex_tzlf u : env_tzl_fromutc env_ex u =
  if u <? ref + hour then (u + 2 * hour, false) else (u + hour, u <? ref + 2 * hour).
Proof. reflexivity. Qed.
Lemma off1_tame w f : (w < ref + 2 * hour \/ ref + 3 * hour <= w) -> env_off env_ex 1 w f = if w <? ref + 2 * hour then 2 * hour else hour.
Proof.
  intros H. rewrite env_ex_off1. pose proof hour_val. destruct (Z.ltb_spec w (ref + 2 * hour)); [easy|].
  destruct (Z.ltb_spec w (ref + 3 * hour)); [|easy]. lia.
Qed.
Lemma tame_ex : tame env_ex ex_tame.
Proof.
  pose proof hour_val as HH. split.
  - intros a b [_ HA] [_ HB] Hz Hl. unfold moment, instant, utcoffset. rewrite <- Hz. destruct (dtz a) as [[n|o|]|]; cbn [tz_off].
    + destruct (N.eq_dec n 1) as [->|Hn].
      * rewrite !off1_tame by easy. symmetry.
        destruct (Z.ltb_spec (wall a) (ref + 2 * hour)), (Z.ltb_spec (wall b) (ref + 2 * hour)); try apply compare_shift;
        destruct (Z.compare_spec (wall a) (wall b)); first [apply Z.compare_lt_iff | apply Z.compare_gt_iff | apply Z.compare_eq_iff]; lia.
      * rewrite (env_ex_offn n (wall a) (fold a) (wall b) (fold b) Hn). symmetry. apply compare_shift.
    + symmetry. apply compare_shift.
    + congruence.
    + rewrite !env_ex_local, !off1_tame by easy. symmetry.
      destruct (Z.ltb_spec (wall a) (ref + 2 * hour)), (Z.ltb_spec (wall b) (ref + 2 * hour)); try apply compare_shift;
      destruct (Z.compare_spec (wall a) (wall b)); first [apply Z.compare_lt_iff | apply Z.compare_gt_iff | apply Z.compare_eq_iff]; lia.
  - intros a [HL HA]. unfold unambiguous, moment. destruct (dtz a) as [[n|o|]|]; cbn [tz_off]; [|easy|congruence|].
    + destruct (N.eq_dec n 1) as [->|Hn]; [now rewrite !off1_tame|now apply env_ex_offn].
    + rewrite env_ex_tzlf, env_ex_local, off1_tame by easy.
      destruct (Z.ltb_spec (wall a) (ref + 2 * hour)).
      * destruct (Z.ltb_spec (wall a - 2 * hour) (ref + hour)); [|lia]. rewrite !env_ex_tzl, !off1_tame; [easy|lia|lia].
      * destruct (Z.ltb_spec (wall a - hour) (ref + hour)); [lia|]. rewrite !env_ex_tzl, !off1_tame; [easy|lia|lia].
Qed.
