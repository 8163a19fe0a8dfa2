(** * Proofs: time spans survive writing and reading *)
From Verif Require Import M_Base M_Text M_Line M_Codec M_Cal M_Time M_Span M_Dt M_Tree M_Comp.
From Verif Require Import S_Text S_Codec S_Dt S_Span S_Tree S_Comp S_Line P_Base P_Text P_Codec P_Span P_Dt P_Comp P_Frame P_Multi S_Store P_Rt P_Field.
From Coq Require Import Lia ZifyBool ZifyNat ZifyN.
Open Scope N_scope.

Section SpanRt.
Variable X : ext.
Hypothesis UE : utc_env X.
Notation D := (x_zdb X).
Notation E := (x_env X).

(** ** Validation does not tell UTC zones apart *)
Lemma utc_instant d : utc X d -> instant E d = wall d.
Proof.
  unfold utc, instant, utcoffset. destruct (dtz d) as [z|]; [|easy]. intro H. rewrite (ue_off X UE); [lia|exact H].
Qed.
Lemma utc_aware d : utc X d -> naive d = false.
Proof. unfold utc, naive. now destruct (dtz d). Qed.
Lemma utc_same a b : utc X a -> same_tz (dtz a) (dtz b) = true -> utc X b.
Proof.
  unfold utc. destruct (dtz a) as [[n|o|]|], (dtz b) as [[m|o'|]|]; cbn; try easy. intros H E1. apply N.eqb_eq in E1. now subst.
Qed.
Lemma same_tz_sym a b : same_tz a b = same_tz b a.
Proof. destruct a as [[n|o|]|], b as [[m|o'|]|]; cbn; try easy. apply N.eqb_sym. Qed.
Lemma eq_dt_parts d e : eq_dt X d e -> wall d = wall e /\ naive d = naive e /\ instant E d = instant E e /\ (d = e \/ utc X d /\ utc X e).
Proof.
  destruct d as [w f z], e as [w' f' z']. intros (E1 & E2 & [E3|(U1 & U2)]); cbn in *; subst.
  - repeat split; auto.
  - split; [easy|]. split; [now rewrite !utc_aware|]. split; [now rewrite !utc_instant|]. now right.
Qed.
Lemma eq_dt_naive d e : eq_dt X d e -> naive d = true -> d = e.
Proof. intros H N. apply eq_dt_parts in H as (_ & _ & _ & [->|(U & _)]); [easy|]. apply utc_aware in U. congruence. Qed.
(** Whether two values have one zone may change, but only if both are UTC. *)
Lemma same_or_utc a b a' b' : eq_dt X a a' -> eq_dt X b b' ->
  same_tz (dtz a) (dtz b) = same_tz (dtz a') (dtz b') \/ (utc X a /\ utc X b /\ utc X a' /\ utc X b').
Proof.
  intros HA HB. apply eq_dt_parts in HA as (_ & NA & _ & [->|(UA & UA')]), HB as (_ & NB & _ & [->|(UB & UB')]); auto.
  - destruct (same_tz (dtz a') (dtz b)) eqn:S1, (same_tz (dtz a') (dtz b')) eqn:S2; auto; right.
    + rewrite same_tz_sym in S1. pose proof (utc_same _ _ UB S1). auto.
    + rewrite same_tz_sym in S2. pose proof (utc_same _ _ UB' S2). auto.
  - destruct (same_tz (dtz a) (dtz b')) eqn:S1, (same_tz (dtz a') (dtz b')) eqn:S2; auto; right.
    + pose proof (utc_same _ _ UA S1). auto.
    + pose proof (utc_same _ _ UA' S2). auto.
Qed.
Lemma eq_dt_cmp a b a' b' : eq_dt X a a' -> eq_dt X b b' -> dt_cmp E a b = dt_cmp E a' b'.
Proof.
  intros HA HB. destruct (same_or_utc _ _ _ _ HA HB) as [S|(U1 & U2 & U3 & U4)]; unfold dt_cmp;
    apply eq_dt_parts in HA as (A1 & A2 & A3 & _), HB as (B1 & B2 & B3 & _).
  - now rewrite S, A1, A2, A3, B1, B2, B3.
  - rewrite !utc_aware, !utc_instant, A1, B1 by easy. cbn [orb]. now destruct (same_tz _ _), (same_tz _ _).
Qed.
Lemma eq_dt_sub a b a' b' : eq_dt X a a' -> eq_dt X b b' -> dt_sub E a b = dt_sub E a' b'.
Proof.
  intros HA HB. destruct (same_or_utc _ _ _ _ HA HB) as [S|(U1 & U2 & U3 & U4)]; unfold dt_sub;
    apply eq_dt_parts in HA as (A1 & A2 & A3 & _), HB as (B1 & B2 & B3 & _).
  - now rewrite S, A1, A2, A3, B1, B2, B3.
  - rewrite !utc_aware, !utc_instant, A1, B1 by easy. cbn [orb]. now destruct (same_tz _ _), (same_tz _ _).
Qed.
Lemma day_points t : validate E t = Ok tt -> ts_prec t = PDay ->
  (forall d, ts_begin t = Some d -> floating d /\ midnight d) /\ (forall d, ts_end t = Some d -> floating d /\ midnight d).
Proof.
  intros HV HP. unfold validate in HV. unbind HV. unfold validate_base in Ha. destruct (ts_begin t) as [b|].
  - unbind Ha. destruct a0. split.
    + intros d [= <-]. now apply vprec_day in Ha0.
    + intros d Ed. rewrite Ed in Ha. unbind Ha. unbind Ha1. destruct a1. now apply vprec_day in Ha2.
  - split; [easy|]. intros d Ed. rewrite Ed in Ha. unbind Ha. destruct a0. now apply vprec_day in Ha0.
Qed.
Lemma floating_naive d : floating d -> naive d = true.
Proof. unfold floating, naive. now intros ->. Qed.
Lemma validate_eq t u : eq_span X t u -> validate E t = Ok tt -> validate E u = Ok tt.
Proof.
  intros (E1 & E2 & E3 & E4 & E5) HV. destruct t as [k b e d p], u as [k' b' e' d' p']. cbn in E1, E2, E3, E4, E5. subst k' d' p'.
  assert (HP : p = PDay \/ is_day p = false) by (destruct p; auto). destruct HP as [->|HP].
  - destruct (day_points _ HV eq_refl) as [H1 H2]. cbn [ts_begin ts_end] in *.
    assert (b = b') as <-.
    { destruct b as [b|], b' as [b'|]; try easy. cbn in E2. f_equal. apply eq_dt_naive; [easy|]. apply floating_naive. now apply H1. }
    assert (e = e') as <-; [|exact HV].
    destruct e as [e|], e' as [e'|]; try easy. cbn in E3. f_equal. apply eq_dt_naive; [easy|]. apply floating_naive. now apply H2.
  - rewrite <- HV. unfold validate, validate_base, validate_precision, eff_duration, dt_gt, dt_lt. cbn [ts_kind ts_begin ts_end ts_dur ts_prec]. rewrite HP.
    destruct b as [b|], b' as [b'|]; try easy; cbn in E2.
    + destruct e as [e|], e' as [e'|]; try easy; cbn in E3.
      rewrite (eq_dt_cmp _ _ _ _ E3 E2), (eq_dt_sub _ _ _ _ E3 E2).
      apply eq_dt_parts in E2 as (_ & -> & _), E3 as (_ & -> & _). reflexivity.
    + destruct e as [e|], e' as [e'|]; try easy.
Qed.

(** ** One end point *)
Definition pkey (n : list N) : list N := if str_eqb n (py "DTSTART") then py "BEGIN" else if str_eqb n (py "DTEND") then py "END" else py "DUE".
Definition sc_put (n : list N) (d : datetime) (p : prec) (sc : spanctx) : spanctx :=
  if str_eqb n (py "DTSTART") then mk_sc (sc_seen sc ++ [n]) (Some d) (sc_end sc) (sc_dur sc) (Some p) (sc_end_name sc)
  else mk_sc (sc_seen sc ++ [n]) (sc_begin sc) (Some d) (sc_dur sc) (Some p) (Some (if str_eqb n (py "DTEND") then py "end" else py "due")).
Lemma prec_eqb_refl p : prec_eqb p p = true.
Proof. destruct p; cbn; auto. apply N.eqb_refl. Qed.

Definition prec_of (day : bool) : prec := if day then PDay else PSecond.
Lemma endpoint_rt (day : bool) d (q : xp) n : storable_dt X d -> ~ In VALUE (keys q) -> ~ In TZID (keys q) ->
  (day = true -> dtz d = None /\ (wall d mod US_DAY = 0)%Z) -> n <> py "DURATION" ->
  exists s Q2, (forall zs, exists zs', span_date X day d q zs = Ok (s, Q2, zs') /\ wrote (uses_of X [d]) zs zs') /\
  forall M l (st : lst M), cl_name l = n -> cl_value l = s -> strs (cl_params l) = strs Q2 ->
    existsb (str_eqb n) (sc_seen (l_span st)) = false ->
    sc_prec (l_span st) = None \/ sc_prec (l_span st) = Some (prec_of day) ->
    (forall id z z', dt_uses X d id z z' -> resolves X (l_zones st) id z) ->
    exists d' q' zs', populate_span X l st = Ok (mk_lst (store_params (pkey n) q' (l_comp st)) (l_count st) (sc_put n d' (prec_of day) (l_span st)) zs') /\
      eq_dt X d d' /\ strs q' = strs q /\ zext X (l_zones st) zs'.
Proof.
  intros HD HV HZ HDay HN.
  assert (G : exists s Q2, (forall zs, exists zs', span_date X day d q zs = Ok (s, Q2, zs') /\ wrote (uses_of X [d]) zs zs') /\
    forall Q rzs, strs Q = strs Q2 -> (forall id z z', dt_uses X d id z z' -> resolves X rzs id z) ->
    exists d' q' zs',
      (if list_eq_dec (list_eq_dec N.eq_dec) (match dict_get VALUE Q with Some l => map pval_str l | None => [py "DATE-TIME"] end) [py "DATE-TIME"] then
           do (d, ps2, zs) <- dt_parse X FDatetime s (dict_del VALUE Q) rzs; Ok (PSecond, d, ps2, zs)
         else if list_eq_dec (list_eq_dec N.eq_dec) (match dict_get VALUE Q with Some l => map pval_str l | None => [py "DATE-TIME"] end) [py "DATE"] then
           do (d, ps2, zs) <- dt_parse X FDate s (dict_del VALUE Q) rzs;
           Ok (PDay, mk_dt (wall d - wall d mod US_DAY)%Z false None, ps2, zs)
         else Err ValueError) = Ok (prec_of day, d', q', zs') /\
      eq_dt X d d' /\ strs q' = strs q /\ zext X rzs zs').
  { destruct day.
    - destruct (HDay eq_refl) as [HNa HM]. destruct d as [w f z]. cbn [dtz wall] in *. subst z. destruct HD as (Hf & Hw & Hs & Hy & _). cbn [fold wall] in *. subst f.
      exists (date_serialize w), (dict_set VALUE (raw [py "DATE"]) q). split.
      + intro zs. exists zs. split; [reflexivity|]. apply wrote_nouse. intros id z z' (d & [<-|[]] & (EZ & _)). discriminate.
      + intros Q rzs HQ _. pose proof (strs_get VALUE _ _ HQ) as HG. rewrite dict_get_set_same in HG. cbn [option_map map raw pval_str] in HG.
        destruct (dict_get VALUE Q) as [l|]; [|discriminate]. cbn [option_map] in HG. injection HG as HG.
        assert (HQ2 : strs (dict_del VALUE Q) = strs q).
        { rewrite (strs_del VALUE _ _ HQ). rewrite dict_set_new by exact HV. now rewrite dict_del_app_new. }
        assert (HT : dict_get TZID (dict_del VALUE Q) = None) by (apply (strs_get_None TZID _ _ HQ2); now apply dict_get_None).
        rewrite HG. destruct (list_eq_dec (list_eq_dec N.eq_dec) [py "DATE"] [py "DATE-TIME"]); [discriminate|].
        destruct (list_eq_dec (list_eq_dec N.eq_dec) [py "DATE"] [py "DATE"]); [|easy].
        pose proof (rt_date D w (strs (dict_del VALUE Q)) (Some rzs) Hw HM Hy) as R.
        assert (no_tzid (strs (dict_del VALUE Q))) as NT by (unfold no_tzid; rewrite dict_get_strs; unfold TZID in HT; now rewrite HT).
        specialize (R NT). unfold date_parse in R. unfold dt_parse. change (M_Comp.D X) with D.
        destruct (parse_dt D FDate (date_serialize w) (strs (dict_del VALUE Q)) (Some rzs)) as [[[d ps'] zs']|]; [|discriminate].
        cbn [bind] in *. injection R as R1 _ R3. subst zs'. rewrite R1. eexists _, _, _. split; [reflexivity|]. split; [repeat split; now left|]. split; [|apply zext_refl].
        rewrite <- HQ2. f_equal. apply dict_del_new. apply dict_get_None. exact HT.
    - destruct (dt_rt X UE d q HD) as (s & Q2 & HP & HW & HR). exists s, Q2. split; [exact HW|].
      intros Q rzs HQ HU.
      assert (HV2 : dict_get VALUE Q = None).
      { apply (strs_get_None VALUE _ _ HQ), dict_get_None. unfold dt_params in HP. destruct (dtz d) as [z|]; [|congruence].
        destruct (z_is_utc D z); [congruence|]. destruct HP as (id & z' & _ & _ & ->). rewrite keys_set_In. intros [C|C]; [discriminate|contradiction]. }
      rewrite HV2. destruct (list_eq_dec (list_eq_dec N.eq_dec) [py "DATE-TIME"] [py "DATE-TIME"]); [|easy].
      assert (EQ : dict_del VALUE Q = Q) by (apply dict_del_new; now apply dict_get_None). rewrite EQ.
      destruct (HR Q rzs) as (d' & rzs' & R1 & R2 & R3).
      + intros id z z' HU' Hid. split; [eauto|]. rewrite (strs_get TZID _ _ HQ). destruct HU' as (U1 & U2 & U3). unfold dt_params in HP. rewrite U1, U2 in HP.
        destruct HP as (id2 & z2 & (V1 & _ & V3) & _ & ->). rewrite U3 in V3. injection V3 as <- <-. now rewrite dict_get_set_same.
      + intro NU. apply (strs_get_None TZID _ _ HQ), dict_get_None. unfold dt_params in HP. destruct (dtz d) as [z|]; [|congruence].
        destruct (z_is_utc D z); [congruence|]. destruct HP as (id & z' & HU' & _). now apply NU in HU'.
      + rewrite R1. cbn [bind]. eexists _, _, _. split; [reflexivity|]. split; [exact R2|]. split; [|exact R3].
        rewrite (strs_del TZID _ _ HQ). f_equal. unfold dt_params in HP. assert (K : Q2 = q \/ exists id, Q2 = dict_set TZID id q).
        { destruct (dtz d) as [z|]; [|auto]. destruct (z_is_utc D z); [auto|]. destruct HP as (id & z' & _ & _ & ->). eauto. }
        destruct K as [->|(id & ->)]; [now apply dict_del_new|]. rewrite dict_set_new by exact HZ. now apply dict_del_app_new. }
  destruct G as (s & Q2 & HW & HR). exists s, Q2. split; [exact HW|].
  intros M l st L1 L2 L3 HS HP HU. destruct (HR (cl_params l) (l_zones st) L3 HU) as (d' & q' & zs' & R1 & R2 & R3 & R4).
  exists d', q', zs'. split; [|auto]. unfold populate_span. rewrite L1, L2, HS.
  destruct (str_eqb n (py "DURATION")) eqn:ED; [apply str_eqb_eq in ED; contradiction|].
  rewrite R1. cbn [bind].
  assert (HG : match sc_prec (l_span st) with Some q => guard (negb (prec_eqb (prec_of day) q)) ValueError | None => Ok tt end = Ok tt).
  { destruct HP as [->| ->]; [easy|]. now rewrite prec_eqb_refl. }
  rewrite HG. cbn [bind].
  replace (match sc_prec (l_span st) with Some q => Some q | None => Some (prec_of day) end) with (Some (prec_of day)) by (now destruct HP as [->| ->]).
  unfold sc_put, pkey. destruct (str_eqb n (py "DTSTART")); [reflexivity|]. destruct (str_eqb n (py "DTEND")); reflexivity.
Qed.
(** ** The whole span *)
Variable M : Type.
Variable EM : M -> M -> Prop.
Variable UM : M -> list N -> tz -> tz -> Prop.
Variable load_m : mkind -> list N -> list item -> zones -> res (M * zones).
Variable dump_m : M -> zones -> res (item * zones).
Variable c : cls.
Notation comp := (comp M).

Definition par_of (q : xp) : option xpar := match q with [] => None | _ => Some (XOne q) end.
Lemma par_q (x : comp) key absent : storable_par x key absent -> exists q, single_params key x = Ok q /\
  dict_get key (c_params x) = par_of q /\ forall k, In k absent -> ~ In k (keys q).
Proof.
  unfold storable_par, single_params. destruct (dict_get key (c_params x)) as [[p|p]|]; [|easy|].
  - intros [NE H]. exists p. split; [easy|]. split; [now destruct p|exact H].
  - intros _. exists []. repeat split; auto.
Qed.
Lemma stored_done key (q q' : xp) (y : comp) : strs q' = strs q -> dict_get key (c_params y) = None ->
  eq_opt eq_par (par_of q) (dict_get key (c_params (store_params key q' y))).
Proof.
  intros HS HN. destruct q' as [|kv q'], q as [|kv2 q]; try discriminate; cbn [store_params par_of].
  - now rewrite HN.
  - cbn [set_params c_params]. rewrite dict_get_set_same. cbn. symmetry. exact HS.
Qed.
Lemma stored_other k key (q : xp) (y : comp) : k <> key -> dict_get k (c_params (store_params key q y)) = dict_get k (c_params y).
Proof. intro H. destruct q; [easy|]. cbn. now rewrite dict_get_set_other by congruence. Qed.
Definition SPAN_KEYS : list (list N) := [py "BEGIN"; py "END"; py "DUE"; py "DURATION"].
Lemma span_key_noted (x : comp) k : In k SPAN_KEYS -> dict_get k (c_params (noted x)) = dict_get k (c_params x).
Proof.
  intro HK. apply noted_other. intros a Ha EU. exfalso. unfold SPAN_KEYS, NOTE_ATTRS in *.
  destruct Ha as [<-|[<-|[<-|[]]]], HK as [<-|[<-|[<-|[<-|[]]]]]; vm_compute in EU; discriminate EU.
Qed.
Lemma done_noted (x : comp) (q : xp) k o : In k SPAN_KEYS -> dict_get k (c_params x) = par_of q -> eq_opt eq_par (par_of q) o ->
  eq_opt eq_par (dict_get k (c_params (noted x))) o.
Proof. intros HK E1 H. now rewrite span_key_noted, E1. Qed.

Lemma duration_line (l : content_line) (st : lst M) d : cl_name l = py "DURATION" -> cl_value l = duration_serialize d -> storable_dur d ->
  existsb (str_eqb (py "DURATION")) (sc_seen (l_span st)) = false ->
  populate_span X l st = Ok (mk_lst (store_params (py "DURATION") (cl_params l) (l_comp st)) (l_count st)
    (mk_sc (sc_seen (l_span st) ++ [py "DURATION"]) (sc_begin (l_span st)) (sc_end (l_span st)) (Some d) (sc_prec (l_span st)) (sc_end_name (l_span st))) (l_zones st)).
Proof.
  intros L1 L2 [HD HS] H. unfold populate_span. rewrite L1, L2, H, str_eqb_refl. rewrite duration_roundtrip_gen by tauto.
  cbn [bind]. apply Z.mod_divide in HS as [k ->]; [|easy]. now rewrite Z.quot_mul by easy.
Qed.
Lemma conv_uses_span (x : comp) a k t : a_kind a = KSpan k -> dict_get (a_attr a) (c_attrs x) = Some (AOne (VSpan t)) ->
  forall id z z', conv_uses X M UM a x id z z' <-> uses_of X (opt_list (ts_begin t) ++ opt_list (ts_end t)) id z z'.
Proof.
  intros HK HA id z z'. unfold conv_uses, has_attr, has_members. rewrite HK, HA. split.
  - intros [(_ & v & E1 & HU)|(E1 & _)]; [|discriminate]. now injection E1 as <-.
  - intro HU. left. split; [easy|]. eexists. split; [reflexivity|exact HU].
Qed.

Lemma uses_two a b id z z' : uses_of X [a; b] id z z' <-> uses_of X [a] id z z' \/ uses_of X [b] id z z'.
Proof.
  unfold uses_of. cbn [In]. split.
  - intros (d & [<-|[<-|[]]] & HU); [left|right]; eauto.
  - intros [(d & [<-|[]] & HU)|(d & [<-|[]] & HU)]; eauto.
Qed.
(** The line for the end. *)
Definition ename (k : kind) : list N := match k with KTodo => py "DUE" | _ => py "DTEND" end.
Lemma ename_dur k : ename k <> py "DURATION". Proof. destruct k; discriminate. Qed.
Lemma ename_start k : ename k <> py "DTSTART". Proof. destruct k; discriminate. Qed.

Lemma span_rt (x : comp) a k : a_kind a = KSpan k -> k = KEvent \/ k = KTodo ->
  incl [py "DTSTART"; ename k; py "DURATION"] (a_names a) ->
  no_par x (py "DTEND") -> no_par x (py "END") -> (k <> KTodo -> no_par x (py "DUE")) ->
  storable_field X x (a_attr a) (Span k) -> conv_rt X M EM UM load_m dump_m c a x.
Proof.
  intros HK HKd HN ND NE NDue (t & HA & Ht & (HV & HB & HEn & HDu & HPr) & PB & PB0 & PD & PD0 & PE & PE0).
  assert (PKe : pkeys a = SPAN_KEYS) by (unfold pkeys; now rewrite HK).
  pose proof (validate_consistent _ _ HV) as HC. destruct t as [k0 b e du p]. cbn [ts_kind ts_begin ts_end ts_dur ts_prec] in *. subst k0.
  apply par_q in PB as (qb & SB & GB & AB). apply par_q in PD as (qd & SD & GD & _).
  assert (exists qe, single_params (ename k) x = Ok qe /\ dict_get (py "DUE") (c_params x) = par_of (match k with KTodo => qe | _ => [] end) /\
     (k <> KTodo -> qe = []) /\ ~ In VALUE (keys qe) /\ ~ In TZID (keys qe)) as (qe & SE & GE & GE0 & AE1 & AE2).
  { destruct (match k with KTodo => true | _ => false end) eqn:EK.
    - destruct k; try discriminate. apply par_q in PE as (qe & SE & GE & AE). exists qe. repeat split; auto; [easy| |]; apply AE; cbn; auto.
    - exists []. assert (KT : k <> KTodo) by (now destruct k). specialize (NDue KT). unfold no_par in *. repeat split; auto.
      + unfold single_params. destruct HKd as [->| ->]; [|easy]. cbn [ename]. now rewrite ND.
      + now destruct k. }
  assert (HF : forall st0 : lst M, fresh X M c a st0 -> (forall k, In k SPAN_KEYS -> dict_get k (c_params (l_comp st0)) = None) /\ l_span st0 = sc0).
  { intros st0 HF. split; [rewrite <- PKe; apply (f_par _ _ _ _ _ HF)|]. apply (f_span _ _ _ _ _ HF). unfold is_span. now rewrite HK. }
  set (day := is_day p).
  assert (HDP : ts_prec (mk_ts k b e du p) = PDay -> day = true) by (cbn; intros ->; reflexivity).
  assert (HPO : b <> None \/ e <> None -> prec_of day = p).
  { intro H. unfold day, prec_of. destruct b, e; try (destruct HPr as [-> | ->]; reflexivity). intuition. }
  assert (DB : forall d, b = Some d -> day = true -> dtz d = None /\ (wall d mod US_DAY = 0)%Z).
  { intros d Ed HD. assert (p = PDay) by (unfold day in HD; now destruct p). exact (co_day_begin _ _ HC d H Ed). }
  assert (DE : forall d, e = Some d -> day = true -> dtz d = None /\ (wall d mod US_DAY = 0)%Z).
  { intros d Ed HD. assert (p = PDay) by (unfold day in HD; now destruct p). exact (co_day_end _ _ HC d H Ed). }
  (* reading ends in a valid span *)
  assert (RDY : forall b' e' sc, eq_opt (eq_dt X) b b' -> eq_opt (eq_dt X) e e' -> sc_begin sc = b' -> sc_end sc = e' -> sc_dur sc = du ->
     match sc_prec sc with Some p => p | None => PNone end = p -> (forall n, sc_end_name sc = Some n -> n = end_name k) ->
     span_ready X k (mk_ts k b e du p) sc).
  { intros b' e' sc E1 E2 S1 S2 S3 S4 S5. exists (mk_ts k b' e' du p). 
    assert (EQ : eq_span X (mk_ts k b e du p) (mk_ts k b' e' du p)) by (repeat split; assumption).
    split; [exact EQ|]. apply validate_eq in EQ; [|exact HV]. rewrite S1, S2, S3, S4. unfold make. rewrite EQ. split; [reflexivity|]. split; [exact S5|].
    unfold apply_set. cbn [ts_kind]. change (M_Comp.E X) with E. destruct HKd as [-> | ->]; now rewrite EQ. }
  pose proof (conv_uses_span x a k _ HK HA) as CU. cbn [ts_begin ts_end] in CU.
  destruct b as [b|].
  - specialize (HB b eq_refl). 
    destruct (endpoint_rt day b qb (py "DTSTART") HB) as (s & Q2 & HW & HR); [apply AB; now left|apply AB; right; now left|now apply DB|discriminate|].
    assert (RB : forall l (st : lst M), line_eq (mk_line (py "DTSTART") Q2 s) l -> fresh X M c a st ->
       (forall id z z', dt_uses X b id z z' -> resolves X (l_zones st) id z) ->
       exists b' q' zs', populate_span X l st = Ok (mk_lst (store_params (py "BEGIN") q' (l_comp st)) (l_count st)
           (mk_sc [py "DTSTART"] (Some b') None None (Some p) None) zs') /\ eq_dt X b b' /\ strs q' = strs qb /\ zext X (l_zones st) zs').
    { intros l st (L1 & L2 & L3) HFr HRe. destruct (HF st HFr) as [_ HS].
      destruct (HR M l st) as (d' & q' & zs' & R1 & R2 & R3 & R4); [now symmetry|now symmetry|symmetry; exact L3|now rewrite HS|left; now rewrite HS|exact HRe|].
      exists d', q', zs'. rewrite R1, HS. unfold sc_put. cbn [sc_seen sc_begin sc_end sc_dur sc_end_name sc0]. rewrite str_eqb_refl, HPO by (left; discriminate). auto. }
    destruct du as [du|].
    + (* begin and duration *)
      assert (e = None) as -> by (destruct (co_excl _ _ HC); cbn in *; [assumption|discriminate]).
      exists [ILine (mk_line (py "DTSTART") Q2 s); ILine (mk_line (py "DURATION") qd (duration_serialize du))]. split; [split|].
      * intro zs. destruct (HW zs) as (zs' & W1 & W2). exists zs'. split; [|eapply wrote_ext; [exact W2|]; exact CU].
        unfold serialize_conv. rewrite HK. unfold serialize_span, get_attr, is_all_day. rewrite HA. cbn [ts_begin ts_end ts_dur ts_prec ts_kind end_representation is_all_day eff_duration]. rewrite SB. cbn [bind].
        fold day. rewrite W1. cbn [bind]. rewrite SD. cbn [bind app]. reflexivity.
      * repeat constructor; cbn [item_name cl_name]; apply HN; cbn; auto.
      * intros its' st HE HFr HRe. inversion HE as [|? it ? r H1 H2]; subst. inversion H2 as [|? it2 ? r2 H3 H4]; subst. inversion H4; subst.
        apply item_eq_line in H1 as (l1 & -> & L1), H3 as (l2 & -> & (M1 & M2 & M3)). destruct (HF st HFr) as [HPn HS].
        destruct (RB l1 st L1 HFr) as (b' & q' & zs' & R1 & R2 & R3 & R4).
        { intros id z z' HU. apply (HRe id z z'), CU. exists b. split; [now left|exact HU]. }
        eexists. cbn [populate_all]. unfold populate_conv. rewrite HK, R1. cbn [bind].
        rewrite (duration_line l2 _ du); [|now symmetry|now symmetry|now apply HDu|reflexivity]. cbn [bind l_comp l_count l_span l_zones sc_seen sc_begin sc_end sc_prec sc_end_name].
        split; [reflexivity|]. split; [|exact R4]. split.
        -- rewrite PKe. intros k1 Hk1. cbn [l_comp]. pose proof Hk1 as Hk2. destruct Hk1 as [<-|[<-|[<-|[<-|[]]]]].
           ++ apply (done_noted x qb); auto. rewrite stored_other by discriminate. apply stored_done; auto.
           ++ apply (done_noted x []); auto. rewrite !stored_other by discriminate. now rewrite (HPn _ Hk2).
           ++ apply (done_noted x []); auto; [now apply PE0|]. rewrite !stored_other by discriminate. now rewrite (HPn _ Hk2).
           ++ apply (done_noted x qd); auto. apply stored_done; [symmetry; exact M3|]. rewrite stored_other by discriminate. now apply HPn.
        -- rewrite HK. eexists. split; [exact HA|]. apply (RDY (Some b') None); auto; try easy.
    + destruct e as [e|].
      * (* begin and end *)
        specialize (HEn e eq_refl).
        destruct (endpoint_rt day e qe (ename k) HEn AE1 AE2 (DE e eq_refl) (ename_dur k)) as (s2 & Q3 & HW2 & HR2).
        exists [ILine (mk_line (py "DTSTART") Q2 s); ILine (mk_line (ename k) Q3 s2)]. split; [split|].
        -- intro zs. destruct (HW zs) as (zs1 & W1 & W2). destruct (HW2 zs1) as (zs2 & W3 & W4). exists zs2. split.
           ++ unfold serialize_conv. rewrite HK. unfold serialize_span, get_attr, is_all_day. rewrite HA. cbn [ts_begin ts_end ts_dur ts_prec ts_kind end_representation is_all_day eff_end bind]. rewrite SB. cbn [bind].
              fold day. rewrite W1. cbn [bind]. fold (ename k). rewrite SE. cbn [bind]. rewrite W3. reflexivity.
           ++ eapply wrote_trans; [exact W2|exact W4|]. intros id z z'. rewrite CU. cbn [opt_list app]. apply uses_two.
        -- repeat constructor; cbn [item_name cl_name]; apply HN; cbn; auto.
        -- intros its' st HE HFr HRe. inversion HE as [|? it ? r H1 H2]; subst. inversion H2 as [|? it2 ? r2 H3 H4]; subst. inversion H4; subst.
           apply item_eq_line in H1 as (l1 & -> & L1), H3 as (l2 & -> & (M1 & M2 & M3)). destruct (HF st HFr) as [HPn HS].
           destruct (RB l1 st L1 HFr) as (b' & q' & zs' & R1 & R2 & R3 & R4).
           { intros id z z' HU. apply (HRe id z z'), CU. exists b. split; [now left|exact HU]. }
           destruct (HR2 M l2 (mk_lst (store_params (py "BEGIN") q' (l_comp st)) (l_count st) (mk_sc [py "DTSTART"] (Some b') None None (Some p) None) zs'))
             as (e' & q2' & zs2 & T1 & T2 & T3 & T4); [now symmetry|now symmetry|symmetry; exact M3| | | |].
           { cbn [l_span sc_seen existsb]. destruct (str_eqb (ename k) (py "DTSTART")) eqn:ES; [apply str_eqb_eq in ES; now apply ename_start in ES|reflexivity]. }
           { right. cbn [l_span sc_prec]. f_equal. symmetry. apply HPO. left. discriminate. }
           { intros id z z' HU. cbn [l_zones]. apply R4. apply (HRe id z z'), CU. exists e. split; [right; now left|exact HU]. }
           eexists. cbn [populate_all]. unfold populate_conv. rewrite HK, R1. cbn [bind]. rewrite T1. cbn [bind]. cbn [l_comp l_count l_span l_zones] in *.
           split; [reflexivity|]. split; [|eapply zext_trans; [exact R4|exact T4]]. split.
           ++ rewrite PKe. intros k1 Hk1. cbn [l_comp]. pose proof Hk1 as Hk2.
              assert (qe' : k <> KTodo -> q2' = []). { intro KT. specialize (GE0 KT). subst qe. now apply strs_nil in T3. }
              assert (PKY : pkey (ename k) = py "END" /\ k <> KTodo \/ pkey (ename k) = py "DUE" /\ k = KTodo).
              { destruct HKd as [-> | ->]; [left|right]; split; try reflexivity. discriminate. }
              assert (NB : pkey (ename k) <> py "BEGIN" /\ pkey (ename k) <> py "DURATION") by (destruct PKY as [[-> _]|[-> _]]; split; discriminate).
              destruct Hk1 as [<-|[<-|[<-|[<-|[]]]]].
              ** apply (done_noted x qb); auto. rewrite stored_other by (intro; now apply (proj1 NB)). apply stored_done; auto.
              ** apply (done_noted x []); auto. destruct PKY as [[-> KT]|[-> KT]].
                 --- rewrite (qe' KT). cbn [store_params]. rewrite stored_other by discriminate. now rewrite (HPn _ Hk2).
                 --- rewrite !stored_other by discriminate. now rewrite (HPn _ Hk2).
              ** apply (done_noted x _ _ _ Hk2 GE). destruct PKY as [[-> KT]|[-> ->]].
                 --- rewrite !stored_other by discriminate. rewrite (HPn _ Hk2). now destruct k.
                 --- apply stored_done; [exact T3|]. rewrite stored_other by discriminate. now apply HPn.
              ** apply (done_noted x []); auto; [now apply PD0|]. rewrite !stored_other by (discriminate || (intro; now apply (proj2 NB))). now rewrite (HPn _ Hk2).
           ++ rewrite HK. eexists. split; [exact HA|]. cbn [l_span]. unfold sc_put.
              destruct (str_eqb (ename k) (py "DTSTART")) eqn:ES; [apply str_eqb_eq in ES; now apply ename_start in ES|].
              apply (RDY (Some b') (Some e')); cbn [sc_begin sc_end sc_dur sc_prec sc_end_name]; auto.
              { apply HPO. left. discriminate. }
              intros n [= <-]. destruct HKd as [-> | ->]; reflexivity.
      * (* only a begin *)
        exists [ILine (mk_line (py "DTSTART") Q2 s)]. split; [split|].
        -- intro zs. destruct (HW zs) as (zs' & W1 & W2). exists zs'. split; [|eapply wrote_ext; [exact W2|]; exact CU].
           unfold serialize_conv. rewrite HK. unfold serialize_span, get_attr, is_all_day. rewrite HA. cbn [ts_begin ts_end ts_dur ts_prec ts_kind end_representation is_all_day]. rewrite SB. cbn [bind].
           fold day. rewrite W1. reflexivity.
        -- repeat constructor; cbn [item_name cl_name]; apply HN; cbn; auto.
        -- intros its' st HE HFr HRe. inversion HE as [|? it ? r H1 H2]; subst. inversion H2; subst.
           apply item_eq_line in H1 as (l1 & -> & L1). destruct (HF st HFr) as [HPn HS].
           destruct (RB l1 st L1 HFr) as (b' & q' & zs' & R1 & R2 & R3 & R4).
           { intros id z z' HU. apply (HRe id z z'), CU. exists b. split; [now left|exact HU]. }
           eexists. cbn [populate_all]. unfold populate_conv. rewrite HK, R1. cbn [bind].
           split; [reflexivity|]. split; [|exact R4]. split.
           ++ rewrite PKe. intros k1 Hk1. cbn [l_comp]. pose proof Hk1 as Hk2. destruct Hk1 as [<-|[<-|[<-|[<-|[]]]]].
              ** apply (done_noted x qb); auto. apply stored_done; auto.
              ** apply (done_noted x []); auto. rewrite !stored_other by discriminate. now rewrite (HPn _ Hk2).
              ** apply (done_noted x []); auto; [now apply PE0|]. rewrite !stored_other by discriminate. now rewrite (HPn _ Hk2).
              ** apply (done_noted x []); auto; [now apply PD0|]. rewrite stored_other by discriminate. now rewrite (HPn _ Hk2).
           ++ rewrite HK. eexists. split; [exact HA|]. apply (RDY (Some b') None); auto; easy.
  - assert (du = None) as ->. { destruct du; [|easy]. exfalso. now apply (co_dur_begin _ _ HC). }
    destruct e as [e|].
    + (* only an end *)
      specialize (HEn e eq_refl).
      destruct (endpoint_rt day e qe (ename k) HEn AE1 AE2 (DE e eq_refl) (ename_dur k)) as (s2 & Q3 & HW2 & HR2).
      exists [ILine (mk_line (ename k) Q3 s2)]. split; [split|].
      * intro zs. destruct (HW2 zs) as (zs2 & W3 & W4). exists zs2. split; [|eapply wrote_ext; [exact W4|]; exact CU].
        unfold serialize_conv. rewrite HK. unfold serialize_span, get_attr, is_all_day. rewrite HA. cbn [ts_begin ts_end ts_dur ts_prec ts_kind end_representation is_all_day eff_end bind].
        fold day. fold (ename k). rewrite SE. cbn [bind]. rewrite W3. reflexivity.
      * repeat constructor; cbn [item_name cl_name]; apply HN; cbn; auto.
      * intros its' st HE HFr HRe. inversion HE as [|? it ? r H1 H2]; subst. inversion H2; subst.
        apply item_eq_line in H1 as (l2 & -> & (M1 & M2 & M3)). destruct (HF st HFr) as [HPn HS].
        destruct (HR2 M l2 st) as (e' & q2' & zs2 & T1 & T2 & T3 & T4); [now symmetry|now symmetry|symmetry; exact M3|now rewrite HS|left; now rewrite HS| |].
        { intros id z z' HU. apply (HRe id z z'), CU. exists e. split; [now left|exact HU]. }
        eexists. cbn [populate_all]. unfold populate_conv. rewrite HK, T1. cbn [bind].
        split; [reflexivity|]. split; [|exact T4]. split.
        -- rewrite PKe. intros k1 Hk1. cbn [l_comp]. pose proof Hk1 as Hk2.
           assert (qe' : k <> KTodo -> q2' = []). { intro KT. specialize (GE0 KT). subst qe. now apply strs_nil in T3. }
           assert (PKY : pkey (ename k) = py "END" /\ k <> KTodo \/ pkey (ename k) = py "DUE" /\ k = KTodo).
           { destruct HKd as [-> | ->]; [left|right]; split; try reflexivity. discriminate. }
           assert (NB : pkey (ename k) <> py "BEGIN" /\ pkey (ename k) <> py "DURATION") by (destruct PKY as [[-> _]|[-> _]]; split; discriminate).
           destruct Hk1 as [<-|[<-|[<-|[<-|[]]]]].
           ++ apply (done_noted x []); auto; [now apply PB0|]. rewrite stored_other by (intro; now apply (proj1 NB)). now rewrite (HPn _ Hk2).
           ++ apply (done_noted x []); auto. destruct PKY as [[-> KT]|[-> KT]].
              ** rewrite (qe' KT). cbn [store_params]. now rewrite (HPn _ Hk2).
              ** rewrite !stored_other by discriminate. now rewrite (HPn _ Hk2).
           ++ apply (done_noted x _ _ _ Hk2 GE). destruct PKY as [[-> KT]|[-> ->]].
              ** rewrite !stored_other by discriminate. rewrite (HPn _ Hk2). now destruct k.
              ** apply stored_done; [exact T3|]. now apply HPn.
           ++ apply (done_noted x []); auto; [now apply PD0|]. rewrite stored_other by (intro; now apply (proj2 NB)). now rewrite (HPn _ Hk2).
        -- rewrite HK. eexists. split; [exact HA|]. cbn [l_span]. rewrite HS. unfold sc_put.
           destruct (str_eqb (ename k) (py "DTSTART")) eqn:ES; [apply str_eqb_eq in ES; now apply ename_start in ES|].
           apply (RDY None (Some e')); cbn [sc_begin sc_end sc_dur sc_prec sc_end_name sc0]; auto; [easy| |].
           { apply HPO. right. discriminate. }
           intros n [= <-]. destruct HKd as [-> | ->]; reflexivity.
    + (* neither *)
      exists []. split; [split|].
      * intro zs. exists zs. split; [|apply wrote_nouse; intros id z z' HU; apply CU in HU as (d & [] & _)].
        unfold serialize_conv. rewrite HK. unfold serialize_span, get_attr, is_all_day. rewrite HA. reflexivity.
      * constructor.
      * intros its' st HE HFr HRe. inversion HE; subst. destruct (HF st HFr) as [HPn HS]. exists st. split; [reflexivity|]. split; [|apply zext_refl]. split.
        -- rewrite PKe. intros k1 Hk1. rewrite (HPn _ Hk1). apply (done_noted x []); [exact Hk1| |exact I]. destruct Hk1 as [<-|[<-|[<-|[<-|[]]]]]; [now apply PB0|exact NE|now apply PE0|now apply PD0].
        -- rewrite HK. eexists. split; [exact HA|]. rewrite HS. apply (RDY None None); try easy.
Qed.
End SpanRt.
