(** * Proofs about Timespan: validation, end representation, all-day spans, rounding *)
From Verif Require Import M_Base P_Base M_Codec M_Cal P_Cal M_Time M_Span S_Span.
From Coq Require Import Lia ZifyBool ZifyNat ZifyN.
Ltac Zify.zify_post_hook ::= Z.div_mod_to_equations.
Open Scope Z_scope.

Lemma guard_ok c e : guard c e = Ok tt <-> c = false.
Proof. unfold guard. destruct c; split; congruence. Qed.
Lemma bind_ok {A B} (r : res A) (f : A -> res B) b : bind r f = Ok b <-> exists a, r = Ok a /\ f a = Ok b.
Proof.
  destruct r as [a|e]; cbn; split.
  - intros H. now exists a.
  - intros (x & [= <-] & H). exact H.
  - discriminate.
  - intros (x & H & _). discriminate.
Qed.
Lemma rmap_ok {A B} (f : A -> B) r b : rmap f r = Ok b <-> exists a, r = Ok a /\ b = f a.
Proof.
  destruct r as [a|e]; cbn; split.
  - intros [= <-]. now exists a.
  - intros (x & [= <-] & ->). easy.
  - discriminate.
  - intros (x & H & _). discriminate.
Qed.
Lemma bind_guard {B} c e (k : res B) b : bind (guard c e) (fun _ => k) = Ok b <-> c = false /\ k = Ok b.
Proof. unfold guard. destruct c; cbn; split; [easy|easy|tauto|tauto]. Qed.
Lemma bind_tt {B} (r : res unit) (k : res B) b : bind r (fun _ => k) = Ok b <-> r = Ok tt /\ k = Ok b.
Proof. destruct r as [[]|e]; cbn; split; [tauto|tauto|discriminate|intros [H _]; discriminate]. Qed.

Lemma US_DAY_val : US_DAY = 86400000000. Proof. reflexivity. Qed.
Lemma US_SEC_val : US_SEC = 1000000. Proof. reflexivity. Qed.

Ltac dlia := rewrite ?US_DAY_val, ?US_SEC_val in *; lia.
Section S.
Variable E : env.

Lemma same_tz_None a : same_tz a None = true <-> a = None.
Proof. destruct a as [[| |]|]; cbn; split; congruence. Qed.

Lemma dt_cmp_naive a b : dtz a = None -> dtz b = None -> dt_cmp E a b = Ok (wall a ?= wall b).
Proof. intros Ha Hb. unfold dt_cmp. rewrite Ha, Hb. reflexivity. Qed.
Lemma dt_eqb_naive a b : dtz a = None -> dtz b = None -> dt_eqb E a b = (wall a =? wall b).
Proof. intros Ha Hb. unfold dt_eqb. rewrite Ha, Hb. reflexivity. Qed.

(** Equality with a value of the same zone attribute. *)
Lemma dt_eqb_same a b : dtz a = dtz b -> dtz a <> Some TzLocal -> dt_eqb E a b = (wall a =? wall b).
Proof.
  intros H HL. unfold dt_eqb, naive, instant, utcoffset, fold_matters. rewrite <- H.
  destruct (dtz a) as [[n|o|]|] eqn:Ea; cbn [same_tz].
  - now rewrite N.eqb_refl.
  - cbn [orb tz_off]. rewrite Z.eqb_refl. cbn [negb]. rewrite !andb_true_r. lia.
  - now destruct HL.
  - reflexivity.
Qed.

(** ** Rounding (C22) *)
Lemma floor_spec d : let m := floor_midnight d in
  dtz m = dtz d /\ midnight m /\ wall m <= wall d /\
  (forall m', midnight m' -> wall m' <= wall d -> wall m' <= wall m).
Proof.
  cbv zeta. unfold floor_midnight, midnight. cbn [wall dtz]. rewrite US_DAY_val.
  split; [easy|]. split; [lia|]. split; [lia|]. intros m' H1 H2. lia.
Qed.
Lemma floor_wall_ok d : wall_ok (wall d) = true -> wall_ok (wall (floor_midnight d)) = true.
Proof. unfold floor_midnight, wall_ok, WALL_END, MAXORDINAL. cbn. rewrite US_DAY_val. lia. Qed.
Lemma ceil_value d : stored d -> ceil_midnight E d =
  if wall d mod US_DAY =? 0 then Ok (mk_dt (wall d) false (dtz d))
  else dt_add (floor_midnight d) US_DAY.
Proof.
  intros [HW HL]. unfold ceil_midnight. rewrite dt_eqb_same by easy.
  unfold floor_midnight. cbn [wall dtz].
  destruct (Z.eqb_spec (wall d mod US_DAY) 0) as [H|H].
  - rewrite H, Z.sub_0_r, Z.eqb_refl. reflexivity.
  - destruct (Z.eqb_spec (wall d - wall d mod US_DAY) (wall d)); [lia|]. reflexivity.
Qed.
Lemma ceil_spec d : stored d ->
  match ceil_midnight E d with
  | Ok m => dtz m = dtz d /\ midnight m /\ wall d <= wall m /\ stored m /\
      (forall m', midnight m' -> wall d <= wall m' -> wall m <= wall m')
  | Err e => e = OverflowError /\ forall m', midnight m' -> wall d <= wall m' -> wall_ok (wall m') = false
  end.
Proof.
  intros HS. rewrite ceil_value by easy. destruct HS as [HW HL]. rewrite US_DAY_val.
  destruct (Z.eqb_spec (wall d mod 86400000000) 0) as [H|H].
  - unfold midnight, stored. cbn [wall dtz]. repeat (split; [first [easy | lia | (rewrite Zminus_mod; lia)]|]).
      intros m' H1 H2. lia.
  - unfold dt_add, floor_midnight. cbn [wall dtz]. rewrite US_DAY_val.
    destruct (wall_ok (wall d - _ + _)) eqn:EW.
    + unfold midnight, stored. cbn [wall dtz]. split; [easy|]. split; [lia|]. split; [lia|].
      split; [now split|]. intros m' H1 H2. lia.
    + split; [easy|]. intros m' H1 H2. unfold midnight, wall_ok, WALL_END, MAXORDINAL in *.
      rewrite US_DAY_val in *. lia.
Qed.
Lemma timedelta_ok x r : timedelta x = Ok r <-> TD_MIN <= x <= TD_MAX /\ r = x.
Proof.
  unfold timedelta. destruct (_ && _) eqn:EB; split.
  - intros [= <-]. lia.
  - intros [_ ->]. easy.
  - discriminate.
  - lia.
Qed.
Lemma floor_td_spec x r : floor_td_days x = Ok r ->
  r mod 86400000000 = 0 /\ r <= x /\ forall r', r' mod 86400000000 = 0 -> r' <= x -> r' <= r.
Proof.
  unfold floor_td_days. rewrite US_DAY_val. intros H. apply timedelta_ok in H as [H ->].
  split; [lia|]. split; [lia|]. intros r' H1 H2. lia.
Qed.
Lemma ceil_td_spec x r : ceil_td_days x = Ok r ->
  r mod 86400000000 = 0 /\ x <= r /\ forall r', r' mod 86400000000 = 0 -> x <= r' -> r <= r'.
Proof.
  unfold ceil_td_days. rewrite US_DAY_val. destruct (Z.eqb_spec (x mod 86400000000) 0).
  - intros [= <-]. split; [lia|]. split; [lia|]. intros r' H1 H2. lia.
  - intros H. apply bind_ok in H as (y & H1 & H2). apply timedelta_ok in H1 as [_ ->].
    apply timedelta_ok in H2 as [_ ->]. split; [lia|]. split; [lia|]. intros r' H1 H2. lia.
Qed.
Lemma td_err x e : timedelta x = Err e -> e = OverflowError /\ ~ TD_MIN <= x <= TD_MAX.
Proof. unfold timedelta. destruct (_ && _) eqn:EB; [discriminate|]. intros [= <-]. split; [easy|lia]. Qed.
(** They fail only when the result is out of range, or (ceil) when the sum of the value
    and a day is. *)
Lemma floor_td_err x e : TD_MIN <= x <= TD_MAX -> floor_td_days x = Err e ->
  e = OverflowError /\ x - x mod US_DAY < TD_MIN.
Proof. intros HX H. apply td_err in H as [-> H]. split; [easy|]. rewrite US_DAY_val in *. lia. Qed.
Lemma ceil_td_err x e : TD_MIN <= x <= TD_MAX -> ceil_td_days x = Err e ->
  e = OverflowError /\ x mod US_DAY <> 0 /\ TD_MAX < x + US_DAY.
Proof.
  intros HX. unfold ceil_td_days. rewrite US_DAY_val. destruct (Z.eqb_spec (x mod 86400000000) 0) as [|Hn]; [discriminate|].
  destruct (timedelta (x + 86400000000)) as [y|e'] eqn:E1.
  - apply timedelta_ok in E1 as [H1 ->]. cbn [bind]. intros H. apply td_err in H as [-> H]. lia.
  - cbn. intros [= ->]. apply td_err in E1 as [-> H]. split; [easy|]. split; [easy|]. lia.
Qed.

(** ** Validation (C17) *)
Lemma dt_gt_false b e : dt_gt E b e = Ok false -> not_before E b e.
Proof.
  unfold dt_gt, dt_lt, dt_cmp, not_before, naive. intros H.
  destruct (dtz b) as [[n|o|]|], (dtz e) as [[m|o'|]|]; cbn [same_tz orb] in H; try discriminate.
  all: try (apply rmap_ok in H as (c & [= <-] & H);
    match type of H with context [?a ?= ?b] => destruct (Z.compare_spec a b) end; try discriminate; lia).
  rewrite (N.eqb_sym n m). destruct (N.eqb m n).
  all: apply rmap_ok in H as (c & [= <-] & H);
    match type of H with context [?a ?= ?b] => destruct (Z.compare_spec a b) end; try discriminate; lia.
Qed.
Lemma vprec_day t d : validate_precision E t d = Ok tt -> ts_prec t = PDay -> floating d /\ midnight d.
Proof.
  unfold validate_precision. intros H HP. rewrite HP in H. cbn [is_day] in H.
  apply bind_guard in H as [H1 H2]. apply guard_ok in H2.
  assert (HN : dtz d = None) by (unfold naive in H2; destruct (dtz d); easy). split; [easy|].
  rewrite dt_eqb_naive in H1 by (unfold floor_midnight; easy). unfold floor_midnight, midnight in *. cbn [wall] in H1.
  rewrite US_DAY_val in H1. lia.
Qed.
Lemma validate_consistent t : validate E t = Ok tt -> consistent E t.
Proof.
  intros HV. unfold validate in HV. apply bind_tt in HV as [HB HK]. unfold validate_base in HB.
  destruct (ts_begin t) as [b|] eqn:Eb.
  - apply bind_tt in HB as [H1 HB]. apply bind_tt in HB as [HE HD].
    assert (Hd : forall d, ts_dur t = Some d -> 0 <= d /\ (ts_prec t = PDay -> US_DAY <= d /\ d mod US_DAY <= 500000)).
    { intros d Ed. rewrite Ed in HD. apply bind_guard in HD as [HD1 HD]. apply bind_guard in HD as [HD2 HD].
      split; [lia|]. intros HP. rewrite HP in *. cbn [is_day td_cache] in *.
      cbn [bind] in HD. apply guard_ok in HD. unfold td_nearly_zero in HD. lia. }
    destruct (ts_end t) as [e|] eqn:Ee.
    + apply bind_tt in HE as [H2 HE]. apply bind_ok in HE as (g & HG & HE). apply bind_guard in HE as [-> HE].
      apply bind_tt in HE as [HL HE]. apply bind_guard in HE as [HX HE]. clear HE.
      constructor.
      * intros b' e' Hb' He'. assert (b' = b) by congruence. assert (e' = e) by congruence. subst. now apply dt_gt_false.
      * right. destruct (ts_dur t); easy.
      * congruence.
      * congruence.
      * intros d Hd'. now apply Hd in Hd'.
      * intros b' HP Hb'. assert (b' = b) by congruence. subst. now apply (vprec_day t).
      * intros e' HP He'. assert (e' = e) by congruence. subst. now apply (vprec_day t).
      * intros b' e' HP Hb' He'. assert (b' = b) by congruence. assert (e' = e) by congruence. subst.
        destruct (vprec_day t b H1 HP) as [Fb Mb]. destruct (vprec_day t e H2 HP) as [Fe Me].
        rewrite HP in HL. cbn [is_day] in HL. apply bind_ok in HL as (b1 & Hb1 & HL).
        unfold dt_add in Hb1. destruct (wall_ok _); [|discriminate]. injection Hb1 as <-.
        apply bind_ok in HL as (lt & Hlt & HL). apply guard_ok in HL. subst lt.
        unfold dt_lt in Hlt. rewrite dt_cmp_naive in Hlt by (cbn; easy). cbn in Hlt. injection Hlt as Hlt.
        destruct (Z.compare_spec (wall e) (wall b + US_DAY)); try discriminate; rewrite US_DAY_val in *; lia.
      * intros d HP Hd'. destruct (ts_dur t); easy.
    + constructor; try congruence.
      * now left.
      * intros d Hd'. now apply Hd in Hd'.
      * intros b' HP Hb'. assert (b' = b) by congruence. subst. now apply (vprec_day t).
      * intros d HP Hd'. apply Hd in Hd'. rewrite US_DAY_val in Hd'. now apply Hd'.
  - apply bind_tt in HB as [HE HD]. apply guard_ok in HD.
    assert (HN : ts_dur t = None) by (destruct (ts_dur t); easy).
    constructor; try congruence.
    + now right.
    + intros Hk He. rewrite Hk in HK. apply guard_ok in HK. destruct (ts_end t); easy.
    + intros e HP He. rewrite He in HE. now apply (vprec_day t).
Qed.
Lemma validate_tt t u : validate E t = Ok u -> validate E t = Ok tt.
Proof. now destruct u. Qed.
Lemma make_ok k b e d p t : make E k b e d p = Ok t -> t = mk_ts k b e d p /\ validate E t = Ok tt.
Proof. unfold make. intros H. apply bind_tt in H as [H [= <-]]. easy. Qed.
Lemma ts_replace_ok t b e d p t' : ts_replace E t b e d p = Ok t' ->
  t' = mk_ts (ts_kind t) (pick b (ts_begin t)) (pick e (ts_end t)) (pick d (ts_dur t)) (pick p (ts_prec t)) /\
  validate E t' = Ok tt.
Proof. apply make_ok. Qed.

(** ** One zone *)
Lemma compare_shift a b o : (a - o ?= b - o) = (a ?= b).
Proof. destruct (Z.compare_spec a b), (Z.compare_spec (a - o) (b - o)); try easy; lia. Qed.
Lemma dt_cmp_one a b : one_zone a b -> dt_cmp E a b = Ok (wall a ?= wall b).
Proof.
  intros [H HL]. unfold dt_cmp, naive, instant, utcoffset. rewrite <- H.
  destruct (dtz a) as [[n|o|]|]; cbn [same_tz orb tz_off].
  - now rewrite N.eqb_refl.
  - now rewrite compare_shift.
  - now destruct HL.
  - reflexivity.
Qed.
Lemma dt_sub_one a b : one_zone a b -> dt_sub E a b = Ok (wall a - wall b).
Proof.
  intros [H HL]. unfold dt_sub, naive, instant, utcoffset. rewrite <- H.
  destruct (dtz a) as [[n|o|]|]; cbn [same_tz orb tz_off].
  - now rewrite N.eqb_refl.
  - f_equal. lia.
  - now destruct HL.
  - reflexivity.
Qed.
Lemma one_zone_sym a b : one_zone a b -> one_zone b a.
Proof. intros [H1 H2]. split; congruence. Qed.
Lemma naive_one a b : dtz a = dtz b -> naive a = naive b.
Proof. unfold naive. now intros ->. Qed.

(** What validation checks, for a span inside one zone. *)
Lemma valid_dur_iff k b d p : validate E (mk_ts k (Some b) None (Some d) p) = Ok tt <->
  (p = PDay -> floating b /\ midnight b /\ US_DAY <= d) /\ 0 <= d /\
  match p with PDay => d mod US_DAY <= 500000 | PSecond => d mod US_SEC <= 500000 | POther _ => False end.
Proof.
  unfold validate, validate_base, validate_precision. cbn [ts_begin ts_end ts_dur ts_prec ts_kind is_none].
  rewrite bind_tt. cbn [andb negb]. assert (HK : match k with KEvent => guard (false && negb true) ValueError | _ => Ok tt end = Ok tt) by now destruct k.
  cbn [andb negb] in HK. rewrite HK. rewrite bind_tt. cbn [bind]. rewrite !bind_guard.
  rewrite US_SEC_val. pose proof US_DAY_val.
  destruct p as [| |n]; cbn [is_day td_cache bind andb].
  - rewrite bind_guard, !guard_ok. unfold td_nearly_zero, floating, midnight. split.
    + intros (([H1 H2] & H3 & H4 & H5) & _). assert (Hn : dtz b = None) by (unfold naive in H2; destruct (dtz b); easy).
      rewrite dt_eqb_naive in H1 by easy. unfold floor_midnight in H1. cbn [wall] in H1.
      split; [intros _; repeat split; [easy|dlia|dlia]|]. split; dlia.
    + intros (H1 & H2 & H3). destruct (H1 eq_refl) as (H4 & H5 & H6). split; [|easy].
      split; [|split; [|split]].
      * rewrite dt_eqb_naive by easy. unfold floor_midnight, naive. cbn [wall]. rewrite H4. split; dlia.
      * dlia.
      * dlia.
      * dlia.
  - rewrite guard_ok. unfold td_nearly_zero. split.
    + intros ((_ & H3 & _ & H5) & _). split; [easy|]. split; dlia.
    + intros (_ & H2 & H3). split; [|easy]. repeat split; dlia.
  - split; [|easy]. intros ((_ & _ & _ & HX) & _). discriminate.
Qed.
Lemma eff_end_dur k b d p : eff_end E (mk_ts k (Some b) None (Some d) p) = rmap Some (dt_add b d).
Proof. reflexivity. Qed.
Lemma valid_end_iff k b e p : one_zone b e -> stored b -> stored e ->
  (validate E (mk_ts k (Some b) (Some e) None p) = Ok tt <->
   (p = PDay -> floating b /\ midnight b /\ midnight e /\ wall b + US_DAY <= wall e) /\ wall b <= wall e /\
   (wall e <> wall b -> match p with PDay => True | PSecond => (wall e - wall b) mod US_SEC <= 500000 | POther _ => False end)).
Proof.
  intros HZ Sb Se. pose proof (one_zone_sym _ _ HZ) as HZ'. destruct (HZ) as [HZ1 HZ2].
  unfold validate, validate_base. cbn [ts_begin ts_end ts_dur ts_prec ts_kind is_none eff_duration].
  assert (HK : match k with KEvent => guard (false && negb false) ValueError | _ => Ok tt end = Ok tt) by now destruct k.
  rewrite !bind_tt, HK. unfold dt_gt, dt_lt. rewrite dt_cmp_one by easy. cbn [rmap bind negb].
  rewrite dt_sub_one by easy. cbn [rmap bind].
  rewrite !bind_tt, !guard_ok.
  assert (HN : naive b && negb (naive e) = false /\ negb (naive b) && naive e = false).
  { rewrite (naive_one _ _ HZ1). destruct (naive e); easy. }
  assert (HC : (match wall e ?= wall b with Lt => true | _ => false end) = false <-> wall b <= wall e).
  { destruct (Z.compare_spec (wall e) (wall b)); split; try discriminate; try easy; dlia. }
  rewrite HC. unfold validate_precision. cbn [ts_prec]. pose proof US_DAY_val as HD. pose proof US_SEC_val as HS.
  destruct p as [| |n]; cbn [is_day td_cache bind].
  - rewrite !bind_guard, !guard_ok. split.
    + intros (((H1 & H2) & ((H3 & H4) & H5 & H6 & _) & _) & _).
      assert (Hn : dtz b = None) by (unfold naive in H2; destruct (dtz b); easy).
      assert (Hn' : dtz e = None) by congruence.
      rewrite dt_eqb_naive in H1, H3 by easy. unfold floor_midnight in H1, H3. cbn [wall] in H1, H3.
      split; [|split; [easy|easy]]. intros _. unfold floating, midnight. split; [easy|]. split; [dlia|]. split; [dlia|].
      apply bind_ok in H6 as (b1 & Hb1 & H6). unfold dt_add in Hb1. destruct (wall_ok (wall b + _)); [|discriminate].
      injection Hb1 as <-. apply bind_ok in H6 as (lt & Hlt & H6). apply guard_ok in H6. subst lt.
      rewrite dt_cmp_naive in Hlt by easy. cbn in Hlt. injection Hlt as Hlt.
      destruct (Z.compare_spec (wall e) (wall b + US_DAY)); try discriminate; dlia.
    + intros (H1 & H2 & _). destruct (H1 eq_refl) as (Hn & Mb & Me & HL). unfold floating, midnight in *.
      assert (Hn' : dtz e = None) by congruence. destruct Se as [We _]. destruct Sb as [Wb _].
      split; [|easy]. split; [|split; [split; [|split; [easy|split; [|split; [easy|]]]]|easy]].
      * rewrite dt_eqb_naive by easy. unfold floor_midnight, naive. cbn [wall]. rewrite Hn. split; dlia.
      * rewrite dt_eqb_naive by easy. unfold floor_midnight, naive. cbn [wall]. rewrite Hn'. split; dlia.
      * unfold dt_add. assert (W : wall_ok (wall b + US_DAY) = true) by (unfold wall_ok in *; dlia). rewrite W. cbn [bind].
        rewrite dt_cmp_naive by easy. cbn [wall rmap bind].
        destruct (Z.compare_spec (wall e) (wall b + US_DAY)); try easy; dlia.
      * destruct HN as [-> ->]. repeat split.
        destruct (Z.eqb_spec (wall e - wall b) 0); [easy|]. apply guard_ok. unfold td_nearly_zero.
        rewrite HD in *. assert ((wall e - wall b) mod 86400000000 = 0) by dlia. dlia.
  - split.
    + intros ((_ & (_ & H5 & _ & _ & _ & _ & H6) & _) & _). split; [easy|]. split; [easy|]. intros Hne.
      destruct (Z.eqb_spec (wall e - wall b) 0); [dlia|]. apply guard_ok in H6. unfold td_nearly_zero in H6. dlia.
    + intros (_ & H2 & H3). destruct HN as [-> ->]. repeat split; try easy.
      destruct (Z.eqb_spec (wall e - wall b) 0); [easy|]. apply guard_ok. unfold td_nearly_zero. dlia.
  - split.
    + intros ((_ & (_ & H5 & _ & _ & _ & _ & H6) & _) & _). split; [easy|]. split; [easy|]. intros Hne.
      destruct (Z.eqb_spec (wall e - wall b) 0); [dlia|]. discriminate.
    + intros (_ & H2 & H3). destruct HN as [-> ->]. repeat split; try easy.
      destruct (Z.eqb_spec (wall e - wall b) 0); [easy|]. exfalso. apply H3. dlia.
Qed.

(** ** Changing the end representation (C20) *)
Lemma valid_shape t : validate E t = Ok tt -> ts_begin t <> None ->
  exists b, ts_begin t = Some b /\
   ((exists e, t = mk_ts (ts_kind t) (Some b) (Some e) None (ts_prec t)) \/
    (exists d, t = mk_ts (ts_kind t) (Some b) None (Some d) (ts_prec t)) \/
    t = mk_ts (ts_kind t) (Some b) None None (ts_prec t)).
Proof.
  intros HV HB. apply validate_consistent in HV. destruct t as [k [b|] e d p]; cbn in *; [|congruence].
  exists b. split; [easy|]. destruct (co_excl _ _ HV) as [H|H]; cbn in H; subst.
  - destruct d as [d|]; [right; left; now exists d|right; right; easy].
  - destruct e as [e|]; [left; now exists e|right; right; easy].
Qed.
Lemma convert_to_duration k b e p : one_zone b e -> stored b -> stored e -> fold e = false -> p <> POther 0 ->
  (forall n, p <> POther n) ->
  validate E (mk_ts k (Some b) (Some e) None p) = Ok tt ->
  exists t', ts_convert_end E (mk_ts k (Some b) (Some e) None p) TDuration = Ok t' /\
    same_reading E (mk_ts k (Some b) (Some e) None p) t' /\ end_representation t' = Some RDuration.
Proof.
  intros HZ Sb Se HF _ HP HV. apply valid_end_iff in HV as (H1 & H2 & H3); [|easy|easy|easy].
  unfold ts_convert_end. cbn [end_representation ts_dur ts_end ts_kind target_is_end andb].
  cbn [eff_duration ts_dur ts_end ts_begin]. rewrite dt_sub_one by now apply one_zone_sym. cbn [rmap bind].
  unfold ts_replace, make. cbn [ts_kind ts_begin ts_end ts_dur ts_prec pick].
  destruct (validate E _) as [[]|x] eqn:EV.
  - cbn [bind]. eexists. split; [easy|]. split; [|easy]. unfold same_reading. cbn [ts_kind ts_begin ts_prec].
    split; [easy|]. split; [easy|]. split; [easy|]. split.
    + cbn. unfold dt_add. replace (wall b + (wall e - wall b)) with (wall e) by dlia.
      destruct Se as [We _]. rewrite We. cbn [rmap]. destruct HZ as [-> _]. destruct e as [w f z]. cbn in *. now subst f.
    + cbn. rewrite dt_sub_one by now apply one_zone_sym. easy.
  - exfalso. pose proof US_DAY_val as HD. pose proof US_SEC_val as HS.
    assert (HV : validate E (mk_ts k (Some b) None (Some (wall e - wall b)) p) = Ok tt).
    { apply valid_dur_iff. split; [|split].
      - intros Hp. destruct (H1 Hp) as (Q1 & Q2 & Q3 & Q4). split; [easy|]. split; [easy|]. dlia.
      - dlia.
      - destruct p as [| |n].
        + destruct (H1 eq_refl) as (Q1 & Q2 & Q3 & Q4). unfold midnight in *. rewrite HD in *. dlia.
        + destruct (Z.eq_dec (wall e) (wall b)) as [Heq|Hne]; [rewrite Heq, Z.sub_diag; easy|auto].
        + now destruct (HP n). }
    congruence.
Qed.
Lemma convert_to_end k b d p tg : stored b -> target_is_end k tg = true ->
  wall_ok (wall b + d) = true -> (p = PDay -> d mod US_DAY = 0) ->
  validate E (mk_ts k (Some b) None (Some d) p) = Ok tt ->
  exists t', ts_convert_end E (mk_ts k (Some b) None (Some d) p) tg = Ok t' /\
    same_reading E (mk_ts k (Some b) None (Some d) p) t' /\ end_representation t' = Some REnd.
Proof.
  intros Sb HT HW HA HV. apply valid_dur_iff in HV as (H1 & H2 & H3).
  set (e := mk_dt (wall b + d) false (dtz b)).
  assert (HZ : one_zone b e) by (destruct Sb; now split).
  assert (HE : ts_convert_end E (mk_ts k (Some b) None (Some d) p) tg =
               ts_replace E (mk_ts k (Some b) None (Some d) p) None (Some (Some e)) (Some None) None).
  { unfold ts_convert_end. cbn [end_representation ts_dur ts_end ts_kind andb]. rewrite HT.
    rewrite eff_end_dur. unfold dt_add. rewrite HW. cbn [rmap bind]. destruct tg; easy. }
  rewrite HE. unfold ts_replace, make. cbn [ts_kind ts_begin ts_end ts_dur ts_prec pick].
  assert (HV : validate E (mk_ts k (Some b) (Some e) None p) = Ok tt).
  { pose proof US_DAY_val as HD. pose proof US_SEC_val as HS.
    apply valid_end_iff; [easy|easy|split; [easy|now destruct Sb]|]. unfold e. cbn [wall].
    split; [|split].
    - intros Hp. destruct (H1 Hp) as (Q1 & Q2 & Q3). specialize (HA Hp). unfold midnight in *. cbn [wall].
      rewrite HD in *. repeat split; [easy|easy|dlia|dlia].
    - dlia.
    - intros Hne. destruct p; [easy| |easy]. now replace (wall b + d - wall b) with d by dlia. }
  rewrite HV. cbn [bind]. eexists. split; [easy|]. split; [|easy]. unfold same_reading.
  cbn [ts_kind ts_begin ts_prec]. split; [easy|]. split; [easy|]. split; [easy|]. split.
  - rewrite eff_end_dur. unfold dt_add. rewrite HW. easy.
  - cbn. rewrite dt_sub_one by now apply one_zone_sym. cbn. do 2 f_equal. dlia.
Qed.

(** ** make_all_day (C21) *)
Lemma make_all_day_one t b e : validate E t = Ok tt -> ts_prec t <> PDay ->
  ts_begin t = Some b -> eff_end E t = Ok (Some e) -> stored b -> stored e -> one_zone b e ->
  match ts_make_all_day E t with
  | Ok t' => exists b' e', ts_begin t' = Some b' /\ eff_end E t' = Ok (Some e') /\ ts_prec t' = PDay /\
      ts_kind t' = ts_kind t /\
      floating b' /\ floating e' /\ midnight b' /\ midnight e' /\
      wall b' = wall (floor_midnight b) /\
      wall e' = Z.max (wall b' + US_DAY) (if wall e mod US_DAY =? 0 then wall e else wall (floor_midnight e) + US_DAY) /\
      eff_duration E t' = Ok (Some (wall e' - wall b')) /\
      (ts_dur t = None -> ts_dur t' = None) /\ (ts_dur t <> None -> ts_end t' = None /\ ts_dur t' <> None)
  | Err x => x = OverflowError /\ WALL_END <= Z.max (wall (floor_midnight b) + US_DAY) (if wall e mod US_DAY =? 0 then wall e else wall (floor_midnight e) + US_DAY)
  end.
Proof.
  intros HV HP HB HEE Sb Se HZ.
  assert (HLe : wall b <= wall e).
  { apply validate_consistent in HV. unfold eff_end in HEE. destruct (ts_end t) as [e0|] eqn:Ee.
    - injection HEE as ->. pose proof (co_order _ _ HV _ _ HB Ee) as H. unfold not_before in H.
      destruct HZ as [Hz Hl]. unfold instant, utcoffset in H. rewrite <- Hz in H.
      destruct (dtz b) as [[n|o|]|]; [|cbn in H; dlia|congruence|easy].
      now rewrite N.eqb_refl in H.
    - rewrite HB in HEE. apply bind_ok in HEE as (d & Hd & HEE). destruct d as [d|]; [|discriminate].
      apply rmap_ok in HEE as (x & Hx & [= <-]). unfold dt_add in Hx. destruct (wall_ok (wall b + d)); [|discriminate].
      injection Hx as <-. cbn [wall]. unfold eff_duration in Hd. rewrite Ee in Hd. destruct (ts_dur t) as [d0|] eqn:Ed.
      + injection Hd as ->. pose proof (co_dur_pos _ _ HV _ Ed). dlia.
      + destruct (ts_kind t); try discriminate. injection Hd as <-. pose proof US_DAY_val. destruct (is_day _); dlia. }
  unfold ts_make_all_day, is_all_day. assert (HD : is_day (ts_prec t) = false) by (destruct (ts_prec t); easy).
  rewrite HD, HB, HEE. cbn [option_map bind]. set (b' := dt_replace_tz (floor_midnight b) None).
  rewrite ceil_value by easy. pose proof US_DAY_val as HDv.
  set (ce := if wall e mod US_DAY =? 0 then wall e else wall (floor_midnight e) + US_DAY).
  assert (HC : (if wall e mod US_DAY =? 0 then Ok (mk_dt (wall e) false (dtz e)) else dt_add (floor_midnight e) US_DAY) =
    if wall_ok ce then Ok (mk_dt ce false (dtz e)) else Err OverflowError).
  { unfold ce. destruct (Z.eqb_spec (wall e mod US_DAY) 0).
    - destruct Se as [-> _]. easy.
    - reflexivity. }
  rewrite HC. assert (Hce : midnight (mk_dt ce false None) /\ wall e <= ce /\ ce < wall e + US_DAY /\ ce <= wall (floor_midnight e) + US_DAY).
  { unfold ce, midnight, floor_midnight. cbn [wall]. rewrite HDv. destruct (Z.eqb_spec (wall e mod 86400000000) 0); dlia. }
  clearbody ce.
  assert (Hb' : wall b' = wall (floor_midnight b)) by easy.
  assert (Mb' : midnight b') by (unfold midnight; rewrite Hb'; apply floor_spec).
  assert (Lb' : wall b' <= wall b) by (rewrite Hb'; apply floor_spec).
  assert (Wb' : wall_ok (wall b') = true) by (rewrite Hb'; apply floor_wall_ok; apply Sb).
  assert (Fe : 0 <= wall (floor_midnight e) /\ wall (floor_midnight e) <= wall e).
  { split; [|apply floor_spec]. destruct Se as [We _]. apply floor_wall_ok in We. unfold wall_ok in We. dlia. }
  destruct (wall_ok ce) eqn:Wce.
  2: { split; [easy|]. unfold wall_ok in Wce. dlia. }
  cbn [bind]. unfold dt_replace_tz at 1 2 3. cbn [wall fold dtz]. unfold opt_dt_eqb.
  rewrite dt_eqb_naive by easy. cbn [wall].
  assert (Hfin : forall e', wall e' = Z.max (wall b' + US_DAY) ce -> dtz e' = None -> fold e' = false -> wall_ok (wall e') = true ->
    match (match end_representation t with
           | Some RDuration => do d <- dt_sub E e' b'; ts_replace E t (Some (Some b')) (Some None) (Some (Some d)) (Some PDay)
           | _ => ts_replace E t (Some (Some b')) (Some (Some e')) (Some None) (Some PDay)
           end) with
    | Ok t' => exists b' e', ts_begin t' = Some b' /\ eff_end E t' = Ok (Some e') /\ ts_prec t' = PDay /\
      ts_kind t' = ts_kind t /\
      floating b' /\ floating e' /\ midnight b' /\ midnight e' /\
      wall b' = wall (floor_midnight b) /\ wall e' = Z.max (wall b' + US_DAY) ce /\
      eff_duration E t' = Ok (Some (wall e' - wall b')) /\
      (ts_dur t = None -> ts_dur t' = None) /\ (ts_dur t <> None -> ts_end t' = None /\ ts_dur t' <> None)
    | Err x => x = OverflowError /\ WALL_END <= Z.max (wall (floor_midnight b) + US_DAY) ce
    end).
  { intros e' We' Ze' Fe' Oe'.
    assert (Z1 : one_zone b' e') by (split; [easy|discriminate]). assert (Z2 : one_zone e' b') by now apply one_zone_sym.
    assert (Sb' : stored b') by (split; [easy|discriminate]). assert (Se' : stored e') by (split; [easy|congruence]).
    assert (Me' : midnight e').
    { destruct Hce as [Mce _]. unfold midnight in *. rewrite We'. cbn [wall] in Mce. rewrite HDv. dlia. }
    unfold ts_replace, make. cbn [pick]. rewrite dt_sub_one by easy. cbn [bind].
    assert (V1 : validate E (mk_ts (ts_kind t) (Some b') (Some e') None PDay) = Ok tt).
    { apply valid_end_iff; [easy|easy|easy|]. split; [|split; [dlia|easy]].
      intros _. split; [easy|]. split; [easy|]. split; [easy|]. dlia. }
    assert (V2 : validate E (mk_ts (ts_kind t) (Some b') None (Some (wall e' - wall b')) PDay) = Ok tt).
    { apply valid_dur_iff. split; [|split; [dlia|]].
      - intros _. split; [easy|]. split; [easy|]. dlia.
      - unfold midnight in *. rewrite HDv. dlia. }
    assert (D1 : eff_end E (mk_ts (ts_kind t) (Some b') None (Some (wall e' - wall b')) PDay) = Ok (Some e')).
    { rewrite eff_end_dur. unfold dt_add. replace (wall b' + (wall e' - wall b')) with (wall e') by dlia. rewrite Oe'. cbn.
      destruct e' as [w f z]. cbn in *. now subst. }
    unfold end_representation. destruct (ts_dur t) as [d|] eqn:Ed.
    - rewrite V2. cbn [bind]. exists b', e'. cbn [ts_begin ts_prec ts_kind ts_dur ts_end].
      do 11 (split; [first [easy | exact D1]|]). split; [discriminate|]. easy.
    - destruct (ts_end t); rewrite V1; cbn [bind]; exists b', e'; cbn [ts_begin ts_prec ts_kind ts_dur ts_end];
      do 10 (split; [easy|]); (split; [cbn; now rewrite dt_sub_one by easy|]); easy. }
  destruct (Z.eqb_spec ce (wall b')) as [Heq|Hne].
  - unfold dt_add at 1. cbn [wall fold dtz]. destruct (wall_ok (ce + US_DAY)) eqn:Wd.
    + cbn [rmap bind]. apply (Hfin (mk_dt (ce + US_DAY) false None)); cbn [wall]; [dlia|easy|easy|easy].
    + cbn [rmap bind]. split; [easy|]. unfold wall_ok in Wd. dlia.
  - cbn [bind]. apply (Hfin (mk_dt ce false None)); cbn [wall]; [|easy|easy|easy].
    destruct Hce as [Mce Hce]. unfold midnight in *. cbn [wall] in Mce. rewrite HDv in *. dlia.
Qed.

Lemma all_day_smallest t b e : validate E t = Ok tt -> ts_prec t <> PDay ->
  ts_begin t = Some b -> eff_end E t = Ok (Some e) -> stored b -> stored e -> one_zone b e ->
  match ts_make_all_day E t with
  | Ok t' => exists b' e', ts_begin t' = Some b' /\ eff_end E t' = Ok (Some e') /\ ts_prec t' = PDay /\
      ts_kind t' = ts_kind t /\ floating b' /\ floating e' /\ midnight b' /\ midnight e' /\
      (wall b' <= wall b /\ wall e <= wall e' /\ wall b' + US_DAY <= wall e') /\
      (forall m, midnight m -> wall m <= wall b -> wall m <= wall b') /\
      (forall m, midnight m -> wall e <= wall m -> wall b' + US_DAY <= wall m -> wall e' <= wall m) /\
      (ts_dur t = None -> ts_dur t' = None) /\ (ts_dur t <> None -> ts_end t' = None /\ ts_dur t' <> None)
  | Err x => x = OverflowError /\ forall m, midnight m -> wall b < wall m -> wall e <= wall m -> wall_ok (wall m) = false
  end.
Proof.
  intros H1 H2 H3 H4 H5 H6 H7. pose proof (make_all_day_one t b e H1 H2 H3 H4 H5 H6 H7) as H.
  destruct (ts_make_all_day E t) as [t'|x].
  - destruct H as (b' & e' & Q1 & Q2 & Q3 & Q4 & Q5 & Q6 & Q7 & Q8 & Q9 & Q10 & Q11 & Q12 & Q13).
    exists b', e'. do 8 (split; [easy|]). unfold midnight, floor_midnight in *. cbn [wall] in *. rewrite US_DAY_val in *.
    split; [destruct (Z.eqb_spec (wall e mod 86400000000) 0); lia|].
    split; [intros m Hm1 Hm2; lia|].
    split; [intros m Hm1 Hm2 Hm3; destruct (Z.eqb_spec (wall e mod 86400000000) 0); lia|]. easy.
  - destruct H as [-> H]. split; [easy|]. intros m Hm1 Hm2 Hm3.
    unfold midnight, floor_midnight, wall_ok in *. cbn [wall] in *. rewrite US_DAY_val in *.
    destruct (Z.eqb_spec (wall e mod 86400000000) 0); lia.
Qed.
Lemma all_day_excess t b e t' b' e' : validate E t = Ok tt -> ts_prec t <> PDay ->
  ts_begin t = Some b -> eff_end E t = Ok (Some e) -> stored b -> stored e -> one_zone b e ->
  ts_make_all_day E t = Ok t' -> ts_begin t' = Some b' -> eff_end E t' = Ok (Some e') ->
  wall b - wall b' < US_DAY /\
  (wall e' - wall e < US_DAY \/ (wall e = wall b /\ midnight b /\ wall e' = wall e + US_DAY)).
Proof.
  intros H1 H2 H3 H4 H5 H6 H7 HT Hb' He'. pose proof (make_all_day_one t b e H1 H2 H3 H4 H5 H6 H7) as H.
  rewrite HT in H. destruct H as (b0 & e0 & Q1 & Q2 & Q3 & Q4 & Q5 & Q6 & Q7 & Q8 & Q9 & Q10 & _).
  assert (b0 = b') by congruence. assert (e0 = e') by congruence. subst b0 e0.
  assert (HL : wall b <= wall e).
  { clear - H1 H3 H4 H7. pose proof (validate_consistent _ H1) as HC. unfold eff_end in H4.
    destruct (ts_end t) as [e0|] eqn:Ee.
    - injection H4 as ->. pose proof (co_order _ _ HC _ _ H3 Ee) as H. unfold not_before in H.
      destruct H7 as [Hz Hl]. unfold instant, utcoffset in H. rewrite <- Hz in H.
      destruct (dtz b) as [[n|o|]|]; [|cbn in H; lia|congruence|easy]. now rewrite N.eqb_refl in H.
    - rewrite H3 in H4. apply bind_ok in H4 as (d & Hd & H4). destruct d as [d|]; [|discriminate].
      apply rmap_ok in H4 as (x & Hx & [= <-]). unfold dt_add in Hx. destruct (wall_ok (wall b + d)); [|discriminate].
      injection Hx as <-. cbn [wall]. unfold eff_duration in Hd. rewrite Ee in Hd. destruct (ts_dur t) as [d0|] eqn:Ed.
      + injection Hd as ->. pose proof (co_dur_pos _ _ HC _ Ed). lia.
      + destruct (ts_kind t); try discriminate. injection Hd as <-. pose proof US_DAY_val. destruct (is_day _); lia. }
  unfold midnight, floor_midnight in *. cbn [wall] in *. rewrite US_DAY_val in *. split; [lia|].
  destruct (Z.eqb_spec (wall e mod 86400000000) 0); lia.
Qed.
Lemma all_day_idem t t' : ts_make_all_day E t = Ok t' -> ts_make_all_day E t' = Ok t'.
Proof.
  intros H. assert (HD : ts_prec t' = PDay).
  { unfold ts_make_all_day, is_all_day in H. destruct (is_day (ts_prec t)) eqn:EP.
    - injection H as <-. now destruct (ts_prec t).
    - apply bind_ok in H as (e0 & _ & H). apply bind_ok in H as (e & _ & H).
      destruct (end_representation t) as [[|]|].
      + destruct e as [e|]; [|discriminate]. destruct (option_map _ _) as [b|]; [|discriminate].
        apply bind_ok in H as (d & _ & H). now apply ts_replace_ok in H as [-> _].
      + now apply ts_replace_ok in H as [-> _].
      + now apply ts_replace_ok in H as [-> _]. }
  unfold ts_make_all_day, is_all_day. now rewrite HD.
Qed.
Lemma all_day_no_end k b p : k <> KEvent -> p <> PDay ->
  ts_make_all_day E (mk_ts k (Some b) None None p) =
  Ok (mk_ts k (Some (mk_dt (wall b - wall b mod US_DAY) false None)) None None PDay).
Proof.
  intros HK HP. unfold ts_make_all_day, is_all_day. cbn [ts_prec].
  assert (HD : is_day p = false) by now destruct p. rewrite HD.
  unfold eff_end, eff_duration. cbn [ts_begin ts_end ts_dur ts_kind ts_prec option_map end_representation].
  assert (HE : (do d <- match k with KEvent => Ok (Some (if is_day p then US_DAY else 0)) | _ => Ok None end;
    match d with Some d => rmap Some (dt_add b d) | None => Ok None end) = Ok None) by now destruct k.
  rewrite HE. cbn [bind]. unfold ts_replace, make. cbn [pick ts_kind].
  unfold validate, validate_base, validate_precision. cbn [ts_begin ts_end ts_dur ts_prec ts_kind is_day].
  rewrite dt_eqb_naive by easy. unfold dt_replace_tz, floor_midnight. cbn [wall fold dtz naive].
  pose proof US_DAY_val as HDv.
  assert (HM : (wall b - wall b mod US_DAY - (wall b - wall b mod US_DAY) mod US_DAY =? wall b - wall b mod US_DAY) = true) by dlia.
  rewrite HM. cbn [negb guard bind]. destruct k; easy.
Qed.
Lemma seconds_keyerror b d p : stored b -> wall_ok (wall b + d) = true -> 0 < d ->
  ts_convert_end E (mk_ts KEvent (Some b) (Some (mk_dt (wall b + d) false (dtz b))) None (POther p)) TDuration = Err KeyError /\
  make E KEvent (Some b) (Some (mk_dt (wall b + d) false (dtz b))) None (POther p) = Err KeyError /\
  make E KEvent (Some b) None (Some d) (POther p) = Err KeyError.
Proof.
  intros [HW HL] HD Hd. set (e := mk_dt (wall b + d) false (dtz b)).
  assert (HZ : one_zone e b) by now split. assert (HZ' : one_zone b e) by now split.
  assert (H3 : make E KEvent (Some b) None (Some d) (POther p) = Err KeyError).
  { unfold make, validate, validate_base. cbn [ts_begin ts_end ts_dur ts_prec ts_kind is_day validate_precision bind].
    unfold guard. assert (Hlt : (d <? 0) = false) by lia. rewrite Hlt. reflexivity. }
  assert (HS : wall e - wall b = d) by (unfold e; cbn; lia).
  split; [|split; [|exact H3]].
  - unfold ts_convert_end. cbn [end_representation ts_dur ts_end ts_kind target_is_end andb eff_duration ts_begin].
    rewrite dt_sub_one by easy. cbn [rmap bind]. unfold ts_replace. cbn [pick ts_kind ts_begin ts_end ts_dur ts_prec].
    now rewrite HS.
  - unfold make, validate, validate_base. cbn [ts_begin ts_end ts_dur ts_prec ts_kind is_day validate_precision bind is_none].
    unfold validate_precision, dt_gt, dt_lt. rewrite dt_cmp_one by easy. cbn [ts_prec is_day rmap bind eff_duration ts_dur ts_end ts_begin].
    rewrite dt_sub_one by easy. cbn [rmap bind]. rewrite HS.
    destruct (Z.compare_spec (wall e) (wall b)); try lia. cbn [guard bind negb].
    assert (HN : naive e = naive b) by easy. rewrite HN. destruct (naive b); cbn [andb negb guard bind];
    (destruct (Z.eqb_spec d 0); [lia|reflexivity]).
Qed.
Lemma tolerance_valueerror b : stored b -> dtz b = None -> midnight b -> wall_ok (wall b + US_DAY + 400000) = true ->
  validate E (mk_ts KEvent (Some b) None (Some (US_DAY + 400000)) PDay) = Ok tt /\
  ts_convert_end E (mk_ts KEvent (Some b) None (Some (US_DAY + 400000)) PDay) TEnd = Err ValueError.
Proof.
  intros HS HN HM HW. split.
  - apply valid_dur_iff. split; [|split].
    + intros _. split; [easy|]. split; [easy|]. dlia.
    + dlia.
    + vm_compute. discriminate.
  - unfold ts_convert_end. cbn [end_representation ts_dur ts_end ts_kind target_is_end andb].
    rewrite eff_end_dur. unfold dt_add. rewrite Z.add_assoc, HW, HN. cbn [rmap bind].
    unfold ts_replace. cbn [pick ts_kind ts_begin ts_end ts_dur ts_prec].
    unfold make, validate, validate_base, validate_precision. cbn [ts_begin ts_end ts_dur ts_prec ts_kind is_day].
    rewrite !dt_eqb_naive by easy. unfold floor_midnight. cbn [wall].
    unfold midnight in HM. rewrite US_DAY_val in *.
    assert (Q1 : (wall b - wall b mod 86400000000 =? wall b) = true) by lia. rewrite Q1. unfold naive at 1. rewrite HN.
    cbn [negb guard bind].
    match goal with |- context [?x =? ?y] => assert (Q2 : (x =? y) = false) by lia end. rewrite Q2. reflexivity.
Qed.
End S.
