(** * Proofs: reading a period *)
From Verif Require Import M_Base M_Codec M_Cal M_Time M_Span M_Dt S_Codec S_Dt S_Period P_Base P_Codec P_Cal P_Dt.
From Coq Require Import Lia ZifyBool ZifyNat ZifyN.
Open Scope Z_scope.

Section Period.
Variables (D : zone_db) (E : env) (n : N).
Hypothesis UTC : z_utc D = TzObj n.

Lemma day_mid v d : day_value D v d -> wall d mod US_SEC = 0.
Proof.
  intros (T & _). rewrite <- (wall_of_fields (wall d)). destruct T; unfold wall_of; cbn [f_y f_m f_d f_H f_M f_S f_us];
  unfold mk_wall, US_DAY, US_SEC; lia.
Qed.
Lemma day_nonempty v d : day_value D v d -> v <> [].
Proof. intros (T & _) ->. apply date_text_len in T. cbn in T. lia. Qed.
Lemma day_parse v ps zs : v <> [] -> no_tzid ps ->
  (exists d, day_value D v d /\ parse_dt D FDate v ps zs = Ok (d, ps, zs)) \/
  (no_day D v /\ parse_dt D FDate v ps zs = Err ValueError).
Proof.
  intros Hv Hp. rewrite parse_dt_plain by easy. destruct (strptime FDate (unmarked v)) as [w|e] eqn:ES.
  - left. apply strptime_date in ES as (f & T & R & ->). destruct (fields_wall_real f R) as [FE W].
    eexists. split; [|reflexivity]. unfold day_value. cbn [wall fold dtz]. rewrite FE. do 4 (split; [easy|]).
    destruct (utc_mark_dec v) as [U|U]; [left|right]; (split; [exact U|]); [now apply utc_kind_mark|now apply utc_kind_nomark].
  - right. pose proof (strptime_err _ _ _ ES) as ->. split; [|reflexivity]. intros d (T & R & _).
    assert (strptime FDate (unmarked v) = Ok (wall d)); [|congruence]. apply strptime_date. exists (fields_of (wall d)).
    do 2 (split; [easy|]). now rewrite wall_of_fields.
Qed.
Lemma day_one v d d' : day_value D v d -> day_value D v d' -> d = d'.
Proof.
  intros H H'. pose proof (day_nonempty _ _ H) as Hv.
  assert (A : forall x, day_value D v x -> parse_dt D FDate v [] None = Ok (x, [], None)).
  { intros x (T & R & W & F & K). rewrite parse_dt_plain by easy.
    assert (strptime FDate (unmarked v) = Ok (wall x)) as ->.
    { apply strptime_date. exists (fields_of (wall x)). do 2 (split; [easy|]). now rewrite wall_of_fields. }
    destruct x as [w f z]. cbn in *. subst f. destruct K as [[U ->]|[U ->]]; [now rewrite utc_kind_mark|now rewrite utc_kind_nomark]. }
  apply A in H, H'. congruence.
Qed.
Lemma day_parse_ok v d ps zs : no_tzid ps -> day_value D v d -> parse_dt D FDate v ps zs = Ok (d, ps, zs).
Proof.
  intros Hp H. destruct (day_parse v ps zs (day_nonempty _ _ H) Hp) as [(d' & H' & ->)|[N _]]; [|now apply N in H].
  now rewrite (day_one _ _ _ H H').
Qed.
Lemma day_parse_no v ps zs : no_tzid ps -> v <> [] -> no_day D v -> parse_dt D FDate v ps zs = Err ValueError.
Proof. intros Hp Hv N. destruct (day_parse v ps zs Hv Hp) as [(d' & H' & _)|[_ ->]]; [now apply N in H'|easy]. Qed.
Lemma parse_empty ps zs : no_tzid ps -> parse_dt D FDate [] ps zs = Err IndexError.
Proof. intros Hp. unfold parse_dt. now rewrite pop_no_tzid. Qed.

Lemma split_slash a v : ~ In SLASH a -> partition_slash (a ++ SLASH :: v) = (a, Some v).
Proof. intros N. apply (partition_slash_app a v). apply Forall_forall. intros c I ->. now apply N. Qed.
Lemma split_none v : ~ In SLASH v -> exists a, partition_slash v = (a, None).
Proof.
  induction v as [|c v IH]; intros N; [now exists []|]. cbn [partition_slash]. destruct (N.eqb_spec c c_slash) as [->|_].
  - destruct N. now left.
  - destruct IH as [a ->]; [intros I; apply N; now right|]. now exists (c :: a).
Qed.

Lemma make_duration b us : us mod US_SEC = 0 -> make E KBase (Some b) None (Some us) PSecond =
  if us <? 0 then Err ValueError else Ok (mk_ts KBase (Some b) None (Some us) PSecond).
Proof.
  intros M. unfold make, validate, validate_base. cbn [ts_begin ts_end ts_dur ts_prec ts_kind validate_precision is_day bind guard andb].
  unfold guard. destruct (us <? 0); [reflexivity|]. cbn [bind td_cache]. now rewrite M.
Qed.
Lemma make_end b e : wall b mod US_SEC = 0 -> wall e mod US_SEC = 0 -> same_tz (dtz e) (dtz b) = true -> naive b = naive e ->
  make E KBase (Some b) (Some e) None PSecond =
  if wall e <? wall b then Err ValueError else Ok (mk_ts KBase (Some b) (Some e) None PSecond).
Proof.
  intros Mb Me S N. unfold make, validate, validate_base, dt_gt, dt_lt, dt_cmp. cbn [ts_begin ts_end ts_dur ts_prec ts_kind validate_precision is_day bind].
  unfold validate_precision. cbn [ts_prec is_day bind]. rewrite S. cbn [rmap bind]. unfold guard. unfold Z.ltb. rewrite (Z.compare_antisym (wall b) (wall e)).
  assert (R : forall A (r : res A), (do _ <- (if naive b && negb (naive e) then Err ValueError else Ok tt); do _ <- (if negb (naive b) && naive e then Err ValueError else Ok tt); r) = r).
  { intros A r. rewrite N. now destruct (naive e). }
  assert (Z : (wall e - wall b) mod US_SEC = 0) by (unfold US_SEC in *; lia).
  destruct (wall b ?= wall e) eqn:EC; cbn [CompOpp bind is_none negb]; try reflexivity; rewrite R; unfold eff_duration, dt_sub; cbn [ts_dur ts_end ts_begin]; rewrite S;
  cbn [rmap bind td_cache ts_prec]; rewrite Z; destruct (wall e - wall b =? 0); reflexivity.
Qed.
Lemma make_mixed b e : naive b = negb (naive e) -> make E KBase (Some b) (Some e) None PSecond = Err TypeError.
Proof.
  intros N. unfold make, validate, validate_base, dt_gt, dt_lt, dt_cmp, validate_precision. cbn [ts_begin ts_end ts_dur ts_prec ts_kind is_day bind].
  unfold naive in *. destruct (dtz b), (dtz e); try discriminate; cbn; try (destruct t; reflexivity); reflexivity.
Qed.
Lemma naive_mark v d : day_value D v d -> (naive d = false <-> utc_mark v) /\ (utc_mark v \/ ~ utc_mark v).
Proof. intros (_ & _ & _ & _ & [[U Z]|[U Z]]); unfold naive; rewrite Z; cbn; split; tauto || (split; [easy|tauto]). Qed.
Lemma same_marks a v b e : day_value D a b -> day_value D v e -> (utc_mark a <-> utc_mark v) ->
  same_tz (dtz e) (dtz b) = true /\ naive b = naive e.
Proof.
  intros (_ & _ & _ & _ & [[U Z]|[U Z]]) (_ & _ & _ & _ & [[U' Z']|[U' Z']]) I; try tauto; unfold naive; rewrite Z, Z'; [|easy].
  rewrite UTC. cbn. now rewrite N.eqb_refl.
Qed.
Lemma other_marks a v b e : day_value D a b -> day_value D v e -> (utc_mark a <-> ~ utc_mark v) -> naive b = negb (naive e).
Proof. intros (_ & _ & _ & _ & [[U Z]|[U Z]]) (_ & _ & _ & _ & [[U' Z']|[U' Z']]) I; try tauto; unfold naive; rewrite Z, Z'; easy. Qed.
Lemma dur_whole v us : duration_parse v = Ok us -> us mod US_SEC = 0.
Proof. intros H. apply duration_parse_exact in H as (s & _ & -> & _). apply Z_mod_mult. Qed.

(** The branch for a second part that is no duration. *)
Lemma not_P_branch A v (x : A) (y : A) : ~ starts_P v -> match v with 80%N :: _ => x | _ => y end = y.
Proof.
  intros N. destruct v as [|c v]; [reflexivity|]. destruct (N.eqb_spec c 80) as [->|C]; [destruct N; now exists v|].
  destruct c as [|p]; [reflexivity|]. do 7 (destruct p as [p|p|]; try reflexivity). now destruct C.
Qed.
Lemma period_exact v ps zs r : no_tzid ps -> period_gives D v r ->
  period_parse D E v ps zs = match r with Ok t => Ok (t, ps, zs) | Err e => Err e end.
Proof.
  intros Hp H. unfold period_parse. destruct H.
  - destruct (split_none v H) as [a ->]. reflexivity.
  - change (SLASH :: v) with ([] ++ SLASH :: v). rewrite split_slash by easy. rewrite parse_empty by easy. cbn [bind].
    destruct v as [|c v]; [reflexivity|]. destruct c as [|p]; [reflexivity|]. do 7 (destruct p as [p|p|]; try reflexivity).
  - rewrite split_slash by easy. rewrite day_parse_no by easy. cbn [bind].
    destruct v as [|c v]; [reflexivity|]. destruct c as [|p]; [reflexivity|]. do 7 (destruct p as [p|p|]; try reflexivity).
  - rewrite split_slash by easy. destruct H1 as [r ->]. rewrite (day_parse_ok a b) by easy. cbn [bind]. now rewrite H2.
  - rewrite split_slash by easy. destruct H1 as [r ->]. rewrite (day_parse_ok a b) by easy. cbn [bind]. rewrite H2. cbn [bind].
    rewrite make_duration by now apply dur_whole in H2. replace (us <? 0) with true by lia. reflexivity.
  - rewrite split_slash by easy. destruct H1 as [r ->]. rewrite (day_parse_ok a b) by easy. cbn [bind]. rewrite H2. cbn [bind].
    rewrite make_duration by now apply dur_whole in H2. replace (us <? 0) with false by lia. reflexivity.
  - rewrite split_slash by easy. rewrite (day_parse_ok a b) by easy. cbn [bind]. now rewrite parse_empty.
  - rewrite split_slash by easy. rewrite not_P_branch by easy. rewrite (day_parse_ok a b) by easy. cbn [bind]. now rewrite day_parse_no.
  - rewrite split_slash by easy. rewrite not_P_branch by easy. rewrite (day_parse_ok a b) by easy. cbn [bind]. rewrite (day_parse_ok v e) by easy. cbn [bind].
    now rewrite make_mixed by (eapply other_marks; eassumption).
  - rewrite split_slash by easy. rewrite not_P_branch by easy. rewrite (day_parse_ok a b) by easy. cbn [bind]. rewrite (day_parse_ok v e) by easy. cbn [bind].
    destruct (same_marks a v b e) as [S N]; try easy. rewrite make_end by (eauto using day_mid). now replace (wall e <? wall b) with true by lia.
  - rewrite split_slash by easy. rewrite not_P_branch by easy. rewrite (day_parse_ok a b) by easy. cbn [bind]. rewrite (day_parse_ok v e) by easy. cbn [bind].
    destruct (same_marks a v b e) as [S N]; try easy. rewrite make_end by (eauto using day_mid). now replace (wall e <? wall b) with false by lia.
Qed.
Lemma slash_or v : ~ In SLASH v \/ exists a b, v = a ++ SLASH :: b /\ ~ In SLASH a.
Proof.
  induction v as [|c v IH]; [left; easy|]. destruct (N.eq_dec c SLASH) as [->|C]; [right; now exists [], v|].
  destruct IH as [N|(a & b & -> & N)]; [left|right; exists (c :: a), b; split; [reflexivity|]]; intros [I|I]; auto.
Qed.
Lemma starts_P_dec v : starts_P v \/ ~ starts_P v.
Proof. destruct v as [|c v]; [right; intros [? [=]]|]. destruct (N.eq_dec c 80) as [->|C]; [left; now exists v|right; intros [? [= ? ?]]; congruence]. Qed.
Lemma period_total v : exists r, period_gives D v r.
Proof.
  destruct (slash_or v) as [N|(a & b & -> & N)]; [eexists; now apply PG_no_slash|]. destruct a as [|c a]; [eexists; apply PG_no_begin|].
  destruct (day_parse (c :: a) [] None) as [(d & V & _)|[V _]]; try easy; [|eexists; now apply PG_bad_begin].
  destruct (starts_P_dec b) as [P|P].
  - destruct (duration_parse b) as [us|e] eqn:ED; [|eexists; eapply PG_bad_duration; eassumption].
    destruct (Z.ltb_spec us 0); eexists; [eapply PG_negative|eapply PG_duration]; eassumption.
  - destruct b as [|x b]; [eexists; eapply PG_no_end; eassumption|].
    destruct (day_parse (x :: b) [] None) as [(e & V' & _)|[V' _]]; try easy; [|eexists; eapply PG_bad_end; eassumption || easy].
    destruct (utc_mark_dec (c :: a)) as [U|U], (utc_mark_dec (x :: b)) as [U'|U'].
    1,4: destruct (Z.ltb_spec (wall e) (wall d)); eexists; [eapply PG_backwards|eapply PG_end]; eassumption || tauto.
    all: eexists; eapply PG_mixed; eassumption || tauto.
Qed.
End Period.
