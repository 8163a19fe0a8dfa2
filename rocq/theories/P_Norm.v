(** * Proofs about normalisation *)
From Verif Require Import M_Base P_Base M_Codec M_Cal M_Time M_Span S_Span P_Span M_Cmp M_Event S_Event P_Event M_Norm S_Norm.
From Coq Require Import Lia ZifyBool ZifyNat ZifyN.
Open Scope Z_scope.

Section S.
Variable E : env.
Variable utc : tz.

Lemma norm_ignore N d : selected N (naive d) = AIgnore -> normalize_dt E N d = Ok d.
Proof. unfold normalize_dt, nm_action, selected. now intros ->. Qed.
Lemma norm_replace N d : selected N (naive d) = AReplace -> exists d', normalize_dt E N d = Ok d' /\ kept_wall (nm_repl N) d d'.
Proof. unfold normalize_dt, nm_action, selected. intros ->. eexists. split; [reflexivity|]. now repeat split. Qed.
Lemma astz_keeps d z d' : match z with None => True | Some (TzObj n) => good_zone E n | _ => False end -> dt_astimezone E d z = Ok d' ->
  kept_instant E z d d'.
Proof.
  intros HG H. unfold dt_astimezone in H. unfold kept_instant.
  destruct (match z with Some _ => negb (naive d) && same_tz (dtz d) z | None => false end) eqn:EB.
  - injection H as <-. destruct z as [z|]; [|discriminate]. apply andb_true_iff in EB as [EN ES].
    unfold naive in EN. unfold utc_clock. destruct (dtz d) as [[n|o|]|] eqn:Ed, z; cbn in ES; try discriminate.
    apply N.eqb_eq in ES. subst. split; [easy|congruence].
  - assert (HU : wall d - match utcoffset E d with Some o => o | None => env_local_off E (wall d) (fold d) end = utc_clock E d).
    { unfold utc_clock, instant, utcoffset. now destruct (dtz d). }
    rewrite HU in H. destruct (wall_ok (utc_clock E d)); [|discriminate]. destruct z as [[n|o|]|]; try easy; cbn [tz_fromutc] in H.
    + specialize (HG (utc_clock E d)). destruct (env_fromutc E n _) as [w f]. destruct (wall_ok w); [|discriminate].
      injection H as <-. unfold instant, utcoffset. cbn. easy.
    + destruct (wall_ok _); [|discriminate]. injection H as <-. unfold instant, utcoffset. cbn. split; [lia|discriminate].
Qed.
Lemma norm_convert N d d' : selected N (naive d) = AConvert -> repl_ok E N -> normalize_dt E N d = Ok d' -> kept_instant E (nm_repl N) d d'.
Proof. unfold normalize_dt, nm_action, selected. intros ->. apply astz_keeps. Qed.

Lemma convert_none N d d' : nm_repl N = None -> selected N (naive d) = AConvert -> normalize_dt E N d = Ok d' -> dtz d' <> None.
Proof.
  intros HN HS H. apply norm_convert in H; [|easy|unfold repl_ok; now rewrite HN]. destruct H as [_ H]. now rewrite HN in H.
Qed.
Lemma astz_same d n : dtz d = Some (TzObj n) -> dt_astimezone E d (Some (TzObj n)) = Ok d.
Proof. intros H. unfold dt_astimezone, naive. rewrite H. cbn. now rewrite N.eqb_refl. Qed.
Lemma astz_none_idem d d' : dt_astimezone E d None = Ok d' -> dt_astimezone E d' None = Ok d'.
Proof.
  intros H. unfold dt_astimezone in *.
  set (u := wall d - match utcoffset E d with Some o => o | None => env_local_off E (wall d) (fold d) end) in *.
  destruct (wall_ok u) eqn:WU; [|discriminate]. cbn [tz_fromutc] in H. destruct (wall_ok (u + _)) eqn:WW; [|discriminate].
  injection H as <-. cbn [utcoffset wall fold dtz tz_off]. unfold utcoffset. cbn [dtz tz_off wall].
  replace (u + env_local_utc E u - env_local_utc E u) with u by lia. rewrite WU. cbn [tz_fromutc]. now rewrite WW.
Qed.
Lemma norm_idem N d d' : repl_ok E N -> ~ mixed_none N -> normalize_dt E N d = Ok d' -> normalize_dt E N d' = Ok d'.
Proof.
  intros HR HM H. unfold repl_ok, mixed_none in *. destruct N as [r fl wt]. cbn [nm_repl nm_floating nm_tz] in *.
  unfold normalize_dt, nm_action in *. cbn [nm_repl nm_floating nm_tz] in *.
  destruct r as [[n|o|]|]; try easy.
  - (* a zone *)
    assert (HA : dtz d' = Some (TzObj n) \/ d' = d /\ (if naive d then fl else wt) = AIgnore).
    { destruct (if naive d then fl else wt).
      - right. injection H as <-. easy.
      - left. injection H as <-. easy.
      - left. now apply astimezone_utc in H. }
    destruct HA as [HA|[-> HA]]; [|now rewrite HA].
    unfold naive. rewrite HA. destruct wt; [easy| |now apply astz_same].
    unfold dt_replace_tz. destruct d' as [w f z]. cbn in *. now subst.
  - (* no zone *)
    destruct (naive d) eqn:EN.
    + destruct fl.
      * injection H as <-. now rewrite EN.
      * injection H as <-. reflexivity.
      * assert (ND : naive d' = false).
        { apply astz_keeps in H as [_ H]; [|exact I]. unfold naive. now destruct (dtz d'). }
        rewrite ND. destruct wt; [easy|now destruct HM|]. now apply (astz_none_idem d).
    + destruct wt.
      * injection H as <-. now rewrite EN.
      * injection H as <-. unfold naive. cbn [dtz dt_replace_tz]. destruct fl; [easy|easy|now destruct HM].
      * assert (ND : naive d' = false).
        { apply astz_keeps in H as [_ H]; [|exact I]. unfold naive. now destruct (dtz d'). }
        rewrite ND. now apply (astz_none_idem d).
Qed.

(** ** Spans *)
Lemma valid_floating t : validate E t = Ok tt ->
  (forall b, ts_begin t = Some b -> naive b = is_floating t) /\ (forall e, ts_end t = Some e -> naive e = is_floating t).
Proof.
  intros HV. apply validate_consistent in HV. unfold is_floating. split.
  - intros b ->. easy.
  - intros e He. destruct (ts_begin t) as [b|] eqn:Eb; [|now rewrite He].
    pose proof (co_order _ _ HV _ _ Eb He) as H. unfold not_before in H. unfold naive.
    destruct (dtz b) as [[| |]|], (dtz e) as [[| |]|]; easy.
Qed.
Definition on_span (f : datetime -> res datetime) (t : timespan) : res timespan :=
  do b <- opt_res f (ts_begin t); do e <- opt_res f (ts_end t);
  make E (ts_kind t) b e (ts_dur t) (ts_prec t).
Lemma normalize_span_pointwise N t : validate E t = Ok tt -> is_all_day t = false -> selected N (is_floating t) <> AIgnore ->
  normalize_span E N t = on_span (normalize_dt E N) t.
Proof.
  intros HV HA HS. destruct (valid_floating _ HV) as [FB FE]. unfold normalize_span, nm_action, on_span.
  unfold selected in HS.
  assert (HB : forall b, ts_begin t = Some b -> normalize_dt E N b =
    match (if is_floating t then nm_floating N else nm_tz N) with AIgnore => Ok b | AReplace => Ok (dt_replace_tz b (nm_repl N)) | AConvert => dt_astimezone E b (nm_repl N) end).
  { intros b Hb. unfold normalize_dt, nm_action. now rewrite (FB b Hb). }
  assert (HE : forall b, ts_end t = Some b -> normalize_dt E N b =
    match (if is_floating t then nm_floating N else nm_tz N) with AIgnore => Ok b | AReplace => Ok (dt_replace_tz b (nm_repl N)) | AConvert => dt_astimezone E b (nm_repl N) end).
  { intros b Hb. unfold normalize_dt, nm_action. now rewrite (FE b Hb). }
  destruct (if is_floating t then nm_floating N else nm_tz N); [easy| |].
  - unfold ts_replace_timezone. rewrite HA. cbn [guard bind]. unfold ts_replace. cbn [pick].
    destruct (ts_begin t) as [b|]; [cbn [opt_res]; rewrite (HB b eq_refl)|]; (destruct (ts_end t) as [e|]; [cbn [opt_res]; rewrite (HE e eq_refl)|]); reflexivity.
  - unfold ts_convert_timezone. rewrite HA. cbn [guard bind]. unfold ts_replace. cbn [pick].
    destruct (ts_begin t) as [b|]; [cbn [opt_res]; rewrite (HB b eq_refl)|]; (destruct (ts_end t) as [e|]; [cbn [opt_res]; rewrite (HE e eq_refl)|]);
    cbn [opt_res rmap bind]; try (destruct (dt_astimezone E b (nm_repl N)); cbn [rmap bind]);
    try (destruct (dt_astimezone E e (nm_repl N)); cbn [rmap bind]); reflexivity.
Qed.
Lemma opt_res_both (f : datetime -> res datetime) (R : datetime -> datetime -> Prop) o o' :
  (forall d d', o = Some d -> f d = Ok d' -> R d d') -> opt_res f o = Ok o' -> both R o o'.
Proof.
  intros HR H. destruct o as [d|]; cbn in *.
  - apply rmap_ok in H as (d' & H & ->). now apply HR.
  - now injection H as <-.
Qed.
Lemma on_span_rel f (R : datetime -> datetime -> Prop) t t' :
  (forall d d', ts_begin t = Some d \/ ts_end t = Some d -> f d = Ok d' -> R d d') -> on_span f t = Ok t' -> span_rel R t t' /\ validate E t' = Ok tt.
Proof.
  intros HR H. unfold on_span in H. apply bind_ok in H as (b & Hb & H). apply bind_ok in H as (e & He & H).
  apply make_ok in H as [-> HV]. split; [|easy]. unfold span_rel. cbn [ts_kind ts_begin ts_end ts_dur ts_prec].
  repeat split.
  - apply (opt_res_both f); [|easy]. intros d d' Hd. apply HR. now left.
  - apply (opt_res_both f); [|easy]. intros d d' Hd. apply HR. now right.
Qed.
Lemma span_ignore N t : selected N (is_floating t) = AIgnore -> normalize_span E N t = Ok t.
Proof. unfold normalize_span, nm_action, selected. now intros ->. Qed.
Lemma span_all_day N t : selected N (is_floating t) <> AIgnore -> is_all_day t = true -> normalize_span E N t = Err ValueError.
Proof.
  unfold normalize_span, nm_action, selected, ts_replace_timezone, ts_convert_timezone. intros HN ->.
  now destruct (if is_floating t then nm_floating N else nm_tz N).
Qed.
Lemma span_not_all_day N t t' : selected N (is_floating t) <> AIgnore -> normalize_span E N t = Ok t' -> is_all_day t = false.
Proof. intros HN H. destruct (is_all_day t) eqn:EA; [|easy]. rewrite span_all_day in H by easy. discriminate. Qed.
Lemma span_replace N t t' : validate E t = Ok tt -> selected N (is_floating t) = AReplace -> normalize_span E N t = Ok t' ->
  span_rel (kept_wall (nm_repl N)) t t' /\ validate E t' = Ok tt.
Proof.
  intros HV HS H. assert (HA : is_all_day t = false) by (apply (span_not_all_day N t t'); [congruence|easy]).
  rewrite normalize_span_pointwise in H by (try easy; congruence). revert H. apply on_span_rel.
  intros d d' Hd H. destruct (valid_floating _ HV) as [FB FE].
  assert (HF : naive d = is_floating t) by (destruct Hd; auto).
  destruct (norm_replace N d) as (x & H1 & H2); [congruence|]. congruence.
Qed.
Lemma span_convert N t t' : validate E t = Ok tt -> repl_ok E N -> selected N (is_floating t) = AConvert -> normalize_span E N t = Ok t' ->
  span_rel (kept_instant E (nm_repl N)) t t' /\ validate E t' = Ok tt.
Proof.
  intros HV HR HS H. assert (HA : is_all_day t = false) by (apply (span_not_all_day N t t'); [congruence|easy]).
  rewrite normalize_span_pointwise in H by (try easy; congruence). revert H. apply on_span_rel.
  intros d d' Hd H. destruct (valid_floating _ HV) as [FB FE].
  assert (HF : naive d = is_floating t) by (destruct Hd; auto).
  apply norm_convert; [congruence|easy|easy].
Qed.
Lemma opt_res_fix (f : datetime -> res datetime) o : (forall d, o = Some d -> f d = Ok d) -> opt_res f o = Ok o.
Proof. destruct o as [d|]; [|easy]. intros H. cbn. now rewrite (H d). Qed.
Lemma span_idem N t t' : validate E t = Ok tt -> repl_ok E N -> ~ mixed_none N ->
  normalize_span E N t = Ok t' -> normalize_span E N t' = Ok t'.
Proof.
  intros HV HR HM H. destruct (selected N (is_floating t)) eqn:ES.
  1: { rewrite span_ignore in H by easy. injection H as <-. now apply span_ignore. }
  all: assert (HN : selected N (is_floating t) <> AIgnore) by congruence;
    pose proof (span_not_all_day N t t' HN H) as HA;
    rewrite normalize_span_pointwise in H by easy;
    destruct (on_span_rel _ (fun d d' => normalize_dt E N d = Ok d') _ _ (fun d d' _ Q => Q) H) as [(R1 & R2 & R3 & R4 & R5) HV'];
    destruct (selected N (is_floating t')) eqn:ES'; [now apply span_ignore| |];
    (rewrite normalize_span_pointwise; [|easy|unfold is_all_day in *; now rewrite R3|congruence]);
    unfold on_span;
    assert (HF : forall o o', both (fun d d' => normalize_dt E N d = Ok d') o o' -> forall d, o' = Some d -> normalize_dt E N d = Ok d);
    try (intros o o' Hb d ->; destruct o as [x|]; cbn in Hb; [|easy]; now apply (norm_idem N x));
    rewrite (opt_res_fix _ _ (HF _ _ R4)), (opt_res_fix _ _ (HF _ _ R5)); cbn [bind];
    unfold make; destruct t' as [k b e d p]; cbn [ts_kind ts_begin ts_end ts_dur ts_prec] in *; now rewrite HV'.
Qed.

(** ** Entries and calendars *)
Lemma replace_tz_kind t z t' : ts_replace_timezone E t z = Ok t' -> ts_kind t' = ts_kind t /\ validate E t' = Ok tt.
Proof.
  unfold ts_replace_timezone. intros H. apply bind_guard in H as [_ H].
  destruct (ts_end t); apply ts_replace_ok in H as [-> H]; easy.
Qed.
Lemma convert_tz_kind t z t' : ts_convert_timezone E t z = Ok t' -> ts_kind t' = ts_kind t /\ validate E t' = Ok tt.
Proof.
  unfold ts_convert_timezone. intros H. apply bind_guard in H as [_ H]. apply bind_ok in H as (b & _ & H).
  destruct (ts_end t); [apply bind_ok in H as (e' & _ & H)|]; apply ts_replace_ok in H as [-> H]; easy.
Qed.
(** An entry is normalised like its span, everything else stays. *)
Lemma normalize_entry_spec N o t : dict_get (py "timespan") (o_attrs o) = Some (VSpan t) -> ts_kind t = span_kind (o_cls o) ->
  normalize_entry E utc N o =
  if is_all_day t then (o, Ok tt) else
  match selected N (is_floating t) with
  | AIgnore => (o, Ok tt)
  | _ => match normalize_span E N t with Ok t' => (put o t', Ok tt) | Err e => (o, Err e) end
  end.
Proof.
  intros HT HK. unfold normalize_entry, normalize_obj, normalize_span, nm_action, selected. unfold mbind at 1. rewrite (get_span_at o t HT).
  destruct (is_all_day t); [easy|]. unfold mbind at 1. rewrite (get_span_at o t HT).
  destruct (if is_floating t then nm_floating N else nm_tz N); [easy| |].
  - destruct (ts_replace_timezone E t (nm_repl N)) as [t'|e] eqn:ER.
    + destruct (replace_tz_kind _ _ _ ER) as [K V]. apply (upd_fwd E utc (fun t => ts_replace_timezone E t (nm_repl N)) o t t'); [easy|easy|congruence|easy].
    + now apply (upd_err E utc (fun t => ts_replace_timezone E t (nm_repl N)) o t e).
  - destruct (ts_convert_timezone E t (nm_repl N)) as [t'|e] eqn:ER.
    + destruct (convert_tz_kind _ _ _ ER) as [K V]. apply (upd_fwd E utc (fun t => ts_convert_timezone E t (nm_repl N)) o t t'); [easy|easy|congruence|easy].
    + now apply (upd_err E utc (fun t => ts_convert_timezone E t (nm_repl N)) o t e).
Qed.
Definition entry_rel N (o o' : obj) : Prop :=
  exists t t', dict_get (py "timespan") (o_attrs o) = Some (VSpan t) /\ dict_get (py "timespan") (o_attrs o') = Some (VSpan t') /\
    others_same o o' /\ (is_all_day t = true -> o' = o) /\ (is_all_day t = false -> normalize_span E N t = Ok t').
Lemma others_refl o : others_same o o. Proof. now split. Qed.
Lemma normalize_entry_rel N o o' : reachable E utc o -> normalize_entry E utc N o = (o', Ok tt) -> entry_rel N o o'.
Proof.
  intros HR H. destruct (reachable_span _ _ _ HR) as (t & T1 & T2 & T3). rewrite (normalize_entry_spec N o t T1 T2) in H.
  destruct (is_all_day t) eqn:EA.
  { injection H as <-. exists t, t. split; [easy|]. split; [easy|]. split; [apply others_refl|]. split; congruence. }
  destruct (selected N (is_floating t)) eqn:ES.
  1: { injection H as <-. exists t, t. split; [easy|]. split; [easy|]. split; [apply others_refl|]. split; [congruence|]. intros _. now apply span_ignore. }
  all: destruct (normalize_span E N t) as [t'|e] eqn:EN; [|discriminate]; injection H as <-;
    exists t, t'; split; [easy|]; split; [apply put_span|]; split; [apply put_others|]; split; congruence.
Qed.
Lemma normalize_entries_rel N l l' : Forall (reachable E utc) l -> normalize_entries E utc N l = (l', Ok tt) -> Forall2 (entry_rel N) l l'.
Proof.
  intros HF. revert l'. induction HF as [|o l HO HF IH]; intros l' H; cbn [normalize_entries] in H.
  - injection H as <-. constructor.
  - destruct (normalize_entry E utc N o) as [o' [[]|e]] eqn:EO; [|discriminate].
    destruct (normalize_entries E utc N l) as [r x]. injection H as <- ->. constructor; [now apply normalize_entry_rel|now apply IH].
Qed.
Lemma normalize_calendar_rel N ev td ev' td' : Forall (reachable E utc) ev -> Forall (reachable E utc) td ->
  normalize_calendar E utc N ev td = ((ev', td'), Ok tt) -> Forall2 (entry_rel N) ev ev' /\ Forall2 (entry_rel N) td td'.
Proof.
  intros H1 H2 H. unfold normalize_calendar in H. destruct (normalize_entries E utc N ev) as [r1 [[]|e]] eqn:E1; [|discriminate].
  destruct (normalize_entries E utc N td) as [r2 x] eqn:E2. injection H as <- <- ->. split; now apply normalize_entries_rel.
Qed.

Lemma span_normalized N t t' : validate E t = Ok tt -> repl_ok E N -> normalize_span E N t = Ok t' -> normalized E N t t' /\ validate E t' = Ok tt.
Proof.
  intros HV HR H. unfold normalized. destruct (selected N (is_floating t)) eqn:ES.
  - rewrite span_ignore in H by easy. injection H as <-. easy.
  - now apply span_replace.
  - now apply span_convert.
Qed.
Lemma calendar_normalized N ev td ev' td' : repl_ok E N -> Forall (reachable E utc) ev -> Forall (reachable E utc) td ->
  normalize_calendar E utc N ev td = ((ev', td'), Ok tt) -> Forall2 (entry_normalized E N) ev ev' /\ Forall2 (entry_normalized E N) td td'.
Proof.
  intros HR H1 H2 H. apply normalize_calendar_rel in H as [R1 R2]; [|easy|easy].
  assert (HI : forall l l', Forall (reachable E utc) l -> Forall2 (entry_rel N) l l' -> Forall2 (entry_normalized E N) l l').
  { intros l l' HL HF. induction HF as [|o o' l l' HO HF IH]; [constructor|]. inversion HL as [|x y HX HY]; subst. constructor; [|now apply IH].
    destruct HO as (t & t' & O1 & O2 & O3 & O4 & O5). exists t, t'. do 4 (split; [easy|]). intros HA.
    destruct (reachable_span _ _ _ HX) as (t0 & T1 & T2 & T3). assert (t0 = t) by congruence. subst t0.
    apply span_normalized; auto. }
  auto.
Qed.
Lemma dict_set_same {V} k (v : V) d : dict_get k d = Some v -> dict_set k v d = d.
Proof.
  induction d as [|[k' v'] d IH]; cbn; [discriminate|]. destruct (str_eqb k k') eqn:EK.
  - intros [= ->]. apply str_eqb_eq in EK. now subst.
  - intros H. now rewrite IH.
Qed.
Lemma put_same o t : dict_get (py "timespan") (o_attrs o) = Some (VSpan t) -> put o t = o.
Proof. intros H. unfold put. rewrite dict_set_same by easy. now destruct o. Qed.
Lemma normalize_entry_idem N o o' : repl_ok E N -> ~ mixed_none N -> reachable E utc o ->
  normalize_entry E utc N o = (o', Ok tt) -> normalize_entry E utc N o' = (o', Ok tt).
Proof.
  intros HR HM HO H. destruct (reachable_span _ _ _ HO) as (t & T1 & T2 & T3).
  rewrite (normalize_entry_spec N o t T1 T2) in H. destruct (is_all_day t) eqn:EA.
  { injection H as <-. rewrite (normalize_entry_spec N o t T1 T2). now rewrite EA. }
  destruct (selected N (is_floating t)) eqn:ES.
  1: { injection H as <-. rewrite (normalize_entry_spec N o t T1 T2), EA, ES. easy. }
  all: destruct (normalize_span E N t) as [t'|e] eqn:EN; [|discriminate]; injection H as <-;
    assert (HN : normalize_span E N t' = Ok t') by (now apply (span_idem N t));
    assert (HK : ts_kind t' = ts_kind t);
    [destruct (span_normalized N t t' T3 HR EN) as [Q _]; unfold normalized in Q; rewrite ES in Q; apply Q|];
    rewrite (normalize_entry_spec N (put o t') t' (put_span o t')) by (cbn; congruence);
    destruct (is_all_day t'); [easy|]; destruct (selected N (is_floating t')); [easy| |];
    rewrite HN; f_equal; apply put_same, put_span.
Qed.
Lemma normalize_entries_idem N l l' : repl_ok E N -> ~ mixed_none N -> Forall (reachable E utc) l ->
  normalize_entries E utc N l = (l', Ok tt) -> normalize_entries E utc N l' = (l', Ok tt).
Proof.
  intros HR HM HF. revert l'. induction HF as [|o l HO HF IH]; intros l' H; cbn [normalize_entries] in H.
  - now injection H as <-.
  - destruct (normalize_entry E utc N o) as [o' [[]|e]] eqn:EO; [|discriminate].
    destruct (normalize_entries E utc N l) as [r x]. injection H as <- ->. cbn [normalize_entries].
    rewrite (normalize_entry_idem N o o' HR HM HO EO). now rewrite (IH r eq_refl).
Qed.
Lemma calendar_idem N ev td ev' td' : repl_ok E N -> ~ mixed_none N -> Forall (reachable E utc) ev -> Forall (reachable E utc) td ->
  normalize_calendar E utc N ev td = ((ev', td'), Ok tt) -> normalize_calendar E utc N ev' td' = ((ev', td'), Ok tt).
Proof.
  intros HR HM H1 H2 H. unfold normalize_calendar in *. destruct (normalize_entries E utc N ev) as [r1 [[]|e]] eqn:E1; [|discriminate].
  destruct (normalize_entries E utc N td) as [r2 x] eqn:E2. injection H as <- <- ->.
  rewrite (normalize_entries_idem N ev r1), (normalize_entries_idem N td r2) by easy. easy.
Qed.
End S.
