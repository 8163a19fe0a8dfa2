(** * Proofs: which time spans are accepted, and what their operations give *)
From Verif Require Import M_Base M_Codec M_Cal M_Time M_Span S_Span P_Span S_SpanOps.
From Coq Require Import Lia ZifyBool ZifyNat ZifyN.
Open Scope Z_scope.

Lemma in_range_ok w : in_range w <-> wall_ok w = true.
Proof.
  unfold in_range, wall_ok. assert (HE : mk_wall 9999 12 31 23 59 59 999999 = WALL_END - 1) by (vm_compute; reflexivity).
  rewrite HE. generalize WALL_END. lia.
Qed.
Lemma in_range_no w : ~ in_range w <-> wall_ok w = false.
Proof. rewrite in_range_ok. destruct (wall_ok w); split; congruence. Qed.
Lemma last_val : mk_wall 9999 12 31 0 0 0 0 = WALL_END - DAY. Proof. vm_compute. reflexivity. Qed.
Lemma end_val : WALL_END = 3652059 * 86400000000. Proof. vm_compute. reflexivity. Qed.

Lemma day_val : US_DAY = DAY. Proof. reflexivity. Qed.
Section Ops.
Variable E : env.

Definition gap (b e : datetime) : option Z :=
  if same_tz (dtz b) (dtz e) then Some (wall e - wall b)
  else if naive b || naive e then None else Some (instant E e - instant E b).
Lemma same_tz_sym a b : same_tz a b = same_tz b a.
Proof. destruct a as [[]|], b as [[]|]; cbn; auto using N.eqb_sym. Qed.
Lemma one_clock_same b e : one_clock b e <-> same_tz (dtz b) (dtz e) = true.
Proof.
  unfold one_clock, floating. split.
  - intros [[-> ->] | (n & -> & ->)]; cbn; auto using N.eqb_refl.
  - destruct (dtz b) as [[n| |]|], (dtz e) as [[m| |]|]; cbn; try discriminate; auto.
    intros H. apply N.eqb_eq in H as ->. right. now exists m.
Qed.
Lemma naive_floating d : naive d = true <-> floating d.
Proof. unfold naive, floating. destruct (dtz d); easy. Qed.
Lemma apart_gap b e n : apart E b e n <-> gap b e = Some n.
Proof.
  unfold gap. split.
  - intros [H | H H1 H2].
    + apply one_clock_same in H as ->. reflexivity.
    + rewrite one_clock_same in H. apply not_true_is_false in H as ->.
      rewrite <- naive_floating in H1, H2. apply not_true_is_false in H1 as ->. apply not_true_is_false in H2 as ->. reflexivity.
  - destruct (same_tz _ _) eqn:ES.
    + intros [= <-]. constructor. now apply one_clock_same.
    + destruct (naive b) eqn:E1, (naive e) eqn:E2; cbn [orb]; try discriminate. intros [= <-].
      constructor; [rewrite one_clock_same | rewrite <- naive_floating | rewrite <- naive_floating]; congruence.
Qed.
Lemma comparable_gap b e : comparable b e <-> gap b e <> None.
Proof.
  unfold comparable, gap. rewrite <- !naive_floating. destruct (same_tz _ _) eqn:ES.
  - split; [easy|]. intros _. unfold naive. destruct (dtz b) as [[]|], (dtz e) as [[]|]; easy.
  - unfold naive. destruct (dtz b) as [[]|], (dtz e) as [[]|]; cbn in *; split; try easy; intros; try congruence;
      try (destruct H as [? ?]; intuition congruence).
Qed.
Lemma sub_gap b e : dt_sub E e b = match gap b e with Some n => Ok n | None => Err TypeError end.
Proof. unfold dt_sub, gap. rewrite same_tz_sym, orb_comm. destruct (same_tz _ _); [easy|]. now destruct (_ || _). Qed.
Lemma gt_gap b e : dt_gt E b e = match gap b e with Some n => Ok (n <? 0) | None => Err TypeError end.
Proof.
  unfold dt_gt, dt_lt, dt_cmp, gap. rewrite same_tz_sym, orb_comm. destruct (same_tz _ _); [|destruct (_ || _); [easy|]]; cbn [rmap];
  f_equal; match goal with |- context [?a ?= ?b] => destruct (Z.compare_spec a b) end; lia.
Qed.

Definition fitsb (p : prec) (d : datetime) : bool := if is_day p then naive d && (wall d mod US_DAY =? 0) else true.
Lemma fits_fitsb p d : fits p d <-> fitsb p d = true.
Proof.
  unfold fits, fitsb, midnight. destruct p; cbn [is_day]; [|split; [easy|]; intros ? [=]..].
  rewrite andb_true_iff, naive_floating, Z.eqb_eq, US_DAY_val. intuition.
Qed.
Lemma vprec_fitsb t d : stored d -> validate_precision E t d = guard (negb (fitsb (ts_prec t) d)) ValueError.
Proof.
  intros [_ HL]. unfold validate_precision, fitsb. destruct (is_day _); [|reflexivity].
  destruct (naive d) eqn:EN.
  - rewrite dt_eqb_same by (unfold floor_midnight; cbn; try easy; unfold naive in EN; destruct (dtz d); easy).
    unfold floor_midnight. cbn [wall andb negb].
    replace (wall d - wall d mod US_DAY =? wall d) with (wall d mod US_DAY =? 0) by lia.
    destruct (wall d mod US_DAY =? 0); reflexivity.
  - cbn [andb negb]. destruct (dt_eqb _ _ _); reflexivity.
Qed.

Definition whole (p : prec) (d : Z) : res unit :=
  match unit_of p with None => Err KeyError | Some u => if d mod u <=? 500000 then Ok tt else Err ValueError end.
Lemma whole_cache p d : (do c <- td_cache p; guard (negb (td_nearly_zero (d mod c))) ValueError) = whole p d.
Proof.
  unfold whole, td_nearly_zero. destruct p; cbn [td_cache bind unit_of]; try reflexivity.
  - change US_DAY with DAY. assert (0 <= d mod DAY) by (apply Z.mod_pos_bound; reflexivity).
    replace (-500000 <=? d mod DAY) with true by lia. cbn [andb]. destruct (_ <=? _); reflexivity.
  - change US_SEC with 1000000. assert (0 <= d mod 1000000) by (apply Z.mod_pos_bound; reflexivity).
    replace (-500000 <=? d mod 1000000) with true by lia. cbn [andb]. destruct (_ <=? _); reflexivity.
Qed.
Lemma whole_units p d : in_units p d <-> whole p d = Ok tt.
Proof.
  unfold in_units, whole. destruct (unit_of p) as [u|]; [|split; [intros (? & [=] & _) | discriminate]].
  destruct (Z.leb_spec (d mod u) 500000); split; try easy.
  - intros _. now exists u.
  - intros (u' & [= <-] & ?). lia.
Qed.
Lemma whole_err p d e : whole p d = Err e -> e = KeyError /\ unit_of p = None \/ e = ValueError /\ unit_of p <> None /\ ~ in_units p d.
Proof.
  intros H. assert (H' : ~ in_units p d) by (rewrite whole_units; congruence). unfold whole in H.
  destruct (unit_of p); [destruct (_ <=? _)|]; try discriminate; injection H as <-; auto.
  right. repeat split; congruence.
Qed.

(** The checks as one function, by what is present. *)
Definition checks_both (p : prec) (b e : datetime) (d : option Z) : res unit :=
  if negb (fitsb p b) then Err ValueError else
  if negb (fitsb p e) then Err ValueError else
  match gap b e with
  | None => Err TypeError
  | Some n =>
      if n <? 0 then Err ValueError else
      if is_day p && negb (wall_ok (wall b + DAY)) then Err OverflowError else
      if is_day p && (n <? DAY) then Err ValueError else
      if negb (is_none d) then Err ValueError else
      if n =? 0 then Ok tt else whole p n
  end.
Lemma fits_day_gap b e : fitsb PDay b = true -> fitsb PDay e = true -> gap b e = Some (wall e - wall b).
Proof.
  unfold fitsb, gap, naive. cbn [is_day]. intros H1 H2. destruct (dtz b), (dtz e); try discriminate. reflexivity.
Qed.
Lemma base_both k b e d p : stored b -> stored e ->
  validate_base E (mk_ts k (Some b) (Some e) d p) = checks_both p b e d.
Proof.
  intros Sb Se. unfold validate_base, checks_both. cbn [ts_begin ts_end ts_dur ts_prec].
  rewrite !vprec_fitsb by easy. cbn [ts_prec].
  destruct (fitsb p b) eqn:F1; [|reflexivity]. destruct (fitsb p e) eqn:F2; [|reflexivity].
  cbn [negb guard bind]. rewrite gt_gap. destruct (gap b e) as [n|] eqn:EG; [|reflexivity]. cbn [bind].
  destruct (n <? 0) eqn:EN; [reflexivity|]. cbn [guard bind].
  assert (HN : (naive b && negb (naive e)) = false /\ (negb (naive b) && naive e) = false).
  { unfold gap in EG. unfold naive in *. destruct (dtz b) as [[]|], (dtz e) as [[]|]; cbn in *; easy. }
  assert (HR : forall q, is_day q = is_day p -> q = p ->
    (do _ <- (do _ <- guard (negb (is_none d)) ValueError;
     do _ <- guard (naive b && negb (naive e)) ValueError;
     do _ <- guard (negb (naive b) && naive e) ValueError;
     do d0 <- eff_duration E (mk_ts k (Some b) (Some e) d p);
     match d0 with None => Ok tt | Some d0 => if d0 =? 0 then Ok tt
       else do c <- td_cache p; guard (negb (td_nearly_zero (d0 mod c))) ValueError end);
    match d with None => Ok tt | Some d =>
      do _ <- guard (d <? 0) ValueError; do _ <- guard (is_day p && (d <? US_DAY)) ValueError;
      do c <- td_cache p; guard (negb (td_nearly_zero (d mod c))) ValueError end) =
    if negb (is_none d) then Err ValueError else if n =? 0 then Ok tt else whole p n).
  { intros _ _ _. destruct d as [d|]; [reflexivity|]. cbn [is_none negb guard bind]. destruct HN as [-> ->].
    cbn [guard bind]. unfold eff_duration. cbn [ts_dur ts_end ts_begin]. rewrite sub_gap, EG. cbn [rmap bind].
    destruct (n =? 0); [reflexivity|]. rewrite whole_cache. destruct (whole p n) as [[]|]; reflexivity. }
  specialize (HR p eq_refl eq_refl). destruct (is_day p) eqn:ED; cbn [andb bind].
  - destruct p; try discriminate. rewrite day_val in *. unfold dt_add.
    destruct (wall_ok (wall b + DAY)); [|reflexivity]. cbn [bind negb].
    assert (EL : dt_lt E e (mk_dt (wall b + DAY) false (dtz b)) = Ok (n <? DAY)).
    { rewrite (fits_day_gap b e F1 F2) in EG. injection EG as <-.
      unfold fitsb, naive in F1, F2. cbn [is_day] in F1, F2. unfold dt_lt.
      rewrite dt_cmp_naive by (cbn [dtz]; destruct (dtz b), (dtz e); easy). cbn [rmap wall].
      f_equal. destruct (Z.compare_spec (wall e) (wall b + DAY)); lia. }
    rewrite EL. cbn [bind]. destruct (n <? DAY); [reflexivity|]. cbn [guard bind]. exact HR.
  - exact HR.
Qed.
Lemma base_dur k b d p : stored b ->
  validate_base E (mk_ts k (Some b) None (Some d) p) =
  if negb (fitsb p b) then Err ValueError else if d <? 0 then Err ValueError
  else if is_day p && (d <? DAY) then Err ValueError else whole p d.
Proof.
  intros Sb. unfold validate_base. cbn [ts_begin ts_end ts_dur ts_prec]. rewrite vprec_fitsb by easy. cbn [ts_prec].
  destruct (fitsb p b); [|reflexivity]. cbn [negb guard bind]. destruct (d <? 0); [reflexivity|]. cbn [guard bind].
  rewrite day_val. destruct (is_day p && (d <? DAY)); [reflexivity|]. cbn [guard bind]. now rewrite whole_cache.
Qed.
Lemma base_begin k b p : stored b ->
  validate_base E (mk_ts k (Some b) None None p) = if negb (fitsb p b) then Err ValueError else Ok tt.
Proof.
  intros Sb. unfold validate_base. cbn [ts_begin ts_end ts_dur ts_prec]. rewrite vprec_fitsb by easy. cbn [ts_prec].
  destruct (fitsb p b); reflexivity.
Qed.
Lemma base_open k e d p : (forall x, e = Some x -> stored x) ->
  validate_base E (mk_ts k None e d p) =
  if match e with Some e => negb (fitsb p e) | None => false end then Err ValueError
  else if is_none d then Ok tt else Err ValueError.
Proof.
  intros Se. unfold validate_base. cbn [ts_begin ts_end ts_dur ts_prec]. destruct e as [e|].
  - rewrite vprec_fitsb by auto. cbn [ts_prec]. destruct (fitsb p e); [|reflexivity]. cbn. destruct d; reflexivity.
  - cbn. destruct d; reflexivity.
Qed.

(** ** The verdicts exclude each other *)
Lemma accepted_mixed t : accepted E t -> ~ mixed t.
Proof.
  intros HA (b & e & H1 & H2 & _ & H3). destruct HA; cbn in *; try discriminate.
  injection H1 as <-. injection H2 as <-. apply H3, comparable_gap. apply apart_gap in H4. congruence.
Qed.
Lemma accepted_last t : accepted E t -> ~ last_day t.
Proof.
  intros HA (b & e & H1 & H2 & H3 & H4 & H5 & H6 & _). destruct HA; cbn in *; try discriminate.
  injection H1 as <-. injection H2 as <-. subst p. apply apart_gap in H7.
  apply fits_fitsb in H4, H5. rewrite fits_day_gap in H7 by easy. injection H7 as <-. specialize (H9 eq_refl). unfold DAY in H9. lia.
Qed.
Lemma accepted_no_unit t : accepted E t -> ~ no_unit E t.
Proof.
  intros HA (H1 & b & H2 & [(e & n & H3 & H4 & H5 & H6) | (d & H3 & H4 & H5)]).
  all: destruct HA; cbn in *; try discriminate.
  - injection H2 as <-. injection H3 as <-.
    repeat match goal with H : apart _ _ _ _ |- _ => apply apart_gap in H end.
    assert (n0 = n) by congruence. subst n0.
    match goal with H : _ \/ in_units _ _ |- _ => destruct H as [-> | (u & HU & _)] end; [lia|congruence].
  - match goal with H : in_units _ _ |- _ => destruct H as (u & HU & _) end. congruence.
Qed.
Lemma mixed_last t : mixed t -> ~ last_day t.
Proof. intros (b & e & _ & _ & H & _) (b' & e' & _ & _ & H' & _). congruence. Qed.
Lemma mixed_no_unit t : mixed t -> ~ no_unit E t.
Proof.
  intros (b & e & H1 & H2 & _ & H3) (_ & b' & H4 & [(e' & n & H5 & _ & H6 & _) | (d & H5 & _)]); [|congruence].
  apply apart_gap in H6. apply H3, comparable_gap. congruence.
Qed.
Lemma last_no_unit t : last_day t -> ~ no_unit E t.
Proof. intros (b & e & _ & _ & H & _) (H' & _). rewrite H in H'. discriminate. Qed.
Lemma verdict_fun t r r' : verdict E t r -> verdict E t r' -> r = r'.
Proof.
  intros H H'. destruct H, H'; try reflexivity; exfalso;
  first [contradiction | eapply accepted_mixed; eassumption | eapply accepted_last; eassumption | eapply accepted_no_unit; eassumption
  | eapply mixed_last; eassumption | eapply mixed_no_unit; eassumption | eapply last_no_unit; eassumption].
Qed.

Ltac no_class := match goal with
  | |- ~ accepted _ _ => intros HA; inversion HA; subst
  | |- ~ mixed _ => intros (b' & e' & Hb & He & Hp & Hc); cbn in Hb, He, Hp
  | |- ~ last_day _ => intros (b' & e' & Hb & He & Hp & Hf & Hf' & Hw & Hl); cbn in Hb, He, Hp
  | |- ~ no_unit _ _ => intros (Hu & b' & Hb & [(e' & n' & He & Hd & Ha & Hn) | (d' & He & Hd & Hn)]); cbn in Hu, Hb, He, Hd
  end.
Lemma verdict_both k b e d p : stored b -> stored e ->
  verdict E (mk_ts k (Some b) (Some e) d p) (checks_both p b e d).
Proof.
  intros Sb Se. unfold checks_both.
  destruct (fitsb p b) eqn:F1; cbn [negb].
  2: { assert (p = PDay) as -> by (destruct p; easy). constructor; try assumption; no_class; try congruence.
       - match goal with H : fits _ b |- _ => apply fits_fitsb in H end. congruence.
       - injection Hb as <-. apply fits_fitsb in Hf. congruence. }
  destruct (fitsb p e) eqn:F2; cbn [negb].
  2: { assert (p = PDay) as -> by (destruct p; easy). constructor; try assumption; no_class; try congruence.
       - match goal with H : fits _ e |- _ => apply fits_fitsb in H end. congruence.
       - injection He as <-. apply fits_fitsb in Hf'. congruence. }
  destruct (gap b e) as [n|] eqn:EG.
  2: { apply VD_mixed. exists b, e. repeat split; cbn; try easy.
       - intros ->. rewrite fits_day_gap in EG by easy. discriminate.
       - rewrite comparable_gap. congruence. }
  assert (HC : ~ mixed (mk_ts k (Some b) (Some e) d p)).
  { no_class. injection Hb as <-. injection He as <-. apply Hc, comparable_gap. congruence. }
  destruct (n <? 0) eqn:EN.
  { constructor; try assumption; no_class; try congruence.
    - match goal with H : apart _ _ _ _ |- _ => apply apart_gap in H; assert (n0 = n) by congruence end. lia.
    - injection Hb as <-. injection He as <-. subst p. rewrite fits_day_gap in EG by easy. injection EG as <-. lia.
    - injection Hb as <-. injection He as <-. apply apart_gap in Ha. assert (n' = n) by congruence. lia. }
  assert (HD : is_day p = true -> p = PDay) by (destruct p; easy).
  destruct (is_day p && negb (wall_ok (wall b + DAY))) eqn:EO.
  { apply andb_prop in EO as [EP EO]. apply HD in EP as ->. apply VD_last_day. exists b, e.
    rewrite fits_day_gap in EG by easy. injection EG as <-. apply negb_true_iff in EO.
    destruct Sb as [Sb _], Se as [Se _]. pose proof F1 as F1'. pose proof F2 as F2'. apply fits_fitsb in F1', F2'.
    destruct (F1' eq_refl) as [_ M1], (F2' eq_refl) as [_ M2]. unfold midnight in *.
    unfold wall_ok in Sb, Se, EO. rewrite end_val in *. rewrite last_val, end_val. unfold DAY in *.
    refine (conj eq_refl (conj eq_refl (conj eq_refl (conj F1' (conj F2' (conj _ _)))))); lia. }
  assert (HL : ~ last_day (mk_ts k (Some b) (Some e) d p)).
  { no_class. injection Hb as <-. subst p. cbn [is_day andb] in EO. rewrite Hl, last_val in EO. unfold wall_ok in EO. rewrite end_val in EO.
    unfold DAY in EO. cbn in EO. discriminate. }
  destruct (is_day p && (n <? DAY)) eqn:ES.
  { apply andb_prop in ES as [EP ES]. apply HD in EP as ->. constructor; try assumption; no_class; try congruence; try discriminate Hu.
    match goal with H : apart _ _ _ _ |- _ => apply apart_gap in H; assert (n0 = n) by congruence end. subst n0.
    match goal with H : PDay = PDay -> _ |- _ => specialize (H eq_refl) end. lia. }
  destruct d as [d|]; cbn [is_none negb].
  { constructor; try assumption; no_class; discriminate. }
  assert (HA : n = 0 \/ in_units p n -> accepted E (mk_ts k (Some b) (Some e) None p)).
  { intros. apply (AC_end E k b e p n); [now apply fits_fitsb| now apply fits_fitsb | now apply apart_gap | lia | | assumption].
    intros ->. cbn in ES. lia. }
  assert (HA' : accepted E (mk_ts k (Some b) (Some e) None p) -> n = 0 \/ in_units p n).
  { intros X. inversion X; subst. match goal with H : apart _ _ _ _ |- _ => apply apart_gap in H; assert (n0 = n) by congruence end. now subst n0. }
  destruct (Z.eqb_spec n 0) as [-> | HN].
  { apply VD_ok. auto. }
  destruct (whole p n) as [[]|x] eqn:EW.
  { apply VD_ok. apply HA. right. now apply whole_units. }
  apply whole_err in EW as [[-> HU] | (-> & HU & HI)].
  - apply VD_no_unit. split; [exact HU|]. exists b. split; [easy|]. left. exists e, n. repeat split; try easy; [now apply apart_gap | lia].
  - constructor; auto.
    + intros X. apply HA' in X as [? | ?]; contradiction.
    + no_class; congruence.
Qed.

Lemma validate_checked k b e d p r : validate_base E (mk_ts k b e d p) = r -> (b <> None \/ e = None \/ k <> KEvent) ->
  validate E (mk_ts k b e d p) = r.
Proof.
  intros H HK. unfold validate. rewrite H. destruct r as [[]|]; [|reflexivity]. cbn [bind ts_kind ts_begin ts_end].
  destruct k, b, e; try reflexivity. destruct HK as [? | [? | ?]]; congruence.
Qed.
Lemma verdict_validate t : stored_span t -> verdict E t (validate E t).
Proof.
  intros [Sb Se]. destruct t as [k b e d p]. cbn [ts_begin ts_end] in Sb, Se.
  destruct b as [b|]; [specialize (Sb _ eq_refl) | clear Sb].
  - assert (HK : forall r, validate_base E (mk_ts k (Some b) e d p) = r -> validate E (mk_ts k (Some b) e d p) = r)
      by (intros; apply validate_checked; [easy | left; discriminate]).
    destruct e as [e|]; [specialize (Se _ eq_refl) | clear Se].
    + rewrite (HK _ (base_both k b e d p Sb Se)). now apply verdict_both.
    + destruct d as [d|].
      * rewrite (HK _ (base_dur k b d p Sb)).
        destruct (fitsb p b) eqn:F1; cbn [negb].
        2: { assert (p = PDay) as -> by (destruct p; easy). constructor; try assumption; no_class; try discriminate.
             match goal with H : fits _ b |- _ => apply fits_fitsb in H end. congruence. }
        destruct (Z.ltb_spec d 0).
        { constructor; try assumption; no_class; try discriminate; try congruence; try lia. injection Hd as <-. lia. }
        destruct (is_day p && (d <? DAY)) eqn:ES.
        { apply andb_prop in ES as [EP ES]. assert (p = PDay) as -> by (destruct p; easy).
          constructor; try assumption; no_class; try discriminate. match goal with H : PDay = PDay -> _ |- _ => specialize (H eq_refl) end. lia. }
        destruct (whole p d) as [[]|x] eqn:EW.
        { apply VD_ok. constructor; [now apply fits_fitsb | easy | intros ->; cbn in ES; lia | now apply whole_units]. }
        apply whole_err in EW as [[-> HU] | (-> & HU & HI)].
        { apply VD_no_unit. split; [exact HU|]. exists b. split; [easy|]. right. now exists d. }
        constructor; try assumption; no_class; try discriminate; try congruence; contradiction.
      * rewrite (HK _ (base_begin k b p Sb)). destruct (fitsb p b) eqn:F1; cbn [negb].
        { apply VD_ok. constructor. now apply fits_fitsb. }
        constructor; try assumption; no_class; try discriminate. match goal with H : fits _ b |- _ => apply fits_fitsb in H end. congruence.
  - unfold validate. rewrite base_open by exact Se. cbn [ts_kind ts_begin ts_end].
    destruct (match e with Some e => negb (fitsb p e) | None => false end) eqn:EF.
    { destruct e as [e|]; [|discriminate]. constructor; try assumption; no_class; try discriminate.
      match goal with H : fits _ e |- _ => apply fits_fitsb in H; rewrite H in EF end. discriminate. }
    destruct d as [d|]; cbn [is_none bind].
    { constructor; try assumption; no_class; discriminate. }
    destruct e as [e|].
    + assert (HF : fits p e) by (apply fits_fitsb; now destruct (fitsb p e)).
      destruct k; cbn [is_none negb andb guard]; try (apply VD_ok; constructor; easy).
      constructor; try assumption; no_class; try discriminate. congruence.
    + assert (verdict E (mk_ts k None None None p) (Ok tt)) by (apply VD_ok; constructor). destruct k; assumption.
Qed.
Theorem verdict_iff t r : stored_span t -> (verdict E t r <-> validate E t = r).
Proof.
  intros S. pose proof (verdict_validate t S) as V. split.
  - intros H. eapply verdict_fun; eassumption.
  - intros <-. exact V.
Qed.
Lemma accepted_valid t : stored_span t -> (accepted E t <-> validate E t = Ok tt).
Proof.
  intros S. rewrite <- verdict_iff by exact S. split; [apply VD_ok|]. now inversion 1.
Qed.
Theorem make_iff k b e d p r : stored_span (mk_ts k b e d p) ->
  (checked E (mk_ts k b e d p) r <-> make E k b e d p = r).
Proof.
  intros S. unfold make, checked. split.
  - intros (v & HV & ->). apply verdict_iff in HV; [|exact S]. rewrite HV. now destruct v as [[]|].
  - intros <-. exists (validate E (mk_ts k b e d p)). split; [now apply verdict_validate|]. now destruct (validate _ _) as [[]|].
Qed.

(** ** End and length *)
Lemma added_iff b d r : added b d r <-> dt_add b d = r.
Proof.
  unfold dt_add. split.
  - intros [H | H]; [apply in_range_ok in H as -> | apply in_range_no in H as ->]; reflexivity.
  - destruct (wall_ok _) eqn:EW; intros <-; constructor; [now apply in_range_ok | now apply in_range_no].
Qed.
Lemma empty_len t : (if is_day (ts_prec t) then US_DAY else 0) = empty_length t.
Proof. unfold empty_length. rewrite day_val. now destruct (ts_prec t). Qed.
Theorem length_iff t o : (forall b e, ts_begin t = Some b -> ts_end t = Some e -> ts_dur t = None -> comparable b e) ->
  (length_is E t o <-> eff_duration E t = Ok o).
Proof.
  intros HC. unfold eff_duration. rewrite empty_len. split.
  - intros [d H | b e n H1 H2 H3 H4 | H1 H2 H3 | H1 H2 H3]; [now rewrite H | ..]; rewrite H1.
    + rewrite H2, H3, sub_gap. apply apart_gap in H4 as ->. reflexivity.
    + rewrite H3. now destruct (ts_end t), (ts_begin t), H2.
    + destruct (ts_end t), (ts_begin t), (ts_kind t), H2; easy.
  - destruct (ts_dur t) as [d|] eqn:ED; [intros [= <-]; now constructor|].
    destruct (ts_end t) as [e|] eqn:EE, (ts_begin t) as [b|] eqn:EB.
    1: { rewrite sub_gap. destruct (gap b e) as [n|] eqn:EG; [|discriminate]. cbn. intros [= <-].
         eapply LE_between; eauto. now apply apart_gap. }
    all: destruct (ts_kind t) eqn:EK; intros [= <-];
      first [apply LE_event; now auto | apply LE_none; [now auto | now auto | congruence]].
Qed.
Theorem end_iff t r : end_is t r <-> eff_end E t = r.
Proof.
  unfold eff_end, eff_duration. rewrite empty_len. split.
  - intros [e H | b d r' H1 H2 H3 H4 | b r' H1 H2 H3 H4 H5 | b H1 H2 H3 H4 | H1 H2].
    + now rewrite H.
    + rewrite H1, H2, H3. apply added_iff in H4. cbn [bind]. now rewrite H4.
    + rewrite H1, H2, H3, H4. apply added_iff in H5. cbn [bind]. now rewrite H5.
    + rewrite H1, H2, H3. now destruct (ts_kind t).
    + now rewrite H1, H2.
  - destruct (ts_end t) as [e|] eqn:EE; [intros <-; now constructor|].
    destruct (ts_begin t) as [b|] eqn:EB; [|intros <-; now constructor].
    destruct (ts_dur t) as [d|] eqn:ED; cbn [bind].
    + intros <-. eapply EI_duration; eauto. now apply added_iff.
    + destruct (ts_kind t) eqn:EK; cbn [bind]; intros <-.
      1, 3: eapply EI_open; eauto; congruence.
      eapply EI_event; eauto. now apply added_iff.
Qed.

(** ** Changing the representation of the end *)
Lemma names_is k tg : names_end k tg <-> target_is_end k tg = true.
Proof. unfold names_end. destruct tg, k; cbn; intuition congruence. Qed.
Lemma make_accepted k b e d p : stored_span (mk_ts k b e d p) -> accepted E (mk_ts k b e d p) -> make E k b e d p = Ok (mk_ts k b e d p).
Proof. intros S H. unfold make. apply accepted_valid in H as ->; [reflexivity | exact S]. Qed.
Lemma make_verdict k b e d p x : stored_span (mk_ts k b e d p) -> verdict E (mk_ts k b e d p) (Err x) -> make E k b e d p = Err x.
Proof. intros S H. unfold make. apply verdict_iff in H as ->; [reflexivity | exact S]. Qed.
Lemma stored_sub k b e d p d' p' : stored_span (mk_ts k b e d p) -> stored_span (mk_ts k b None d' p').
Proof. intros [S _]. split; [exact S | discriminate]. Qed.
Lemma gap_moved b d : dtz b <> Some TzLocal -> gap b (moved b d) = Some d.
Proof.
  intros HL. unfold gap, moved, naive, instant, utcoffset. cbn [dtz wall fold].
  destruct (dtz b) as [[n|o|]|]; cbn; rewrite ?N.eqb_refl; try congruence; f_equal; lia.
Qed.
Definition one_open (t : timespan) (tg : target) : res timespan :=
  match tg with TNone => Ok t | _ => Err ValueError end.
Lemma conv_open k b p tg : ts_convert_end E (mk_ts k b None None p) tg = one_open (mk_ts k b None None p) tg.
Proof. unfold ts_convert_end. destruct tg; reflexivity. Qed.
Lemma conv_end k b e p tg : stored_span (mk_ts k b (Some e) None p) -> accepted E (mk_ts k b (Some e) None p) ->
  ts_convert_end E (mk_ts k b (Some e) None p) tg =
  if target_is_end k tg then Ok (mk_ts k b (Some e) None p) else
  match tg with
  | TNone => Ok (mk_ts k b None None p)
  | TDuration =>
      match b with
      | None => Ok (mk_ts k None None None p)
      | Some b' => match gap b' e with
        | Some n => match unit_of p with None => Err KeyError | Some _ => Ok (mk_ts k b None (Some n) p) end
        | None => Err TypeError end
      end
  | _ => Err ValueError
  end.
Proof.
  intros S HA. unfold ts_convert_end. cbn [end_representation ts_dur ts_end ts_kind].
  destruct (target_is_end k tg) eqn:ET; [destruct tg; reflexivity|]. destruct tg; cbn [andb]; try discriminate; try reflexivity.
  - unfold eff_duration, ts_replace. cbn [ts_dur ts_end ts_begin ts_kind ts_prec pick]. inversion HA; subst.
    + destruct k; try congruence; cbn [bind pick]; (rewrite make_accepted; [reflexivity | eapply stored_sub; exact S | constructor]).
    + match goal with H : apart _ _ _ _ |- _ => apply apart_gap in H; rewrite sub_gap, H end. cbn [rmap bind pick].
      destruct (unit_of p) as [u|] eqn:EU.
      * apply make_accepted; [eapply stored_sub; exact S|]. constructor; try assumption.
        match goal with H : _ \/ _ |- _ => destruct H as [-> | H]; [|exact H] end. exists u. split; [exact EU|]. rewrite Zmod_0_l. lia.
      * apply make_verdict; [eapply stored_sub; exact S|]. apply VD_no_unit. split; [exact EU|].
        eexists. split; [reflexivity|]. right. exists n. now repeat split.
  - unfold ts_replace. cbn [ts_dur ts_end ts_begin ts_kind ts_prec pick]. apply make_accepted; [eapply stored_sub; exact S|].
    inversion HA; subst; constructor; assumption.
Qed.
Lemma conv_dur k b d p tg : stored_span (mk_ts k (Some b) None (Some d) p) -> accepted E (mk_ts k (Some b) None (Some d) p) ->
  ts_convert_end E (mk_ts k (Some b) None (Some d) p) tg =
  if target_is_end k tg then
    do e <- dt_add b d; if fitsb p e then Ok (mk_ts k (Some b) (Some e) None p) else Err ValueError
  else match tg with
  | TNone => Ok (mk_ts k (Some b) None None p)
  | TDuration => Ok (mk_ts k (Some b) None (Some d) p)
  | _ => Err ValueError
  end.
Proof.
  intros S HA. assert (Sb : stored b) by (destruct S as [S _]; now apply S).
  inversion HA as [| | |k' b' d' p' Gf Gd Gday Gu|]; subst.
  unfold ts_convert_end. cbn [end_representation ts_dur ts_end ts_kind].
  assert (HN : target_is_end k tg = true -> bind (eff_end E (mk_ts k (Some b) None (Some d) p))
     (fun e => ts_replace E (mk_ts k (Some b) None (Some d) p) None (Some e) (Some None) None) =
     (do e <- dt_add b d; if fitsb p e then Ok (mk_ts k (Some b) (Some e) None p) else Err ValueError)).
  { intros _. unfold eff_end, eff_duration, ts_replace. cbn [ts_dur ts_end ts_begin ts_kind ts_prec pick bind].
    unfold dt_add. destruct (wall_ok (wall b + d)) eqn:EW; [|reflexivity]. cbn [rmap bind pick]. change (mk_dt (wall b + d) false (dtz b)) with (moved b d).
    assert (SE : stored_span (mk_ts k (Some b) (Some (moved b d)) None p)).
    { split; [intros x [= <-]; exact Sb | intros x [= <-]]. split; [exact EW | exact (proj2 Sb)]. }
    pose proof (gap_moved b d (proj2 Sb)) as EG.
    destruct (fitsb p (moved b d)) eqn:EF.
    - apply make_accepted; [exact SE|]. apply (AC_end E k b (moved b d) p d); auto; [now apply fits_fitsb | now apply apart_gap].
    - assert (p = PDay) as -> by (destruct p; easy). apply make_verdict; [exact SE|].
      clear HA. apply VD_value; no_class; try congruence.
      + match goal with H : fits _ (moved _ _) |- _ => apply fits_fitsb in H end. congruence.
      + injection He as <-. apply fits_fitsb in Hf'. congruence. }
  destruct (target_is_end k tg) eqn:ET.
  - destruct tg; try discriminate; cbn [andb]; now apply HN.
  - destruct tg; cbn [andb]; try discriminate; try reflexivity.
    unfold ts_replace. cbn [ts_dur ts_end ts_begin ts_kind ts_prec pick]. apply make_accepted; [eapply stored_sub; exact S|]. now constructor.
Qed.
Theorem convert_iff t tg r : stored_span t -> accepted E t -> (end_converted E t tg r <-> ts_convert_end E t tg = r).
Proof.
  intros S HA. destruct t as [k b e d p].
  assert (HT : target_is_end k tg = false -> tg <> TNone -> tg <> TDuration -> end_converted E (mk_ts k b e d p) tg (Err ValueError)).
  { intros H1 H2 H3. apply EC_unknown; [assumption | assumption | rewrite names_is; cbn; congruence]. }
  destruct d as [d|].
  - assert (exists b', b = Some b' /\ e = None) as (b' & -> & ->) by (inversion HA; subst; eauto).
    rewrite conv_dur by assumption. split.
    + intros [H H1 | H H1 | H | b e n H H1 H2 H3 H4 | b e H H1 H2 H3 | e H H1 H2 | b d' e H H1 H2 H3 H4 | b d' e H H1 H2 H3 | b d' e H H1 H2 H3 H4 | H H1 H2 | H H1 H2];
        cbn in *; try discriminate; try congruence; subst; try reflexivity.
      * injection H1 as <-. injection H2 as <-. apply names_is in H as ->. apply added_iff in H3 as ->. cbn [bind]. apply fits_fitsb in H4 as ->. reflexivity.
      * injection H1 as <-. injection H2 as <-. apply names_is in H as ->. apply added_iff in H3 as ->. reflexivity.
      * injection H1 as <-. injection H2 as <-. apply names_is in H as ->. apply added_iff in H3 as ->. cbn [bind].
        rewrite fits_fitsb in H4. apply not_true_is_false in H4 as ->. reflexivity.
      * rewrite names_is in H2. apply not_true_is_false in H2 as ->. now destruct tg.
    + intros <-. destruct (target_is_end k tg) eqn:ET.
      * assert (HN : names_end k tg) by now apply names_is.
        destruct (dt_add b' d) as [e|x] eqn:EA; cbn [bind].
        -- destruct (fitsb p e) eqn:EF.
           ++ eapply EC_to_end; cbn; eauto; [now apply added_iff | now apply fits_fitsb].
           ++ apply (EC_no_midnight E _ _ b' d e); cbn; auto; [now apply added_iff | rewrite fits_fitsb; congruence].
        -- apply (EC_beyond E _ _ b' d x); cbn; auto. now apply added_iff.
      * destruct tg; try discriminate; try (apply HT; easy).
        -- now apply EC_same_duration.
        -- now apply (EC_none E (mk_ts k (Some b') None (Some d) p)).
  - destruct e as [e|].
    + rewrite conv_end by assumption. split.
      * intros [H H1 | H H1 | H | b'' e' n H H1 H2 H3 H4 | b'' e' H H1 H2 H3 | e' H H1 H2 | b'' d' e' H H1 H2 H3 H4 | b'' d' e' H H1 H2 H3 | b'' d' e' H H1 H2 H3 H4 | H H1 H2 | H H1 H2];
        cbn in *; try discriminate; try congruence; subst; try reflexivity.
        -- apply names_is in H1 as ->. reflexivity.
        -- injection H2 as <-. cbn. apply apart_gap in H3 as ->. now destruct (unit_of p).
        -- injection H2 as <-. cbn. rewrite H3. inversion HA; subst.
           match goal with H : apart _ _ _ _ |- _ => apply apart_gap in H; rewrite H end. reflexivity.
        -- rewrite names_is in H2. apply not_true_is_false in H2 as ->. now destruct tg.
      * intros <-. destruct (target_is_end k tg) eqn:ET.
        -- apply EC_same_end; [easy | now apply names_is].
        -- destruct tg; try discriminate; try (apply HT; easy).
           ++ destruct b as [b|]; [|now apply (EC_due E (mk_ts k None (Some e) None p) _ e)].
              inversion HA; subst. match goal with H : apart _ _ _ _ |- _ => pose proof H as HG; apply apart_gap in HG; rewrite HG end.
              destruct (unit_of p) eqn:EU.
              ** eapply (EC_to_duration E (mk_ts k (Some b) (Some e) None p)); cbn; eauto; congruence.
              ** eapply EC_no_unit; cbn; eauto.
           ++ now apply (EC_none E (mk_ts k b (Some e) None p)).
    + rewrite conv_open. split.
      * intros [H H1 | H H1 | H | b'' e' n H H1 H2 H3 H4 | b'' e' H H1 H2 H3 | e' H H1 H2 | b'' d' e' H H1 H2 H3 H4 | b'' d' e' H H1 H2 H3 | b'' d' e' H H1 H2 H3 H4 | H H1 H2 | H H1 H2];
        cbn in *; try discriminate; try congruence; subst; try reflexivity; destruct tg; try reflexivity; congruence.
      * intros <-. destruct tg; cbn; try (apply EC_nothing; easy). now apply (EC_none E (mk_ts k b None None p)).
Qed.

(** ** Time zones *)
Lemma astimezone_iff d z r : in_zone E d z r <-> dt_astimezone E d z = r.
Proof.
  assert (HS : forall n, z = Some (TzObj n) -> dtz d = Some (TzObj n) -> dt_astimezone E d z = Ok d).
  { intros n -> H. unfold dt_astimezone, naive. rewrite H. cbn. now rewrite N.eqb_refl. }
  assert (HM : (forall n, ~ (z = Some (TzObj n) /\ dtz d = Some (TzObj n))) ->
    match z with Some _ => negb (naive d) && same_tz (dtz d) z | None => false end = false).
  { intros H. destruct z as [z|]; [|reflexivity]. unfold naive. destruct (dtz d) as [[n|o|]|] eqn:ED; cbn; try reflexivity.
    destruct z as [m|o|]; try reflexivity. destruct (N.eqb_spec n m) as [-> | ?]; [|reflexivity]. destruct (H m). easy. }
  assert (HU : (if dtz d then instant E d else wall d - env_local_off E (wall d) (fold d)) =
    wall d - match utcoffset E d with Some o => o | None => env_local_off E (wall d) (fold d) end).
  { unfold instant, utcoffset. destruct (dtz d); reflexivity. }
  assert (HF : forall z' u, match z' with TzObj n => env_fromutc E n u | TzFixed o => (u + o, false) | TzLocal => env_tzl_fromutc E u end = tz_fromutc E z' u)
    by (intros [] ?; reflexivity).
  split.
  - intros [n H1 H2 | u z' w f H1 H2 H3 H4 H5 H6 | u H1 H2 H3 | u z' w f H1 H2 H3 H4 H5 H6].
    + eauto.
    + unfold dt_astimezone. rewrite HM by exact H1. cbv zeta. rewrite <- HU, <- H2. apply in_range_ok in H3 as ->.
      rewrite <- H4, <- HF, <- H5. apply in_range_ok in H6 as ->. reflexivity.
    + unfold dt_astimezone. rewrite HM by exact H1. cbv zeta. rewrite <- HU, <- H2. apply in_range_no in H3 as ->. reflexivity.
    + unfold dt_astimezone. rewrite HM by exact H1. cbv zeta. rewrite <- HU, <- H2. apply in_range_ok in H3 as ->.
      rewrite <- H4, <- HF, <- H5. apply in_range_no in H6 as ->. reflexivity.
  - intros <-. destruct (match z with Some _ => negb (naive d) && same_tz (dtz d) z | None => false end) eqn:EM.
    + destruct z as [z|]; [|discriminate]. apply andb_prop in EM as [_ EM].
      destruct (dtz d) as [[n|o|]|] eqn:ED, z as [m|o'|]; try discriminate. apply N.eqb_eq in EM as ->.
      rewrite (HS m) by easy. now apply (IZ_same E d _ m).
    + assert (HN : forall n, ~ (z = Some (TzObj n) /\ dtz d = Some (TzObj n))).
      { intros n [-> H]. unfold naive in EM. rewrite H in EM. cbn in EM. rewrite N.eqb_refl in EM. discriminate. }
      unfold dt_astimezone. rewrite EM. cbv zeta. rewrite <- HU.
      set (u := if dtz d then instant E d else wall d - env_local_off E (wall d) (fold d)).
      destruct (wall_ok u) eqn:EU.
      * set (z' := match z with Some z0 => z0 | None => TzFixed (env_local_utc E u) end).
        destruct (tz_fromutc E z' u) as [w f] eqn:EF. destruct (wall_ok w) eqn:EW.
        -- apply (IZ_moved E d z u z' w f HN eq_refl); [now apply in_range_ok | reflexivity | now rewrite HF | now apply in_range_ok].
        -- apply (IZ_out E d z u z' w f HN eq_refl); [now apply in_range_ok | reflexivity | now rewrite HF | now apply in_range_no].
      * apply (IZ_early E d z u HN eq_refl). now apply in_range_no.
Qed.
Lemma each_iff f g o r : (forall d r, f d r <-> g d = r) -> (each_time f o r <-> opt_res g o = r).
Proof.
  intros H. split.
  - intros [| d r' H1]; [reflexivity|]. apply H in H1. cbn. now rewrite H1.
  - intros <-. destruct o as [d|]; cbn; constructor. now apply H.
Qed.
Lemma stored_conv z d r : z <> Some TzLocal -> dt_astimezone E d z = Ok r -> stored d -> stored r.
Proof.
  intros HZ H Hd. apply astimezone_iff in H. inversion H; subst; [exact Hd|]. split; cbn; [now apply in_range_ok|].
  destruct z; congruence.
Qed.
Lemma stored_repl z d : z <> Some TzLocal -> stored d -> stored (mk_dt (wall d) (fold d) z).
Proof. intros HZ [H _]. now split. Qed.
Lemma is_day_iff p : is_day p = true <-> p = PDay. Proof. destruct p; easy. Qed.

Lemma rezoned_iff t f g r : (forall d r, f d r <-> g d = r) ->
  (forall d d', stored d -> g d = Ok d' -> stored d') -> stored_span t ->
  (rezoned E t f r <->
   (do _ <- guard (is_all_day t) ValueError;
    do b <- opt_res g (ts_begin t); do e <- opt_res g (ts_end t); make E (ts_kind t) b e (ts_dur t) (ts_prec t)) = r).
Proof.
  intros HF HG [Sb Se]. unfold is_all_day.
  assert (HS : forall b e, opt_res g (ts_begin t) = Ok b -> opt_res g (ts_end t) = Ok e ->
    stored_span (mk_ts (ts_kind t) b e (ts_dur t) (ts_prec t))).
  { intros b e H1 H2. split; cbn.
    - intros x ->. destruct (ts_begin t) as [y|] eqn:EB; [|discriminate]. cbn in H1. destruct (g y) eqn:EG; [|discriminate].
      injection H1 as <-. eapply HG; [|exact EG]. now apply Sb.
    - intros x ->. destruct (ts_end t) as [y|] eqn:EB; [|discriminate]. cbn in H2. destruct (g y) eqn:EG; [|discriminate].
      injection H2 as <-. eapply HG; [|exact EG]. now apply Se. }
  split.
  - intros [H | x H H1 | b x H H1 H2 | b e r' H H1 H2 H3].
    1: { rewrite H. reflexivity. }
    all: rewrite <- is_day_iff in H; apply not_true_is_false in H as ->; cbn [guard bind].
    all: apply (each_iff f g) in H1; [rewrite H1; cbn [bind]|exact HF]; try reflexivity.
    all: apply (each_iff f g) in H2; [rewrite H2; cbn [bind]|exact HF]; try reflexivity.
    apply make_iff in H3; [exact H3 | now apply HS].
  - intros <-. destruct (is_day (ts_prec t)) eqn:ED; cbn [guard bind].
    { apply RZ_day. now apply is_day_iff. }
    assert (HP : ts_prec t <> PDay) by (rewrite <- is_day_iff; congruence).
    destruct (opt_res g (ts_begin t)) as [b|x] eqn:EB; cbn [bind].
    2: { apply RZ_begin; [exact HP | now apply (each_iff f g)]. }
    destruct (opt_res g (ts_end t)) as [e|x] eqn:EE; cbn [bind].
    2: { eapply RZ_end; [exact HP | apply (each_iff f g); [exact HF | exact EB] | now apply (each_iff f g)]. }
    eapply RZ_span; [exact HP | apply (each_iff f g); [exact HF | exact EB] | apply (each_iff f g); [exact HF | exact EE] |].
    apply make_iff; [now apply HS | reflexivity].
Qed.
Theorem replace_tz_iff t z r : z <> Some TzLocal -> stored_span t ->
  (rezoned E t (with_zone z) r <-> ts_replace_timezone E t z = r).
Proof.
  intros HZ S. rewrite (rezoned_iff t _ (fun d => Ok (dt_replace_tz d z))); [|..| exact S].
  - unfold ts_replace_timezone, ts_replace. destruct t as [k b e d p]. destruct b, e; reflexivity.
  - intros d r'. unfold with_zone, dt_replace_tz. split; congruence.
  - intros d d' Hd [= <-]. now apply stored_repl.
Qed.
Theorem convert_tz_iff t z r : z <> Some TzLocal -> stored_span t ->
  (rezoned E t (fun d => in_zone E d z) r <-> ts_convert_timezone E t z = r).
Proof.
  intros HZ S. rewrite (rezoned_iff t _ (fun d => dt_astimezone E d z)); [|..| exact S].
  - unfold ts_convert_timezone, ts_replace. destruct t as [k b e d p]. cbn [ts_begin ts_end ts_kind ts_dur ts_prec pick].
    destruct (guard _ _); cbn [bind]; [|reflexivity]. destruct (opt_res _ b); cbn [bind]; [|reflexivity].
    destruct e as [e|]; cbn [opt_res]; [|reflexivity]. destruct (dt_astimezone E e z); reflexivity.
  - intros d r'. apply astimezone_iff.
  - intros d d' Hd H. eapply stored_conv; eauto.
Qed.
End Ops.
