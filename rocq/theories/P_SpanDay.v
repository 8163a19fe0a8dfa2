(** * Proofs: making a span last whole days *)
From Verif Require Import M_Base M_Codec M_Cal M_Time M_Span S_Span P_Span S_SpanOps P_SpanOps.
From Coq Require Import Lia ZifyBool ZifyNat ZifyN.
Open Scope Z_scope.

Definition fl (w : Z) : Z := w - w mod DAY.
Definition ce (w : Z) : Z := if w mod DAY =? 0 then w else w - w mod DAY + DAY.
Lemma floor_iff w f : floor_of w f <-> f = fl w.
Proof. unfold floor_of, fl, DAY. split; [intros [? ?]; lia | intros ->; split; [|lia]; rewrite Zminus_mod_idemp_r, Z.sub_diag; reflexivity]. Qed.
Lemma ceil_iff w c : ceil_of w c <-> c = ce w.
Proof. unfold ceil_of, ce, DAY. destruct (Z.eqb_spec (w mod 86400000000) 0); split; intros; lia. Qed.
Definition lm (fb : option Z) (w : Z) : Z :=
  match fb with Some f => if ce w =? f then ce w + DAY else ce w | None => ce w end.
Lemma lm_iff fb w c : last_midnight fb w c <-> c = lm fb w.
Proof.
  unfold lm. split.
  - intros [c' H1 H2 | c' H1 H2]; apply ceil_iff in H1 as ->.
    + destruct fb as [f|]; [|reflexivity]. destruct (Z.eqb_spec (ce w) f); congruence.
    + subst fb. now rewrite Z.eqb_refl.
  - intros ->. destruct fb as [f|]; [destruct (Z.eqb_spec (ce w) f)|].
    + apply LD_next; [now apply ceil_iff | congruence].
    + apply LD_ceil; [now apply ceil_iff | congruence].
    + apply LD_ceil; [now apply ceil_iff | discriminate].
Qed.
Lemma fl_mod w : fl w mod DAY = 0. Proof. destruct (proj2 (floor_iff w _) eq_refl). assumption. Qed.
Lemma ce_mod w : ce w mod DAY = 0. Proof. destruct (proj2 (ceil_iff w _) eq_refl). assumption. Qed.
Lemma lm_mod fb w : lm fb w mod DAY = 0.
Proof.
  pose proof (ce_mod w). unfold lm, DAY in *. destruct fb as [f|]; [destruct (ce w =? f)|]; lia.
Qed.
Lemma fl_range w : wall_ok w = true -> wall_ok (fl w) = true.
Proof. unfold wall_ok, fl. rewrite end_val. unfold DAY. lia. Qed.
Lemma lm_far f w : f mod DAY = 0 -> f <= lm (Some f) w -> f + DAY <= lm (Some f) w.
Proof.
  pose proof (lm_mod (Some f) w) as H. intros H1 H2. assert (lm (Some f) w <> f).
  { unfold lm. destruct (Z.eqb_spec (ce w) f); unfold DAY; lia. }
  unfold DAY in *. lia.
Qed.

Section Day.
Variable E : env.
Definition fb_of (t : timespan) : option Z := option_map (fun b => fl (wall b)) (ts_begin t).
Definition day_value (t : timespan) : res timespan :=
  if is_day (ts_prec t) then Ok t else
  do e <- eff_end E t;
  match e with
  | None => Ok (mk_ts (ts_kind t) (option_map (fun b => day_at (fl (wall b))) (ts_begin t)) None None PDay)
  | Some e =>
      let c := lm (fb_of t) (wall e) in
      if negb (wall_ok c) then Err OverflowError else
      match ts_begin t with
      | None => Ok (mk_ts (ts_kind t) None (Some (day_at c)) None PDay)
      | Some b =>
          let f := fl (wall b) in
          if c <? f then Err ValueError else
          match ts_dur t with
          | None => Ok (mk_ts (ts_kind t) (Some (day_at f)) (Some (day_at c)) None PDay)
          | Some _ => Ok (mk_ts (ts_kind t) (Some (day_at f)) None (Some (c - f)) PDay)
          end
      end
  end.
Lemma eff_end_stored t e : stored_span t -> eff_end E t = Ok (Some e) -> stored e.
Proof.
  intros [Sb Se] H. unfold eff_end in H. destruct (ts_end t) as [x|]; [injection H as <-; now apply Se|].
  destruct (ts_begin t) as [b|]; [|discriminate]. destruct (eff_duration E t) as [[d|]|]; try discriminate. cbn in H.
  unfold dt_add in H. destruct (wall_ok (wall b + d)) eqn:EW; [|discriminate]. injection H as <-.
  split; [exact EW | exact (proj2 (Sb _ eq_refl))].
Qed.
Lemma fits_day_at w : w mod DAY = 0 -> fits PDay (day_at w).
Proof. intros H _. split; [reflexivity | exact H]. Qed.
Lemma stored_day_at w : wall_ok w = true -> stored (day_at w).
Proof. intros H. now split. Qed.
(** The last midnight computed. *)
Lemma ceil_step e fb : stored e -> (forall f, fb = Some f -> wall_ok f = true) ->
  (do c <- ceil_midnight E e; let c := dt_replace_tz c None in
   if opt_dt_eqb E (Some c) (option_map day_at fb) then rmap Some (dt_add c US_DAY) else Ok (Some c)) =
  if wall_ok (lm fb (wall e)) then Ok (Some (day_at (lm fb (wall e)))) else Err OverflowError.
Proof.
  intros Se HF. rewrite ceil_value by exact Se. rewrite day_val.
  assert (HC : (if wall e mod DAY =? 0 then Ok (mk_dt (wall e) false (dtz e)) else dt_add (floor_midnight e) DAY) =
    if wall_ok (ce (wall e)) then Ok (mk_dt (ce (wall e)) false (dtz e)) else Err OverflowError).
  { unfold ce. destruct (wall e mod DAY =? 0); [now rewrite (proj1 Se)|]. unfold dt_add, floor_midnight. cbn [wall dtz]. now rewrite day_val. }
  rewrite HC. set (c := ce (wall e)).
  assert (HL : lm fb (wall e) = match fb with Some f => if c =? f then c + DAY else c | None => c end) by reflexivity.
  rewrite HL. destruct (wall_ok c) eqn:EW; cbn [bind].
  - unfold dt_replace_tz. cbn [wall fold]. destruct fb as [f|]; cbn [option_map opt_dt_eqb].
    + rewrite dt_eqb_naive by reflexivity. cbn [wall day_at]. destruct (c =? f); [|now rewrite EW].
      unfold dt_add. cbn [wall dtz]. destruct (wall_ok (c + DAY)); reflexivity.
    + rewrite EW. reflexivity.
  - destruct fb as [f|]; [|now rewrite EW]. destruct (Z.eqb_spec c f) as [H|H]; [|now rewrite EW].
    rewrite H in EW. rewrite (HF f eq_refl) in EW. discriminate.
Qed.
Lemma day_value_ok t : stored_span t -> accepted E t -> ts_make_all_day E t = day_value t.
Proof.
  intros S HA. unfold ts_make_all_day, day_value, is_all_day. destruct (is_day (ts_prec t)) eqn:EP; [reflexivity|].
  assert (EB : option_map (fun d => dt_replace_tz (floor_midnight d) None) (ts_begin t) = option_map day_at (fb_of t)).
  { unfold fb_of. destruct (ts_begin t) as [b|]; [|reflexivity]. cbn. unfold dt_replace_tz, floor_midnight, day_at, fl. cbn [wall fold]. now rewrite day_val. }
  rewrite EB. assert (HF : forall f, fb_of t = Some f -> wall_ok f = true /\ f mod DAY = 0).
  { unfold fb_of. destruct S as [Sb _]. destruct (ts_begin t) as [b|]; [|discriminate]. intros f [= <-].
    split; [|apply fl_mod]. apply fl_range. exact (proj1 (Sb b eq_refl)). }
  destruct (eff_end E t) as [[e|]|x] eqn:EE; cbn [bind]; [|..].
  - rewrite ceil_step; [|eapply eff_end_stored; eassumption | intros f H; now apply HF].
    cbv zeta. set (c := lm (fb_of t) (wall e)). destruct (wall_ok c) eqn:EW; cbn [bind negb]; [|reflexivity].
    assert (HCM : c mod DAY = 0) by apply lm_mod.
    destruct (ts_begin t) as [b|] eqn:EBt.
    + assert (EFB : fb_of t = Some (fl (wall b))) by (unfold fb_of; now rewrite EBt).
      destruct (HF _ EFB) as [HFW HFM]. rewrite EFB. cbn [option_map].
      assert (Efar : (c <? fl (wall b)) = false -> fl (wall b) + DAY <= c).
      { intros H. unfold c. rewrite EFB. apply lm_far; [exact HFM|]. unfold c in H. rewrite EFB in H. lia. }
      set (f := fl (wall b)) in *.
      assert (EG : gap E (day_at f) (day_at c) = Some (c - f)) by reflexivity.
      assert (ER : ts_dur t = None ->
        ts_replace E t (Some (Some (day_at f))) (Some (Some (day_at c))) (Some None) (Some PDay) =
        if c <? f then Err ValueError else Ok (mk_ts (ts_kind t) (Some (day_at f)) (Some (day_at c)) None PDay)).
      { intros _. unfold ts_replace. cbn [pick].
        assert (SS : stored_span (mk_ts (ts_kind t) (Some (day_at f)) (Some (day_at c)) None PDay))
          by (split; intros x [= <-]; now apply stored_day_at).
        destruct (Z.ltb_spec c f) as [HL|HL].
        - apply make_verdict; [exact SS|]. clear HA. apply VD_value.
          + intros X. inversion X; subst. match goal with H : apart _ _ _ _ |- _ => apply apart_gap in H; rewrite EG in H; injection H as <- end. lia.
          + intros (b' & e' & _ & _ & Hp & _). now apply Hp.
          + intros (b' & e' & Hb & He & _ & _ & _ & Hw & _). cbn in Hb, He. injection Hb as <-. injection He as <-. cbn in Hw. lia.
          + intros (Hu & _). discriminate Hu.
        - apply make_accepted; [exact SS|]. specialize (Efar eq_refl).
          apply (AC_end E (ts_kind t) (day_at f) (day_at c) PDay (c - f)).
          + now apply fits_day_at.
          + now apply fits_day_at.
          + now apply apart_gap.
          + lia.
          + intros _. lia.
          + right. exists DAY. split; [reflexivity|]. rewrite Zminus_mod, HCM, HFM. change ((0 - 0) mod DAY) with 0. lia. }
      unfold end_representation. destruct (ts_dur t) as [d|] eqn:ED.
      * rewrite sub_gap, EG. cbn [bind]. unfold ts_replace. cbn [pick].
        assert (SS : stored_span (mk_ts (ts_kind t) (Some (day_at f)) None (Some (c - f)) PDay))
          by (split; [intros x [= <-]; now apply stored_day_at | discriminate]).
        destruct (Z.ltb_spec c f) as [HL|HL].
        -- apply make_verdict; [exact SS|]. clear HA. apply VD_value.
           ++ intros X. inversion X; subst. lia.
           ++ intros (b' & e' & _ & He & _). discriminate He.
           ++ intros (b' & e' & _ & He & _). discriminate He.
           ++ intros (Hu & _). discriminate Hu.
        -- apply make_accepted; [exact SS|]. specialize (Efar eq_refl).
           constructor; [now apply fits_day_at | lia | intros _; lia |].
           exists DAY. split; [reflexivity|]. rewrite Zminus_mod, HCM, HFM. change ((0 - 0) mod DAY) with 0. lia.
      * destruct (ts_end t); now apply ER.
    + assert (EFB : fb_of t = None) by (unfold fb_of; now rewrite EBt).
      assert (exists e', ts_end t = Some e' /\ ts_dur t = None /\ ts_kind t <> KEvent) as (e' & HE & HD & HK).
      { unfold eff_end in EE. rewrite EBt in EE. destruct HA; cbn in *; try discriminate. eauto. }
      unfold end_representation. rewrite HD, HE, EFB. cbn [option_map]. unfold ts_replace. cbn [pick].
      apply make_accepted.
      * split; [discriminate | intros x [= <-]; now apply stored_day_at].
      * constructor; [exact HK | now apply fits_day_at].
  - assert (ts_dur t = None /\ ts_end t = None) as [HD HE].
    { unfold eff_end, eff_duration in EE. destruct HA; cbn in *; try discriminate; auto.
      destruct (dt_add b d); discriminate. }
    unfold end_representation. rewrite HD, HE. unfold ts_replace. cbn [pick].
    replace (option_map (fun b => day_at (fl (wall b))) (ts_begin t)) with (option_map day_at (fb_of t))
      by (unfold fb_of; now destruct (ts_begin t)).
    apply make_accepted.
    + split; [|discriminate]. cbn. intros x H. destruct (fb_of t) as [f|]; [|discriminate]. injection H as <-. apply stored_day_at. now apply HF.
    + destruct (fb_of t) as [f|]; constructor. apply fits_day_at. now apply HF.
  - reflexivity.
Qed.
Theorem all_day_iff t r : stored_span t -> accepted E t -> (all_day E t r <-> ts_make_all_day E t = r).
Proof.
  intros S HA. rewrite day_value_ok by assumption. unfold day_value, fb_of. split.
  - intros H. destruct H.
    1: { rewrite H. reflexivity. }
    all: rewrite <- is_day_iff in H; apply not_true_is_false in H as ->.
    all: match goal with H : end_is _ _ |- _ => apply (end_iff E) in H; rewrite H end; cbn [bind]; try reflexivity.
    all: match goal with H : ts_begin _ = _ |- _ => rewrite H end; cbn [option_map].
    all: repeat match goal with
      | H : floor_of _ _ |- _ => apply floor_iff in H; subst
      | H : last_midnight _ _ _ |- _ => apply lm_iff in H; subst
      | H : ~ in_range _ |- _ => apply in_range_no in H; rewrite H
      | H : in_range _ |- _ => apply in_range_ok in H; rewrite H
      end; cbn [negb]; try reflexivity.
    + replace (_ <? _) with true by lia. reflexivity.
    + replace (_ <? _) with false by lia. match goal with H : ts_dur _ = _ |- _ => rewrite H end. reflexivity.
    + replace (_ <? _) with false by lia. destruct (ts_dur t); [reflexivity | congruence].
  - intros <-. destruct (is_day (ts_prec t)) eqn:EP; [apply DY_already; now apply is_day_iff|].
    assert (HP : ts_prec t <> PDay) by (rewrite <- is_day_iff; congruence).
    destruct (eff_end E t) as [[e|]|x] eqn:EE; cbn [bind]; apply (end_iff E) in EE.
    + destruct (ts_begin t) as [b|] eqn:EB; cbn [option_map]; cbv zeta.
      * set (c := lm (Some (fl (wall b))) (wall e)).
        assert (HF : floor_of (wall b) (fl (wall b))) by now apply floor_iff.
        assert (HL : last_midnight (Some (fl (wall b))) (wall e) c) by now apply lm_iff.
        destruct (wall_ok c) eqn:EW; cbn [negb].
        -- assert (HR : in_range c) by now apply in_range_ok.
           destruct (Z.ltb_spec c (fl (wall b))) as [H|H].
           ++ eapply DY_reversed; eauto.
           ++ assert (fl (wall b) < c) by (pose proof (lm_far (fl (wall b)) (wall e) (fl_mod _) H); unfold c, DAY in *; lia).
              destruct (ts_dur t) as [d|] eqn:ED; [eapply DY_duration; eauto; congruence | eapply DY_end; eauto].
        -- eapply DY_out; eauto. now apply in_range_no.
      * assert (HL : last_midnight None (wall e) (lm None (wall e))) by now apply lm_iff.
        destruct (wall_ok (lm None (wall e))) eqn:EW; cbn [negb].
        -- eapply DY_due; eauto. now apply in_range_ok.
        -- eapply DY_due_out; eauto. now apply in_range_no.
    + destruct (ts_begin t) as [b|] eqn:EB; cbn [option_map].
      * apply (DY_begin E t b); auto. now apply floor_iff.
      * now apply DY_open.
    + now apply DY_end_fails.
Qed.
End Day.
