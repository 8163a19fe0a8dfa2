(** * Proofs about coordinates *)
From Verif Require Import M_Base P_Base M_Text M_Line M_Codec S_Codec P_Codec M_Cal M_Time M_Span M_Dt M_Comp S_Tree S_Store S_Ref S_Again M_Float S_Float P_Float P_Float2 P_Float3 P_Float4.
From Coq Require Import Lia ZifyBool ZifyNat ZifyN.
Open Scope Z_scope.

Lemma float_text_chars t P c : float_text t P -> In c t -> c <> 59%N.
Proof.
  assert (W : forall t w neg, In w words -> word_of w t neg -> In c t -> c <> 59%N).
  { clear t P. intros t w neg HW (l & s & u & r & -> & HL & HR & HS & HU) HI. apply in_app_or in HI as [HI|HI]; [specialize (HL c HI); lia|].
    apply in_app_or in HI as [HI|HI]; [apply (sign_chars _ _ _ HS) in HI; lia|]. apply in_app_or in HI as [HI|HI]; [apply (spells_letter _ _ _ HW HU) in HI; lia|specialize (HR c HI); lia]. }
  intros [t' neg n d H|t' neg w HW H|t' neg H]; intros HI.
  - destruct H as (l & s & m & ds & k & e & x & r & -> & HL & HR & HS & HM & HE & _). apply in_app_or in HI as [HI|HI]; [specialize (HL c HI); lia|].
    apply in_app_or in HI as [HI|HI]; [apply (sign_chars _ _ _ HS) in HI; lia|]. apply in_app_or in HI as [HI|HI]; [apply (mantissa_chars _ _ _ _ HM) in HI; lia|].
    apply in_app_or in HI as [HI|HI]; [apply (exponent_chars _ _ _ HE) in HI; lia|specialize (HR c HI); lia].
  - apply (W t' w neg); [destruct HW as [-> | ->]; cbn; auto|easy|easy].
  - apply (W t' (py "nan") neg); [cbn; auto|easy|easy].
Qed.
Lemma signed_numeral t neg n k : signed t neg n k -> exists d, numeral t neg n d /\ d = 10 ^ k.
Proof.
  assert (N0 : forall ds v, number ds v -> under ds ds).
  { intros ds v (HN & HD & _). induction ds as [|c ds IH]; [easy|]. destruct ds as [|c' ds]; [constructor; apply HD; now left|].
    apply U_next; [apply HD; now left|]. apply IH; [discriminate|]. intros a HA. apply HD. now right. }
  assert (D : forall t n k, decimal t n k -> exists ds, mantissa t ds k /\ n = Z.of_N (undec ds) /\ 0 <= k).
  { intros u a b [ds v H|ds v fs f H H'].
    - exists ds. split; [constructor; now apply (N0 _ v)|]. destruct H as (_ & _ & ->). now split.
    - exists (ds ++ fs). split; [constructor; [constructor; now apply (N0 _ v)|constructor; now apply (N0 _ f)|]|].
      + destruct H as (H & _). now destruct ds.
      + destruct H as (_ & _ & ->), H' as (_ & _ & ->). split; [|lia]. rewrite undec_app, N2Z.inj_add, N2Z.inj_mul, N2Z.inj_pow, nat_N_Z. lia. }
  assert (G : forall u s neg n k, decimal u n k -> sign s neg -> exists d, numeral (s ++ u) neg n d /\ d = 10 ^ k).
  { clear t neg n k. intros u s neg n k H HS. destruct (D _ _ _ H) as (ds & HM & -> & Hk). exists (10 ^ k). split; [|easy]. exists [], s, u, ds, k, [], 0, [].
    rewrite !app_nil_r. cbn [app]. split; [easy|]. split; [now intros c []|]. split; [now intros c []|]. split; [easy|]. split; [easy|]. split; [constructor|]. rewrite (Z.max_l 0 (0 - k)), (Z.max_r 0 (k - 0)) by lia.
    rewrite Z.pow_0_r, Z.mul_1_r. split; [easy|]. f_equal. lia. }
  intros [t' n' k' H|t' n' k' H|t' n' k' H]; unfold sign in G; [apply (G t' [] false n' k')|apply (G t' (py "+") false n' k')|apply (G t' (py "-") true n' k')]; auto.
Qed.
Lemma read_signed_rounded t neg n k : signed t neg n k -> exists b, fl_read t = Ok b /\ rounded neg n (10 ^ k) b.
Proof. intros H. apply signed_numeral in H as (d & H & ->). destruct (read_text _ _ (FT_number _ _ _ _ H)) as (b & HB). eauto. Qed.

Section Geo.
Variable X : ext.
Hypothesis HX : float_ext X.
Let HF : forall s, x_float X s = fl_read s := proj1 HX.
Let HS : forall b, x_ffmt X b = fl_show b := proj2 HX.
Lemma geo_split u v : ~ In 59%N u -> geo_parse X (u ++ py ";" ++ v) = do a <- fl_read u; do b <- fl_read v; Ok (a, b).
Proof.
  intros H. unfold geo_parse. change (py ";") with [c_semi]. rewrite find_char_app_notin by exact H. cbn [app]. rewrite find_char_here.
  rewrite Nat.add_0_r, firstn_app, firstn_all, Nat.sub_diag. cbn [firstn]. rewrite app_nil_r.
  rewrite skipn_app, skipn_all2 by lia. replace (S (length u) - length u)%nat with 1%nat by lia. cbn [skipn app]. now rewrite !HF.
Qed.
Lemma geo_read u v P Q ps zs : float_text u P -> float_text v Q -> exists a b, vparse X Geo (u ++ py ";" ++ v) ps zs = Ok (VGeo a b, ps, zs) /\ P a /\ Q b.
Proof.
  intros HU HV. destruct (read_text _ _ HU) as (a & HA & HP), (read_text _ _ HV) as (b & HB & HQ). exists a, b. split; [|easy].
  cbn [vparse]. rewrite geo_split; [now rewrite HA; cbn [bind]; rewrite HB|]. intros HI. now apply (float_text_chars _ _ _ HU) in HI.
Qed.
Lemma geo_inv s ps zs r : vparse X Geo s ps zs = Ok r -> exists u v P Q, s = u ++ py ";" ++ v /\ float_text u P /\ float_text v Q.
Proof.
  cbn [vparse]. unfold geo_parse. destruct (find_char c_semi s) as [i|] eqn:EF; [|discriminate]. apply find_char_Some in EF as (E1 & _).
  rewrite !HF. destruct (fl_read (firstn i s)) as [a|] eqn:EA; [|discriminate]. cbn [bind]. destruct (fl_read (skipn (S i) s)) as [b|] eqn:EB; [|discriminate]. intros _.
  apply read_inv in EA as (P & HP), EB as (Q & HQ). exists (firstn i s), (skipn (S i) s), P, Q. now split.
Qed.
Lemma geo_err s ps zs e : vparse X Geo s ps zs = Err e -> e = ValueError /\ ~ exists u v P Q, s = u ++ py ";" ++ v /\ float_text u P /\ float_text v Q.
Proof.
  intros H. split.
  - revert H. cbn [vparse]. unfold geo_parse. destruct (find_char c_semi s) as [i|]; [|cbn; congruence]. rewrite !HF.
    destruct (fl_read (firstn i s)) as [a|e1] eqn:E1; cbn [bind].
    + destruct (fl_read (skipn (S i) s)) as [b|e2] eqn:E2; cbn [bind]; [discriminate|]. intros [= <-]. now apply read_err in E2.
    + intros [= <-]. now apply read_err in E1.
  - intros (u & v & P & Q & -> & HU & HV). destruct (geo_read u v P Q ps zs HU HV) as (a & b & HR & _). congruence.
Qed.
Lemma geo_stable a b ps zs : bits a -> bits b -> exists t a' b',
  vserialize X Geo (VGeo a b) ps zs = Ok (t, ps, zs) /\ vparse X Geo t ps zs = Ok (VGeo a' b', ps, zs) /\ vserialize X Geo (VGeo a' b') ps zs = Ok (t, ps, zs).
Proof.
  intros HA HB. destruct (stable a HA) as (a' & RA & SA), (stable b HB) as (b' & RB & SB). exists (fl_show a ++ py ";" ++ fl_show b), a', b'.
  cbn [vserialize vparse]. rewrite !HS, SA, SB. split; [easy|]. split; [|easy]. rewrite geo_split by (intros HI; now apply show_chars in HI). rewrite RA. cbn [bind]. now rewrite RB.
Qed.
Lemma geo_kept u v s n k s' n' k' : signed u s n k -> signed v s' n' k' -> k <= 6 -> k' <= 6 ->
  exists a b, (forall ps zs, vparse X Geo (u ++ py ";" ++ v) ps zs = Ok (VGeo a b, ps, zs)) /\ storable_val X Geo (VGeo a b) /\ keepable_val X (VGeo a b).
Proof.
  intros HU HV Hk Hk'. destruct (read_signed_rounded _ _ _ _ HU) as (a & HA & _), (read_signed_rounded _ _ _ _ HV) as (b & HB & _). exists a, b.
  pose proof (six_kept _ _ _ _ _ HU Hk HA) as KA. pose proof (six_kept _ _ _ _ _ HV Hk' HB) as KB.
  split; [|split].
  - intros. cbn [vparse]. rewrite geo_split; [rewrite HA; cbn [bind]; now rewrite HB|]. intros HI. pose proof (plainc_sep _ (signed_chars _ _ _ _ HU _ HI)). tauto.
  - constructor; rewrite ?HF, ?HS; [easy|easy|]. intros HI. now apply show_chars in HI.
  - cbn [keepable_val]. now rewrite !HF, !HS.
Qed.
Lemma geo_text_env a c : In c [59; 13; 10]%N -> ~ In c (x_ffmt X a).
Proof. intros HC HI. rewrite HS in HI. apply show_chars in HI. cbn [In] in HC. intuition congruence. Qed.
End Geo.
