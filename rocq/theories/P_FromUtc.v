(** * Proofs about conversions between UTC and a zone *)
From Verif Require Import M_Base P_Base M_Codec M_Cal P_Span M_Zone S_Zone P_Zone M_FromUtc S_FromUtc.
From Coq Require Import Lia ZifyBool.
Open Scope Z_scope.
Local Opaque CACHE_SIZE.

Lemma room_ok u x : room u -> u - 4 * US_DAY <= x <= u + 4 * US_DAY -> wall_ok x = true.
Proof. unfold room, wall_ok. rewrite !andb_true_iff, !Z.leb_le, !Z.ltb_lt. lia. Qed.

(** ** What is looked up *)
Definition pure (l : list obs) (w : Z) (f : bool) : res obs := snd (find_observance l [] w f).
(** ** Lookups with the cache *)
Definition holds (l : list obs) (m : cache) : Prop := forall k c, In (k, c) m -> exists f, pure l k f = Ok c.
Lemma find_holds l m w f : holds l m -> holds l (fst (find_observance l m w f)).
Proof.
  intros H. unfold find_observance. destruct l as [|c1 [|c2 l]]; [easy|easy|]. set (l' := c1 :: c2 :: l) in *. unfold cached.
  destruct (cache_get w m) as [c|] eqn:EC.
  - cbn [fst]. intros k c' [[= <- <-]|HI]; [apply H; now apply cache_get_in|apply H; now apply (cache_del_in w)].
  - destruct (find_cachable l' w f) as [c|e] eqn:E; [|easy]. cbn [fst]. intros k c' HI. apply firstn_in in HI.
    destruct HI as [[= <- <-]|HI]; [|now apply H]. exists f. unfold pure, find_observance, l', cached. cbn [cache_get]. fold l'. now rewrite E.
Qed.
Lemma find_either l m w f : holds l m -> exists f', snd (find_observance l m w f) = pure l w f'.
Proof.
  intros H. unfold find_observance. destruct l as [|c1 [|c2 l]]; [now exists f|now exists f|]. set (l' := c1 :: c2 :: l) in *.
  unfold cached at 1. destruct (cache_get w m) as [c|] eqn:EC.
  - cbn [snd]. apply cache_get_in in EC. destruct (H _ _ EC) as (f' & E). exists f'. easy.
  - exists f. unfold pure, find_observance, l', cached. cbn [cache_get]. fold l'. now destruct (find_cachable l' w f).
Qed.
Lemma find_same l m w f c : holds l m -> pure l w true = Ok c -> pure l w false = Ok c -> snd (find_observance l m w f) = Ok c.
Proof. intros H E1 E2. destruct (find_either l m w f H) as ([|] & ->); easy. Qed.
(** A second question gets the first answer, whatever its fold. *)
Lemma find_again l m w f f' c : snd (find_observance l m w f) = Ok c ->
  snd (find_observance l (fst (find_observance l m w f)) w f') = Ok c.
Proof.
  unfold find_observance. destruct l as [|c1 [|c2 l]]; [easy|easy|]. set (l' := c1 :: c2 :: l) in *. unfold cached at 1 3.
  destruct (cache_get w m) as [b|] eqn:EC.
  - cbn [fst snd]. intros [= ->]. unfold cached. cbn [cache_get]. now rewrite Z.eqb_refl.
  - destruct (find_cachable l' w f) as [b|e] eqn:E; [|easy]. cbn [fst snd]. intros [= ->]. unfold cached.
    Local Transparent CACHE_SIZE. cbn [CACHE_SIZE firstn cache_get]. now rewrite Z.eqb_refl.
Qed.
Local Opaque CACHE_SIZE.
Lemma look_eq l m w f : find_observance l m w f = (fst (find_observance l m w f), snd (find_observance l m w f)).
Proof. now destruct (find_observance l m w f). Qed.
Lemma after_holds l h : forall m, holds l m -> holds l (after l m h).
Proof.
  induction h as [|[[q w] f] h IH]; intros m H; [easy|]. cbn [after]. apply IH. unfold ask.
  pose proof (find_holds l m w f H). now destruct (find_observance l m w f).
Qed.

(** Only the first reading of [w] is in the cache. *)
Definition fine (l : list obs) (w : Z) (m : cache) : Prop := forall b, cache_get w m = Some b -> pure l w false = Ok b.
Lemma fine_other l w m k f : fine l w m -> k <> w -> fine l w (fst (find_observance l m k f)).
Proof.
  intros H Hn. unfold find_observance. destruct l as [|c1 [|c2 l]]; [easy|easy|]. set (l' := c1 :: c2 :: l) in *. unfold cached.
  destruct (cache_get k m) as [c|] eqn:EC.
  - cbn [fst]. intros b. cbn [cache_get]. destruct (Z.eqb_spec w k); [congruence|]. rewrite cache_get_del_other by congruence. apply H.
  - destruct (find_cachable l' k f) as [c|e]; [|easy]. cbn [fst]. intros b HG. apply cache_get_firstn in HG. revert HG. cbn [cache_get].
    destruct (Z.eqb_spec w k); [congruence|]. apply H.
Qed.
Lemma fine_self l w m f b : fine l w m -> snd (find_observance l m w f) = Ok b -> pure l w false = Ok b -> fine l w (fst (find_observance l m w f)).
Proof.
  intros H E EP. revert E. unfold find_observance at 1 2. destruct l as [|c1 [|c2 l]]; [easy|easy|]. set (l' := c1 :: c2 :: l) in *. unfold cached.
  destruct (cache_get w m) as [c|] eqn:EC.
  - cbn [fst snd]. intros [= ->] b'. cbn [cache_get]. rewrite Z.eqb_refl. now intros [= <-].
  - destruct (find_cachable l' w f) as [c|e]; [|easy]. cbn [fst snd]. intros [= ->] b' HG. apply cache_get_firstn in HG. revert HG. cbn [cache_get].
    rewrite Z.eqb_refl. now intros [= <-].
Qed.
Lemma fine_false l w m b : fine l w m -> snd (find_observance l m w false) = Ok b -> pure l w false = Ok b.
Proof.
  intros H. unfold fine, pure in *. unfold find_observance in *. destruct l as [|c1 [|c2 l]]; [easy|easy|].
  unfold cached at 1. destruct (cache_get w m) as [c|] eqn:EC.
  - cbn [snd]. intros [= ->]. now apply H.
  - intros E. unfold cached. cbn [cache_get]. now destruct (find_cachable _ w false).
Qed.
Lemma after_fine l w h : (forall q f, In (q, w, f) h -> f = false) -> fine l w (after l [] h).
Proof.
  intros HH. pose proof (after_only l h w false HH [] ltac:(easy)) as H. intros b EB. specialize (H b EB).
  destruct l as [|c1 [|c2 l']].
  - exfalso. clear -EB. assert (forall h m, after [] m h = m) as G.
    { clear. induction h as [|[[q k] f] h IH]; intros m; [easy|]. cbn [after]. apply IH. }
    now rewrite G in EB.
  - exfalso. clear -EB. assert (forall h m, after [c1] m h = m) as G.
    { clear. induction h as [|[[q k] f] h IH]; intros m; [easy|]. cbn [after]. apply IH. }
    now rewrite G in EB.
  - unfold pure, find_observance, cached. cbn [cache_get]. now rewrite H.
Qed.

(** [fold] is never set. *)
Lemma fold_never l m u w f : snd (zone_fromutc l m u) = Ok (w, f) -> f = false.
Proof.
  unfold zone_fromutc, fromutc. destruct (fromutc_wall cache (find_observance l) m u) as [m1 [w1|e]]; [|easy]. cbn [sbind].
  unfold fold_status, is_ambiguous, offset_at. rewrite (look_eq l m1 w1 false).
  destruct (snd (find_observance l m1 w1 false)) as [c|e] eqn:E; [|easy]. cbn [sbind].
  rewrite (look_eq l _ w1 true). rewrite (find_again l m1 w1 false true c E). cbn [sbind]. rewrite Z.eqb_refl. cbn [negb sbind snd].
  now intros [= _ <-].
Qed.

Section Onsets.
Variable onset : obs -> Z -> Prop.
Variable l : list obs.
Variable s : Z.
Hypothesis HN : l <> [].
Hypothesis HR : forall c, In c l -> rule_ok onset c.
Hypothesis HS : one_standard s l.

Lemma pure_in_force w f : (forall c, In c l -> f = true -> wall_ok (time_for c w f) = true) ->
  exists c, pure l w f = Ok c /\ in_force onset l w f c.
Proof.
  intros HW. unfold pure, find_observance. destruct l as [|c1 [|c2 l']]; [easy| |].
  - exists c1. split; [easy|]. apply single_in_force. apply HR. now left.
  - destruct (find_cachable_in_force onset (c1 :: c2 :: l') w f) as (c & E & HI); [easy|easy|easy|].
    exists c. split; [|easy]. unfold cached. cbn [cache_get]. now rewrite E.
Qed.
Lemma in_force_in w f c : in_force onset l w f c -> In c l.
Proof.
  intros [p b q o E _ _ _|p b q E _ _ _|b q E _ _]; rewrite E; try (apply in_or_app; right); now left.
Qed.
Lemma dst_or c : In c l -> ob_to c - (if ob_dst c then ob_diff c else 0) = s.
Proof. intros HI. destruct (HS c HI) as (H & _). unfold ob_diff. destruct (ob_dst c); lia. Qed.
Lemma time_s c u : In c l -> time_for c (u + s) true = u + ob_from c.
Proof. intros HI. destruct (HS c HI) as (H & _). unfold time_for. destruct (ob_dst c), (Z.ltb_spec (ob_to c) (ob_from c)); lia. Qed.
Lemma to_s c : In c l -> s <= ob_to c.
Proof. intros HI. destruct (HS c HI) as (H & _). destruct (ob_dst c); lia. Qed.
Lemma from_s c : In c l -> s <= ob_from c.
Proof. intros HI. destruct (HS c HI) as (H & _). destruct (ob_dst c); lia. Qed.
Lemma s_day : - US_DAY < s < US_DAY.
Proof.
  destruct l as [|c l']; [easy|]. destruct (HS c) as (H & H1 & H2); [now left|]. destruct (ob_dst c); lia.
Qed.

(** Transfer between two questions at which the same onsets have begun. *)
Lemma in_force_same w f w' f' c : (forall c' o, In c' l -> onset c' o -> (o <= time_for c' w f <-> o <= time_for c' w' f')) ->
  in_force onset l w f c -> in_force onset l w' f' c.
Proof.
  intros HE.
  assert (HL : forall c' o, In c' l -> latest onset c' (time_for c' w f) o <-> latest onset c' (time_for c' w' f') o).
  { intros c' o HI. split; intros (A & B & C); (split; [easy|split; [apply (HE c' o HI A); easy|intros o' D E; apply C; [easy|apply (HE c' o' HI D); easy]]]). }
  assert (HB : forall c', In c' l -> ~ started onset c' w f -> ~ started onset c' w' f').
  { intros c' HI H (o & A & B). apply H. exists o. split; [easy|]. now apply (HE c' o HI A). }
  intros [p b q o E A B C|p b q E A B C|b q E A B].
  - assert (Hb : In b l) by (rewrite E; apply in_or_app; right; now left).
    apply (if_started _ _ _ _ p b q o); [easy|now apply HL| |].
    + intros c' o' HI Hl. apply (B c' o' HI). apply HL; [rewrite E; apply in_or_app; now left|easy].
    + intros c' o' HI Hl. apply (C c' o' HI). apply HL; [rewrite E; apply in_or_app; right; now right|easy].
  - apply (if_standard _ _ _ _ p b q); auto.
  - apply (if_first _ _ _ _ b q); auto.
Qed.

Section Ordered.
Hypothesis HO : in_order onset l.

Lemma force_instant u c : in_force onset l (u + s) true c -> at_instant onset l u c.
Proof.
  assert (HB : forall c' o, In c' l -> begun onset c' u o -> started onset c' (u + s) true).
  { intros c' o HI (A & B). exists o. split; [easy|]. rewrite time_s by easy. unfold instant in B. lia. }
  intros [p b q o E A B C|p b q E A B C|b q E A B].
  - assert (Hb : In b l) by (rewrite E; apply in_or_app; right; now left).
    rewrite time_s in A by easy. destruct A as (A1 & A2 & A3).
    apply (ai_begun _ _ _ b o); [easy|unfold begun, instant; split; [easy|lia]|].
    assert (HL : forall c' o', In c' l -> begun onset c' u o' -> o' <= o).
    { intros c' o' HI (D1 & D2). unfold instant in D2.
      assert (exists x, latest onset c' (time_for c' (u + s) true) x /\ o' <= x) as (x & X1 & X2).
      { pose proof (HR c' HI (time_for c' (u + s) true)) as H. rewrite time_s in * by easy.
        destruct (ob_before c' (u + ob_from c')) as [x|]; [exists x; split; [easy|apply H; [easy|lia]]|exfalso; apply (H o' D1); lia]. }
      rewrite E in HI. apply in_app_or in HI. destruct HI as [HI|[->|HI]].
      - specialize (B c' x HI X1). lia.
      - apply A3; [easy|lia].
      - specialize (C c' x HI X1). lia. }
    intros c' o' HI HBg. specialize (HL c' o' HI HBg). destruct HBg as (D1 & D2).
    destruct (HO c' b o' o HI Hb D1 A1) as (G1 & G2).
    destruct (Z.eq_dec o' o) as [->|]; [rewrite (G2 eq_refl); lia|]. specialize (G1 ltac:(lia)). lia.
  - apply (ai_standard _ _ _ p b q); [easy| |easy|easy]. intros c' o' HI HBg. apply (A c' HI). now apply (HB c' o').
  - apply (ai_first _ _ _ b q); [easy| |easy]. intros c' o' HI HBg. apply (A c' HI). now apply (HB c' o').
Qed.

Lemma instant_in u c : at_instant onset l u c -> In c l.
Proof. intros [b o H _ _|p b q E _ _ _|b q E _ _]; [easy| |]; rewrite E; [apply in_or_app; right|]; now left. Qed.
Lemma instant_fun u c c' : at_instant onset l u c -> at_instant onset l u c' -> c = c'.
Proof.
  clear HR HS HN.
  intros H H'. pose proof (instant_in _ _ H) as I. pose proof (instant_in _ _ H') as I'. revert I I'.
  destruct H as [b o HI HB HM|p b q HE HX HD HP|b q HE HX HA], H' as [b' o' HI' HB' HM'|p' b' q' HE' HX' HD' HP'|b' q' HE' HX' HA']; intros I I'.
  - specialize (HM _ _ HI' HB'). specialize (HM' _ _ HI HB). destruct HB as (B1 & B2), HB' as (B1' & B2').
    destruct (HO b b' o o' HI HI' B1 B1') as (G1 & G2). destruct (HO b' b o' o HI' HI B1' B1) as (G3 & G4).
    destruct (Z.lt_trichotomy o o') as [L|[L|L]]; [specialize (G1 L); lia|now apply G2|specialize (G3 L); lia].
  - now destruct (HX' _ _ HI HB).
  - now destruct (HX' _ _ HI HB).
  - now destruct (HX _ _ HI' HB').
  - rewrite HE in HE'. apply app_split in HE'. destruct HE' as [(_ & E & _)|[(E & _)|(E & _)]]; [easy| |].
    + specialize (HP' _ E). congruence.
    + specialize (HP _ E). congruence.
  - specialize (HA' _ I). congruence.
  - now destruct (HX _ _ HI' HB').
  - specialize (HA _ I'). congruence.
  - congruence.
Qed.

Section Ahead.
Hypothesis HA : ahead onset l.

Lemma repeats_std u c : repeats onset l u -> at_instant onset l u c -> ob_to c = s.
Proof.
  clear HR HN HA.
  intros (b & o & Hb & Ho & H1 & H2) HI. pose proof (instant_in _ _ HI) as Hc. destruct (HS b Hb) as (Hs & _).
  destruct (HS c Hc) as (Hs' & _). destruct (ob_dst c) eqn:ED; [|easy].
  destruct HI as [c o' I1 I2 I3|p c q E X D _|c q E X D].
  - specialize (I3 b o Hb (conj Ho H1)). destruct I2 as (J1 & J2). unfold instant in *.
    destruct (HO c b o' o Hc Hb J1 Ho) as (G & _). unfold instant in G.
    destruct (Z.lt_ge_cases o' o) as [L|L]; [specialize (G L); lia|]. destruct (ob_dst b); lia.
  - congruence.
  - exfalso. apply (X b o Hb). now split.
Qed.
(** The reading the clock shows at an instant leads back, unless it is repeated. *)
Lemma shown_back u c : ~ repeats onset l u -> at_instant onset l u c -> in_force onset l (u + s) true c ->
  in_force onset l (u + ob_to c) false c.
Proof.
  intros HP HI HF. pose proof (instant_in _ _ HI) as Hc. refine (in_force_same _ _ _ _ _ _ HF).
  intros c' o HI' Ho. rewrite time_s by easy. cbn [time_for]. split.
  - intros L. pose proof (to_s c Hc) as Ht. destruct (HS c' HI') as (H & _). destruct (ob_dst c'); [lia|].
    destruct (Z.le_gt_cases o (u + s)) as [|G]; [lia|]. exfalso. apply HP. exists c', o. unfold instant. repeat split; try easy; lia.
  - intros L. destruct (Z.le_gt_cases o (u + ob_from c')) as [|G]; [easy|]. exfalso.
    specialize (HA u c c' o HI HI' Ho). unfold instant in HA. lia.
Qed.
Lemma both_readings u c : ~ repeats onset l u -> in_force onset l (u + s) true c -> in_force onset l (u + s) false c.
Proof.
  intros HP HF. refine (in_force_same _ _ _ _ _ _ HF). intros c' o HI' Ho. rewrite time_s by easy. cbn [time_for]. split.
  - intros L. destruct (HS c' HI') as (H & _). destruct (ob_dst c'); [lia|].
    destruct (Z.le_gt_cases o (u + s)) as [|G]; [lia|]. exfalso. apply HP. exists c', o. unfold instant. repeat split; try easy; lia.
  - pose proof (from_s c' HI'). lia.
Qed.

(** ** Lookups without cache *)
Lemma room_times u x c : room u -> In c l -> - US_DAY < x < US_DAY -> wall_ok (time_for c (u + x) true) = true.
Proof.
  intros HU HI HX. apply (room_ok u); [easy|]. destruct (HS c HI) as (_ & H1 & H2). unfold time_for.
  destruct (ob_to c <? ob_from c); lia.
Qed.
Lemma pure_s u : room u -> exists c, pure l (u + s) true = Ok c /\ in_force onset l (u + s) true c /\ at_instant onset l u c.
Proof.
  intros HU. destruct (pure_in_force (u + s) true) as (c & E & HF).
  - intros c HI _. apply room_times; [easy|easy|apply s_day].
  - exists c. split; [easy|]. split; [easy|]. now apply force_instant.
Qed.
Lemma pure_false w : exists c, pure l w false = Ok c /\ in_force onset l w false c.
Proof. apply pure_in_force. easy. Qed.
Lemma pure_of w f c : (forall c, In c l -> f = true -> wall_ok (time_for c w f) = true) -> in_force onset l w f c -> pure l w f = Ok c.
Proof. intros HW HF. destruct (pure_in_force w f HW) as (c' & E & HF'). now rewrite (in_force_fun onset l w f c c'). Qed.

Lemma fresh_exact u : room u -> exists w f c, fresh_fromutc l u = Ok (w, f) /\ at_instant onset l u c /\ w = u + ob_to c /\
  fresh_to_utc l w f = Ok u.
Proof.
  intros HU. destruct (pure_s u HU) as (c & Ec & HF & HI). pose proof (instant_in _ _ HI) as Hc.
  destruct (HS c Hc) as (_ & _ & Hd). pose proof s_day as Hsd.
  destruct (pure_false u) as (c0 & E0 & F0). pose proof (dst_or c0 (in_force_in _ _ _ F0)) as H0.
  destruct (pure_false (u + ob_to c)) as (c1 & E1 & F1).
  destruct (pure_in_force (u + ob_to c) true) as (c2 & E2 & F2); [intros; now apply room_times|].
  set (f := negb (ob_to c1 =? ob_to c2) && (ob_to c =? s)).
  exists (u + ob_to c), f, c. assert (EF : fresh_fromutc l u = Ok (u + ob_to c, f)).
  { unfold fresh_fromutc, fromutc, fromutc_wall, fold_status, is_ambiguous, offset_at, dst_at, look_fresh, shifted.
    change (snd (find_observance l [] u false)) with (pure l u false). rewrite E0. cbn [sbind].
    replace (u + (ob_to c0 - (if ob_dst c0 then ob_diff c0 else 0))) with (u + s) by lia.
    rewrite (room_ok u (u + s)) by (easy || lia). cbn [sbind].
    change (snd (find_observance l [] (u + s) true)) with (pure l (u + s) true). rewrite Ec. cbn [sbind].
    pose proof (dst_or c Hc) as Hdc. replace (u + s + (if ob_dst c then ob_diff c else 0)) with (u + ob_to c) by lia.
    rewrite (room_ok u (u + ob_to c)) by (easy || lia). cbn [sbind].
    change (snd (find_observance l [] (u + ob_to c) false)) with (pure l (u + ob_to c) false).
    change (snd (find_observance l [] (u + ob_to c) true)) with (pure l (u + ob_to c) true). rewrite E1, E2. cbn [sbind].
    unfold f. destruct (Z.eqb_spec (ob_to c1) (ob_to c2)) as [Q|Q]; cbn [negb andb sbind snd]; [easy|].
    rewrite H0. replace (u + ob_to c - u) with (ob_to c) by lia. easy. }
  split; [easy|]. split; [easy|]. split; [easy|].
  assert (HL : exists b, pure l (u + ob_to c) f = Ok b /\ ob_to b = ob_to c).
  { destruct (Z.eq_dec (ob_to c) s) as [Q|Q].
    - rewrite Q in E1, E2 |- *. rewrite Ec in E2. injection E2 as <-. unfold f. rewrite Q, Z.eqb_refl, andb_true_r.
      destruct (Z.eqb_spec (ob_to c1) s) as [P|P]; cbn [negb]; [now exists c1|now exists c].
    - assert (f = false) as -> by (unfold f; destruct (Z.eqb_spec (ob_to c) s); [easy|now rewrite andb_false_r]).
      exists c. split; [|easy]. apply pure_of; [easy|]. apply shown_back; [|easy|easy].
      intros HP. now apply Q, (repeats_std u). }
  destruct HL as (b & Eb & Hb). unfold fresh_to_utc, to_utc, offset_at, look_fresh, shifted.
  change (snd (find_observance l [] (u + ob_to c) f)) with (pure l (u + ob_to c) f). rewrite Eb. cbn [sbind snd]. rewrite Hb.
  replace (u + ob_to c - ob_to c) with u by lia. rewrite (room_ok u u) by (easy || (unfold US_DAY, US_SEC; lia)). easy.
Qed.
(** Forward: right after any history, if the clock was not just set back. *)
Lemma forward u m : room u -> ~ repeats onset l u -> holds l m ->
  exists c m', zone_fromutc l m u = (m', Ok (u + ob_to c, false)) /\ at_instant onset l u c /\ holds l m' /\
    (fine l (u + ob_to c) m -> fine l (u + ob_to c) m').
Proof.
  intros HU HP H. destruct (pure_s u HU) as (c & Ec & HF & HI). pose proof (instant_in u c HI) as Hc.
  destruct (HS c Hc) as (_ & _ & Hd). pose proof (s_day) as Hsd.
  pose proof (pure_of (u + s) false c ltac:(easy) (both_readings u c HP HF)) as Ec'.
  (* the lookup of u *)
  assert (exists c0, snd (find_observance l m u false) = Ok c0 /\ In c0 l) as (c0 & E0 & I0).
  { destruct (find_either l m u false H) as ([|] & ->).
    - destruct (pure_in_force u true) as (c0 & E0 & F0).
      + intros b Hb _. replace u with (u + 0) at 1 by lia. apply (room_times); [easy|easy|unfold US_DAY, US_SEC; lia].
      + exists c0. split; [easy|]. now apply (in_force_in u true).
    - destruct (pure_false u) as (c0 & E0 & F0). exists c0. split; [easy|]. now apply (in_force_in u false). }
  pose proof (dst_or c0 I0) as H0.
  set (m1 := fst (find_observance l m u false)). assert (H1 : holds l m1) by (now apply find_holds).
  set (m2 := fst (find_observance l m1 u false)). assert (H2 : holds l m2) by (now apply find_holds).
  set (m3 := fst (find_observance l m2 (u + s) true)). assert (H3 : holds l m3) by (now apply find_holds).
  set (w := u + ob_to c). set (m4 := fst (find_observance l m3 w false)). assert (H4 : holds l m4) by (now apply find_holds).
  set (m5 := fst (find_observance l m4 w true)). assert (H5 : holds l m5) by (now apply find_holds).
  assert (exists b, snd (find_observance l m3 w false) = Ok b) as (b & Eb).
  { destruct (find_either l m3 w false H3) as ([|] & ->).
    - destruct (pure_in_force w true) as (b & E & _); [intros; now apply (room_times)|now exists b].
    - destruct (pure_false w) as (b & E & _). now exists b. }
  exists c, m5. split; [|split; [easy|split; [easy|]]].
  2: { intros Hf. fold w in Hf |- *.
       assert (step : forall n k f b, fine l w n -> snd (find_observance l n k f) = Ok b -> (k = w -> pure l w false = Ok b) ->
         fine l w (fst (find_observance l n k f))).
       { intros n k f0 b0 Hn E Hk. destruct (Z.eq_dec k w) as [->|]; [now apply (fine_self l w n f0 b0); auto|now apply fine_other]. }
       assert (HU0 : u = w -> pure l w false = Ok c0) by (intros Q; rewrite <- Q in Hf |- *; exact (fine_false l u m c0 Hf E0)).
       assert (F1 : fine l w m1) by (apply (step m u false c0 Hf E0); exact HU0).
       assert (F2 : fine l w m2).
       { apply (step m1 u false c0 F1); [now apply find_again|exact HU0]. }
       assert (F3 : fine l w m3) by (apply (step m2 (u + s) true c F2); [now apply find_same|intros Q; rewrite <- Q; exact Ec']).
       assert (F4 : fine l w m4) by (apply (step m3 w false b F3 Eb); intros _; now apply (fine_false l w m3)).
       apply (step m4 w true b F4); [now apply find_again|]. intros _. now apply (fine_false l w m3). }
  unfold zone_fromutc, fromutc, fromutc_wall, fold_status, is_ambiguous, offset_at, dst_at, shifted.
  rewrite (look_eq l m u false). fold m1. rewrite E0. cbn [sbind].
  rewrite (look_eq l m1 u false). fold m2. unfold m1 at 1. rewrite (find_again l m u false false c0 E0). cbn [sbind].
  replace (u + (ob_to c0 - (if ob_dst c0 then ob_diff c0 else 0))) with (u + s) by lia.
  rewrite (room_ok u (u + s)) by (easy || lia). cbn [sbind].
  rewrite (look_eq l m2 (u + s) true). fold m3. rewrite (find_same l m2 (u + s) true c H2 Ec Ec'). cbn [sbind].
  pose proof (dst_or c Hc) as Hdc. replace (u + s + (if ob_dst c then ob_diff c else 0)) with w by (unfold w; lia).
  rewrite (room_ok u w) by (easy || (unfold w; lia)). cbn [sbind].
  rewrite (look_eq l m3 w false). fold m4. rewrite Eb. cbn [sbind].
  rewrite (look_eq l m4 w true). fold m5. unfold m4 at 1. rewrite (find_again l m3 w false true b Eb). cbn [sbind].
  now rewrite Z.eqb_refl.
Qed.
(** Back: right if the reading was never asked about as a second one. *)
Lemma back u c m : room u -> ~ repeats onset l u -> at_instant onset l u c ->
  (forall b, cache_get (u + ob_to c) m = Some b -> pure l (u + ob_to c) false = Ok b) ->
  snd (zone_to_utc l m (u + ob_to c) false) = Ok u.
Proof.
  intros HU HP HI HC. destruct (pure_s u HU) as (b & _ & HF & HI').
  rewrite <- (instant_fun u c b HI HI') in HF.
  pose proof (pure_of _ false c ltac:(easy) (shown_back u c HP HI HF)) as E.
  assert (EL : snd (find_observance l m (u + ob_to c) false) = Ok c).
  { revert E. unfold pure, find_observance. destruct l as [|c1 [|c2 l']] eqn:El; [easy|easy|]. unfold cached at 2.
    destruct (cache_get (u + ob_to c) m) as [b'|] eqn:EC.
    - intros E. specialize (HC b' eq_refl). unfold pure, find_observance in HC. rewrite E in HC. injection HC as <-. easy.
    - unfold cached. cbn [cache_get]. destruct (find_cachable _ _ _) as [b'|e]; easy. }
  unfold zone_to_utc, to_utc, offset_at, shifted. rewrite (look_eq l m (u + ob_to c) false), EL. cbn [sbind snd].
  replace (u + ob_to c - ob_to c) with u by lia. now rewrite (room_ok u u) by (easy || (unfold US_DAY, US_SEC; lia)).
Qed.
Lemma there_and_back u h : room u -> ~ repeats onset l u ->
  (forall c q f, at_instant onset l u c -> In (q, u + ob_to c, f) h -> f = false) ->
  exists c m', zone_fromutc l (after l [] h) u = (m', Ok (u + ob_to c, false)) /\ at_instant onset l u c /\
    snd (zone_to_utc l m' (u + ob_to c) false) = Ok u.
Proof.
  intros HU HP HH. destruct (forward u (after l [] h) HU HP) as (c & m' & E & HI & _ & HF); [now apply after_holds|].
  exists c, m'. split; [easy|]. split; [easy|]. apply back; [easy|easy|easy|]. apply HF. apply after_fine. intros q f. now apply HH.
Qed.
End Ahead.
End Ordered.
End Onsets.

(** ** Conversions are lookups *)
Definition asked (l : list obs) (m m' : cache) : Prop := exists h, m' = after l m h.
Lemma asked_refl l m : asked l m m.
Proof. now exists []. Qed.
Lemma after_app l h h' : forall m, after l m (h ++ h') = after l (after l m h) h'.
Proof. induction h as [|[[q w] f] h IH]; intros m; [easy|]. cbn [app after]. apply IH. Qed.
Lemma asked_trans l m m1 m2 : asked l m m1 -> asked l m1 m2 -> asked l m m2.
Proof. intros (h & ->) (h' & ->). exists (h ++ h'). symmetry. apply after_app. Qed.
Lemma asked_bind {A B} l m (p : cache * res A) (k : A -> cache -> cache * res B) : asked l m (fst p) ->
  (forall a m', asked l m' (fst (k a m'))) -> asked l m (fst (sbind cache p k)).
Proof. intros H HK. destruct p as [m' [a|e]]; cbn [sbind fst] in *; [|easy]. now apply (asked_trans l m m'). Qed.
Lemma asked_offset l m w f : asked l m (fst (offset_at cache (find_observance l) m w f)).
Proof.
  exists [(QOffset, w, f)]. cbn [after]. unfold ask, offset_at. now destruct (find_observance l m w f) as [m' [c|e]].
Qed.
Lemma asked_dst l m w f : asked l m (fst (dst_at cache (find_observance l) m w f)).
Proof.
  exists [(QDst, w, f)]. cbn [after]. unfold ask, dst_at. now destruct (find_observance l m w f) as [m' [c|e]].
Qed.
Lemma asked_fromutc l m u : asked l m (fst (zone_fromutc l m u)).
Proof.
  unfold zone_fromutc, fromutc, fromutc_wall, fold_status, is_ambiguous, shifted.
  repeat first [apply asked_offset | apply asked_dst | apply asked_refl | apply asked_bind; [|intros]
    | match goal with |- asked _ _ (fst (if ?b then _ else _)) => destruct b end].
Qed.
Lemma asked_to_utc l m w f : asked l m (fst (zone_to_utc l m w f)).
Proof. unfold zone_to_utc, to_utc, shifted. apply asked_bind; [apply asked_offset|intros; apply asked_refl]. Qed.

(** ** As stated *)
Lemma forward_told onset l s u h : l <> [] -> (forall c, In c l -> rule_ok onset c) -> one_standard s l ->
  in_order onset l -> room u -> ~ repeats onset l u ->
  exists c, at_instant onset l u c /\ snd (zone_fromutc l (after l [] h) u) = Ok (u + ob_to c, false).
Proof.
  intros HN HR HS HO HU HP. destruct (forward onset l s HN HR HS HO u (after l [] h) HU HP) as (c & m' & E & HI & _); [now apply after_holds|].
  exists c. split; [easy|]. now rewrite E.
Qed.
Lemma there_and_back_told onset l s u h : l <> [] -> (forall c, In c l -> rule_ok onset c) -> one_standard s l ->
  in_order onset l -> ahead onset l -> room u -> ~ repeats onset l u ->
  (forall c q f, at_instant onset l u c -> In (q, u + ob_to c, f) h -> f = false) ->
  exists c m', zone_fromutc l (after l [] h) u = (m', Ok (u + ob_to c, false)) /\ at_instant onset l u c /\
    snd (zone_to_utc l m' (u + ob_to c) false) = Ok u.
Proof. intros HN HR HS HO HA. now apply (there_and_back onset l s). Qed.
Lemma fresh_told onset l s u : l <> [] -> (forall c, In c l -> rule_ok onset c) -> one_standard s l ->
  in_order onset l -> ahead onset l -> room u ->
  exists w f c, fresh_fromutc l u = Ok (w, f) /\ at_instant onset l u c /\ w = u + ob_to c /\ fresh_to_utc l w f = Ok u.
Proof. intros HN HR HS HO HA. now apply (fresh_exact onset l s). Qed.
Lemma instant_one onset l u c c' : in_order onset l -> at_instant onset l u c -> at_instant onset l u c' -> c = c'.
Proof. intros HO. now apply instant_fun. Qed.
Lemma repeats_told onset l s u c : one_standard s l -> in_order onset l -> repeats onset l u -> at_instant onset l u c -> ob_to c = s.
Proof. intros HS HO. now apply repeats_std. Qed.
