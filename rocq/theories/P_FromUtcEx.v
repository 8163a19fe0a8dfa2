(** * Zones for the examples of conversions: Berlin and London in 2020 *)
From Verif Require Import M_Base P_Base M_Codec M_Cal P_Span M_Zone S_Zone P_Zone M_FromUtc S_FromUtc P_FromUtc.
From Coq Require Import Lia ZifyBool.
Open Scope Z_scope.

Definition fu_time (m d h mi : Z) := mk_wall 2020 m d h mi 0 0.
Definition fu_hour := 3600 * US_SEC.
(** Standard offset [s], summer time one hour ahead, both changes at 01:00 UTC. *)
Definition fu_sum (s : Z) := fu_time 3 29 1 0 + s.
Definition fu_win (s : Z) := fu_time 10 25 1 0 + s + fu_hour.
Definition fu_once (o t : Z) : option Z := if o <=? t then Some o else None.
Definition fu_winter (s : Z) := mk_obs (s + fu_hour) s false None (fu_once (fu_win s)).
Definition fu_summer (s : Z) := mk_obs s (s + fu_hour) true None (fu_once (fu_sum s)).
Definition fu_zone (s : Z) := [fu_winter s; fu_summer s].
Definition fu_onset (s : Z) (c : obs) (o : Z) : Prop := o = if ob_dst c then fu_sum s else fu_win s.

Lemma fu_rules s c : In c (fu_zone s) -> rule_ok (fu_onset s) c.
Proof.
  intros HI t. unfold rule_ok, latest, fu_onset. destruct HI as [<-|[<-|[]]]; cbn [fu_winter fu_summer ob_dst ob_before]; unfold fu_once.
  - destruct (Z.leb_spec (fu_win s) t); [repeat split; intros; subst; lia|intros o ->; lia].
  - destruct (Z.leb_spec (fu_sum s) t); [repeat split; intros; subst; lia|intros o ->; lia].
Qed.
Lemma fu_standard s : - US_DAY < s < US_DAY - fu_hour -> one_standard s (fu_zone s).
Proof.
  intros H c [<-|[<-|[]]]; cbn [fu_winter fu_summer ob_dst ob_from ob_to]; unfold fu_hour, US_DAY, US_SEC in *; lia.
Qed.
Lemma fu_apart s : fu_sum s + 2 * fu_hour < fu_win s.
Proof.
  unfold fu_sum, fu_win. assert (fu_time 3 29 1 0 + 2 * fu_hour < fu_time 10 25 1 0) by (vm_compute; reflexivity).
  unfold fu_hour, US_SEC in *. lia.
Qed.
Lemma fu_order s : in_order (fu_onset s) (fu_zone s).
Proof.
  pose proof (fu_apart s) as HA. assert (0 < fu_hour) by (vm_compute; reflexivity).
  intros c c' o o' [<-|[<-|[]]] [<-|[<-|[]]]; unfold fu_onset, instant; cbn [fu_winter fu_summer ob_dst ob_from]; intros -> ->;
    (split; [lia|]); try easy; intros; exfalso; lia.
Qed.
Lemma fu_ahead s : ahead (fu_onset s) (fu_zone s).
Proof.
  pose proof (fu_apart s) as HA. assert (HH : 0 < fu_hour) by (vm_compute; reflexivity).
  intros u c c' o' HI HC' HO' HU. unfold fu_onset, instant in HO', HU.
  assert (HC : In c (fu_zone s)).
  { destruct HI as [b o H _ _|p b q E _ _ _|b q E _ _]; [easy| |]; rewrite E; [apply in_or_app; right|]; now left. }
  destruct HC as [<-|[<-|[]]]; destruct HC' as [<-|[<-|[]]]; cbn [fu_winter fu_summer ob_dst ob_from ob_to] in *; try lia.
  (* summer time in force before its onset: impossible *)
  exfalso. inversion HI as [b o I1 I2 I3 Eb|p b q E X D P Eb|b q E X D Eb]; subst.
  - destruct I2 as (J1 & J2). unfold fu_onset, instant in *. cbn [fu_summer ob_dst ob_from] in *. lia.
  - discriminate D.
  - specialize (D (fu_winter s) (or_introl eq_refl)). discriminate D.
Qed.
(** 01:30 UTC on the day the clock is set back: the hour is shown a second time. *)
Definition fu_second := fu_time 10 25 1 30.
Definition fu_first := fu_time 10 25 0 30.
Definition fu_july := fu_time 7 1 12 0.
Lemma fu_repeats s : repeats (fu_onset s) (fu_zone s) fu_second.
Proof.
  exists (fu_winter s), (fu_win s). split; [now left|]. split; [reflexivity|]. unfold instant, fu_win. cbn [fu_winter ob_from ob_to].
  assert (fu_time 10 25 1 0 <= fu_second < fu_time 10 25 1 0 + fu_hour) by (vm_compute; split; [discriminate|reflexivity]). lia.
Qed.
Lemma fu_not_repeats s u : u < fu_time 10 25 1 0 \/ fu_time 10 25 1 0 + fu_hour <= u -> ~ repeats (fu_onset s) (fu_zone s) u.
Proof.
  assert (HH : 0 < fu_hour) by (vm_compute; reflexivity).
  intros H (c & o & [<-|[<-|[]]] & HO & HI); unfold fu_onset, instant in *; cbn [fu_winter fu_summer ob_dst ob_from ob_to] in *; subst o;
    unfold fu_win, fu_sum in *; lia.
Qed.
Lemma fu_all s : - US_DAY < s < US_DAY - fu_hour -> fu_zone s <> [] /\ (forall c, In c (fu_zone s) -> rule_ok (fu_onset s) c) /\
  one_standard s (fu_zone s) /\ in_order (fu_onset s) (fu_zone s) /\ ahead (fu_onset s) (fu_zone s).
Proof. intros H. split; [easy|]. split; [apply fu_rules|]. split; [now apply fu_standard|]. split; [apply fu_order|apply fu_ahead]. Qed.
Lemma fu_room_second : room fu_second.
Proof. split; vm_compute; reflexivity. Qed.
Lemma fu_room_first : room fu_first.
Proof. split; vm_compute; reflexivity. Qed.
Lemma fu_room_july : room fu_july.
Proof. split; vm_compute; reflexivity. Qed.
Lemma fu_berlin : - US_DAY < fu_hour < US_DAY - fu_hour.
Proof. vm_compute. split; reflexivity. Qed.
Lemma fu_london : - US_DAY < 0 < US_DAY - fu_hour.
Proof. vm_compute. split; reflexivity. Qed.
Lemma fu_meets h : (fu_zone fu_hour) <> [] /\ (forall c, In c (fu_zone fu_hour) -> rule_ok (fu_onset fu_hour) c) /\
  one_standard fu_hour (fu_zone fu_hour) /\ in_order (fu_onset fu_hour) (fu_zone fu_hour) /\ ahead (fu_onset fu_hour) (fu_zone fu_hour) /\
  room fu_july /\ ~ repeats (fu_onset fu_hour) (fu_zone fu_hour) fu_july /\
  snd (zone_fromutc (fu_zone fu_hour) (after (fu_zone fu_hour) [] h) fu_july) = Ok (fu_time 7 1 14 0, false).
Proof.
  destruct (fu_all fu_hour fu_berlin) as (H1 & H2 & H3 & H4 & H5).
  assert (HP : ~ repeats (fu_onset fu_hour) (fu_zone fu_hour) fu_july) by (apply fu_not_repeats; left; vm_compute; reflexivity).
  do 5 (split; [easy|]). split; [exact fu_room_july|]. split; [easy|].
  destruct (forward_told _ _ _ _ h H1 H2 H3 H4 fu_room_july HP) as (c & HI & E). rewrite E. clear E. do 2 f_equal.
  assert (c = fu_summer fu_hour) as ->; [|vm_compute; reflexivity].
  apply (instant_one _ _ _ _ _ H4 HI). apply (ai_begun _ _ _ _ (fu_sum fu_hour)); [now right; left|split; [reflexivity|vm_compute; discriminate]|].
  intros c' o' [<-|[<-|[]]] (B1 & B2); unfold fu_onset in B1; cbn [fu_winter fu_summer ob_dst] in B1; subst o'; [|apply Z.le_refl].
  exfalso. revert B2. vm_compute. auto.
Qed.
Definition fu_others : list (question * Z * bool) := map (fun i => (QOffset, fu_time 7 1 i 0, false)) [1; 2; 3; 4; 5; 6; 7; 8; 9; 10].
Lemma fu_second_wrong : exists onset l s u, l <> [] /\ (forall c, In c l -> rule_ok onset c) /\ one_standard s l /\
  in_order onset l /\ ahead onset l /\ room u /\ exists w m' h, zone_fromutc l [] u = (m', Ok (w, false)) /\
  snd (zone_to_utc l (after l m' h) w false) <> Ok u.
Proof.
  destruct (fu_all fu_hour fu_berlin) as (H1 & H2 & H3 & H4 & H5).
  exists (fu_onset fu_hour), (fu_zone fu_hour), fu_hour, fu_second. do 5 (split; [easy|]). split; [exact fu_room_second|].
  exists (fu_time 10 25 2 30), (fst (zone_fromutc (fu_zone fu_hour) [] fu_second)), fu_others. split.
  - rewrite (surjective_pairing (zone_fromutc (fu_zone fu_hour) [] fu_second)) at 1.
    apply (f_equal (pair _)). vm_compute. reflexivity.
  - vm_compute. discriminate.
Qed.
Lemma fu_first_wrong : exists onset l s u h, l <> [] /\ (forall c, In c l -> rule_ok onset c) /\ one_standard s l /\
  in_order onset l /\ ahead onset l /\ room u /\ ~ repeats onset l u /\
  exists w m', zone_fromutc l (after l [] h) u = (m', Ok (w, false)) /\ snd (zone_to_utc l m' w false) <> Ok u.
Proof.
  destruct (fu_all fu_hour fu_berlin) as (H1 & H2 & H3 & H4 & H5).
  destruct (asked_fromutc (fu_zone fu_hour) [] fu_second) as (h & Eh).
  exists (fu_onset fu_hour), (fu_zone fu_hour), fu_hour, fu_first, h. do 5 (split; [easy|]). split; [exact fu_room_first|].
  split; [apply fu_not_repeats; left; vm_compute; reflexivity|]. rewrite <- Eh. clear h Eh.
  exists (fu_time 10 25 2 30), (fst (zone_fromutc (fu_zone fu_hour) (fst (zone_fromutc (fu_zone fu_hour) [] fu_second)) fu_first)). split.
  - rewrite (surjective_pairing (zone_fromutc (fu_zone fu_hour) (fst (zone_fromutc (fu_zone fu_hour) [] fu_second)) fu_first)) at 1.
    apply (f_equal (pair _)). vm_compute. reflexivity.
  - vm_compute. discriminate.
Qed.
Lemma fu_wall_wrong : exists onset l u, l <> [] /\ (forall c, In c l -> rule_ok onset c) /\ one_standard 0 l /\
  in_order onset l /\ ahead onset l /\ room u /\
  forall c, at_instant onset l u c -> exists w, snd (zone_fromutc l [] u) = Ok (w, false) /\ w <> u + ob_to c.
Proof.
  destruct (fu_all 0 fu_london) as (H1 & H2 & H3 & H4 & H5).
  exists (fu_onset 0), (fu_zone 0), fu_second. do 5 (split; [easy|]). split; [exact fu_room_second|].
  intros c HI. assert (ob_to c = 0) as ->.
  { apply (repeats_told (fu_onset 0) (fu_zone 0) 0 fu_second); try easy. apply fu_repeats. }
  exists (fu_time 10 25 2 30). split; [vm_compute; reflexivity|]. vm_compute. discriminate.
Qed.
