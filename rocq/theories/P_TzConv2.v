(** * Proofs about names of fixed offsets and datetimes with zone objects *)
From Verif Require Import M_Base M_Text M_Line M_Codec M_Cal M_Time M_Span M_Dt M_Fold M_Tree M_Comp M_Open M_Serial M_Rrule M_Zone M_Vtz M_TzConv.
From Verif Require Import S_Text S_Codec S_Line S_Fold S_Dt S_Tree S_Comp S_Store S_Ref S_Wire S_Vtz S_TzConv.
From Verif Require Import P_Base P_Codec P_Dt P_Vtz P_Vtz2 P_VtzCal P_VtzEx P_TzConv.
From Coq Require Import Lia ZifyBool ZifyNat ZifyN.
Open Scope Z_scope.

(** ** Default names *)
Lemma default_utc off : called_utc (name_from_offset off) <-> off = 0.
Proof.
  unfold name_from_offset. destruct (Z.eqb_spec off 0) as [->|N]; [split; [easy|now left]|]. split; [|easy].
  cbv zeta. set (r := pad2 _ ++ _). generalize r. clear r. intros r [H|H]; exfalso.
  - apply (f_equal (@length _)) in H. unfold upper in H. rewrite map_length, !app_length in H. destruct (off <? 0); cbn [length py] in H; vm_compute in H; lia.
  - destruct (off <? 0); discriminate H.
Qed.
Lemma pad2_length n : 0 <= n < 100 -> length (pad2 n) = 2%nat.
Proof. intros H. apply pad_length. change (10 ^ N.of_nat 2)%N with 100%N. lia. Qed.
Lemma pad2_inj n m : 0 <= n -> 0 <= m -> pad2 n = pad2 m -> n = m.
Proof. intros H H' E. apply (f_equal undec) in E. unfold pad2 in E. rewrite !undec_pad in E. lia. Qed.
Lemma app_same {A} (a b c d : list A) : length a = length b -> a ++ c = b ++ d -> a = b /\ c = d.
Proof.
  revert b. induction a as [|x a IH]; intros [|y b] L E; try discriminate L; [easy|].
  injection E as <- E. apply IH in E as [-> ->]; [easy|]. now injection L.
Qed.
Lemma six_digits n : 0 <= n < 1000000 -> length (pad 6 (Z.to_N n)) = 6%nat /\ number (pad 6 (Z.to_N n)) n.
Proof.
  intro H. split; [apply pad_length; change (10 ^ N.of_nat 6)%N with 1000000%N; lia|]. split; [|split]; [|intros c Hc; apply is_digit_spec; pose proof (pad_digits 6 (Z.to_N n)) as HD; rewrite forallb_forall in HD; now apply HD|rewrite undec_pad; lia].
  intro E. apply (f_equal (@length _)) in E. rewrite pad_length in E by (change (10 ^ N.of_nat 6)%N with 1000000%N; lia). discriminate E.
Qed.
Lemma default_exact off : Z.abs off < US_DAY -> offset_name (name_from_offset off) off.
Proof.
  intro A. unfold name_from_offset. destruct (Z.eqb_spec off 0) as [->|N]; [constructor|]. cbv zeta. unfold pad2. unfold US_DAY, US_SEC in *.
  set (d := Z.abs off) in *. set (s := d / 1000000). set (us := d mod 1000000). assert (D : d = s * 1000000 + us) by (unfold s, us; pose proof (Z.div_mod d 1000000); lia).
  assert (U : 0 <= us < 1000000) by (apply Z.mod_pos_bound; lia). assert (SB : 0 <= s < 86400) by (unfold s; split; [apply Z.div_pos; lia|apply Z.div_lt_upper_bound; lia]).
  pose proof (Z.div_mod s 60 ltac:(lia)) as M1. pose proof (Z.mod_pos_bound s 60 ltac:(lia)) as M2. pose proof (Z.div_mod (s / 60) 60 ltac:(lia)) as M3. pose proof (Z.mod_pos_bound (s / 60) 60 ltac:(lia)) as M4.
  rewrite Z.div_div in M3 by lia. change (60 * 60) with 3600 in M3. assert (HB : 0 <= s / 3600 < 24) by (split; [apply Z.div_pos; lia|apply Z.div_lt_upper_bound; lia]).
  set (h := s / 3600) in *. set (m := s / 60 mod 60) in *. set (x := s mod 60) in *.
  set (sg := if off <? 0 then py "-" else py "+"). assert (K : exists k, (sg = py "+" /\ k = 1 \/ sg = py "-" /\ k = -1) /\ off = k * d).
  { unfold sg. destruct (Z.ltb_spec off 0); [exists (-1)|exists 1]; (split; [auto|unfold d; lia]). }
  clearbody sg. destruct K as (k & K & EK). rewrite EK.
  assert (TH : two_digits (pad 2 (Z.to_N h)) h) by (apply two_digits_pad; lia). assert (TM : two_digits (pad 2 (Z.to_N m)) m) by (apply two_digits_pad; lia). assert (TX : two_digits (pad 2 (Z.to_N x)) x) by (apply two_digits_pad; lia).
  destruct (Z.eqb_spec us 0) as [EU|NU]; [destruct (Z.eqb_spec x 0) as [EX|NX]|].
  - rewrite app_nil_r. replace (k * d) with (k * ((3600 * h + 60 * m) * US_SEC)) by (unfold US_SEC; f_equal; lia). now constructor.
  - replace (k * d) with (k * ((3600 * h + 60 * m + x) * US_SEC)) by (unfold US_SEC; f_equal; lia). now constructor.
  - replace (k * d) with (k * ((3600 * h + 60 * m + x) * US_SEC + us)) by (unfold US_SEC; f_equal; lia). destruct (six_digits us U). now constructor.
Qed.
Lemma default_inj off off' : Z.abs off < US_DAY -> Z.abs off' < US_DAY -> name_from_offset off = name_from_offset off' -> off = off'.
Proof.
  intros A A' E. destruct (Z.eq_dec off 0) as [->|N].
  { symmetry. apply default_utc. rewrite <- E. now left. }
  destruct (Z.eq_dec off' 0) as [->|N'].
  { apply default_utc. rewrite E. now left. }
  unfold name_from_offset in E. rewrite (proj2 (Z.eqb_neq off 0) N), (proj2 (Z.eqb_neq off' 0) N') in E. cbv zeta in E.
  apply app_inv_head in E.
  assert ((off <? 0) = (off' <? 0)) as SG.
  { destruct (off <? 0), (off' <? 0); try reflexivity; discriminate E. }
  rewrite SG in E. apply app_inv_head in E.
  pose proof (Z.div_mod (Z.abs off) US_SEC ltac:(easy)) as D. pose proof (Z.div_mod (Z.abs off') US_SEC ltac:(easy)) as D'.
  pose proof (Z.mod_pos_bound (Z.abs off) US_SEC ltac:(reflexivity)) as B. pose proof (Z.mod_pos_bound (Z.abs off') US_SEC ltac:(reflexivity)) as B'.
  assert (0 <= Z.abs off / US_SEC < 86400) as S by (split; [apply Z.div_pos; [lia|reflexivity]|apply Z.div_lt_upper_bound; [reflexivity|]; exact A]).
  assert (0 <= Z.abs off' / US_SEC < 86400) as S' by (split; [apply Z.div_pos; [lia|reflexivity]|apply Z.div_lt_upper_bound; [reflexivity|]; exact A']).
  set (s := Z.abs off / US_SEC) in *. set (s' := Z.abs off' / US_SEC) in *.
  set (u := Z.abs off mod US_SEC) in *. set (u' := Z.abs off' mod US_SEC) in *. clearbody s s' u u'.
  pose proof (Z.div_mod s 60 ltac:(easy)) as Ds. pose proof (Z.div_mod s' 60 ltac:(easy)) as Ds'.
  pose proof (Z.mod_pos_bound s 60 ltac:(reflexivity)) as Bs. pose proof (Z.mod_pos_bound s' 60 ltac:(reflexivity)) as Bs'.
  pose proof (Z.div_mod (s / 60) 60 ltac:(easy)) as Dm. pose proof (Z.div_mod (s' / 60) 60 ltac:(easy)) as Dm'.
  pose proof (Z.mod_pos_bound (s / 60) 60 ltac:(reflexivity)) as Bm. pose proof (Z.mod_pos_bound (s' / 60) 60 ltac:(reflexivity)) as Bm'.
  rewrite Z.div_div in Dm, Dm' by easy. change (60 * 60) with 3600 in *.
  apply app_same in E as [E1 E]; [|rewrite !pad2_length by lia; reflexivity]. apply pad2_inj in E1; [|lia|lia].
  apply app_inv_head in E.
  apply app_same in E as [E2 E]; [|rewrite !pad2_length by lia; reflexivity]. apply pad2_inj in E2; [|lia|lia].
  assert (s mod 60 = s' mod 60 /\ u = u') as [E3 E4].
  { pose proof (pad2_length (s mod 60) ltac:(lia)) as L. pose proof (pad2_length (s' mod 60) ltac:(lia)) as L'.
    destruct (Z.eqb_spec u 0) as [U|U], (Z.eqb_spec u' 0) as [U'|U'].
    - split; [|lia]. destruct (Z.eqb_spec (s mod 60) 0), (Z.eqb_spec (s' mod 60) 0); try lia; try discriminate E.
      apply app_inv_head, pad2_inj in E; lia.
    - exfalso. destruct (s mod 60 =? 0); [discriminate E|]. apply app_inv_head in E. apply (f_equal (@length _)) in E.
      rewrite !app_length, L, L' in E. discriminate E.
    - exfalso. destruct (s' mod 60 =? 0); [discriminate E|]. apply app_inv_head in E. apply (f_equal (@length _)) in E.
      rewrite !app_length, L, L' in E. discriminate E.
    - apply app_inv_head in E. apply app_same in E as [E3 E]; [|congruence]. apply pad2_inj in E3; [|lia|lia].
      split; [exact E3|]. apply app_inv_head in E. apply (f_equal undec) in E. rewrite !undec_pad in E. lia. }
  assert (Z.abs off = Z.abs off') as R by lia.
  destruct (Z.ltb_spec off 0), (Z.ltb_spec off' 0); try discriminate SG; lia.
Qed.
Lemma default_honest off : honest (TBuiltin off None).
Proof.
  intros o [= <-]. cbn [tz_str own_name builtin_name]. intros [H|(n & [= <-] & H)]; now apply default_utc.
Qed.

(** ** Definitions made from one offset survive text *)
Lemma from_offset_storable X rule_parse n off : reads_epoch rule_parse -> storable_offset off ->
  storable_zone X rule_parse (Timezone_from_offset n off).
Proof.
  intros R O. constructor; cbn [Timezone_from_offset t_obs t_url t_modified t_params t_extra].
  - constructor; [|constructor]. constructor; cbn [o_from o_to o_rules o_params o_extra o_name o_comment].
    + vm_compute. intuition discriminate.
    + exact O.
    + constructor.
      * exists (Some EPOCH). split; [intros d [= <-]; vm_compute; intuition discriminate|]. intros r [<-|[]]. split; [reflexivity|exact R].
      * constructor.
      * constructor.
      * discriminate.
    + intros k p H. discriminate H.
    + constructor.
  - easy.
  - easy.
  - intros k p H. discriminate H.
  - constructor.
Qed.
Lemma from_offset_wire X n off : wire_zone X (Timezone_from_offset n off).
Proof.
  constructor; cbn [Timezone_from_offset t_obs t_url t_modified t_params t_extra].
  - constructor; [|constructor]. constructor; cbn [o_rules o_params o_extra].
    + intros r [<-|[]]. apply vx_nb. reflexivity.
    + intros k p H. discriminate H.
    + constructor.
  - easy.
  - intros k p H. discriminate H.
  - constructor.
Qed.
Lemma back_fixed n off z' : zone_back (Timezone_from_offset n off) z' -> t_id z' = n /\ fixed_at z' off (Some n).
Proof.
  intros B. split; [exact (bz_id _ _ B)|]. pose proof (bz_obs _ _ B) as O. cbn [Timezone_from_offset t_obs] in O.
  inversion O as [|o o' l l' Ho Hl E1 E2]. subst o l. inversion Hl. subst l'. intros before h q w f. cbn zeta. rewrite <- E2.
  pose proof (bo_to _ _ Ho) as A1. pose proof (bo_dst _ _ Ho) as A2. pose proof (bo_name _ _ Ho) as A3. cbn in A1, A2, A3.
  destruct q; cbn; congruence || (now rewrite A2).
Qed.
Theorem fixed_text X rule_parse date_parse hy resplit W nl ff wo t off z :
  utc_env X -> reads_dates date_parse -> reads_epoch rule_parse -> splitter resplit -> width_ok W ->
  own_offset t = Some off -> honest t -> storable_offset off ->
  Timezone_from_tzinfo X rule_parse date_parse ff wo t = Ok (Some z) ->
  exists it txt sub z', dump_zone X z = Ok it /\ item_serialize hy resplit W it nl = Ok txt /\
    string_to_containers txt = ([ICont (py "VTIMEZONE") sub], None) /\
    load_zone X rule_parse date_parse (py "VTIMEZONE") sub = Ok z' /\
    t_id z' = t_id z /\ fixed_at z' off (Some (t_id z)).
Proof.
  intros UE RD RE SP WO O H SO E.
  assert (exists n, z = Timezone_from_offset n off) as (n & ->).
  { destruct (utc_dec t) as [U|U].
    - rewrite (convert_utc X rule_parse date_parse ff wo t U (own_no_ics t off O)) in E. injection E as <-.
      rewrite (honest_utc t off O H U). now exists (py "UTC").
    - destruct (supported_dec t) as [S|S].
      + destruct (convert_fixed X rule_parse date_parse ff wo t off O S U) as (n & _ & E'). rewrite E' in E. injection E as <-. eauto.
      + rewrite (convert_unsupported X rule_parse date_parse ff wo t off O S U) in E. discriminate E. }
  destruct (zone_text X UE rule_parse date_parse RD hy resplit W nl (Timezone_from_offset n off) SP WO
    (from_offset_storable X rule_parse n off RE SO) (from_offset_wire X n off)) as (it & txt & sub & z' & A & B & C & D & F).
  exists it, txt, sub, z'. apply back_fixed in F as [F G]. auto 10.
Qed.

(** ** Datetimes *)
Section Instant.
Variables (X : ext) (rule_parse : option Z -> list N -> res rule) (date_parse : list N -> res Z).
Variables (find_file windows_to_olson : list N -> option (list N)).
Variables (E : env) (before : ruleset -> Z -> option Z) (obj : tz -> tzinfo) (inj : timezone -> tz).
Variables (gettz : list N -> option tz) (utc : tz).
Hypothesis DS : describes E before obj inj utc.
Notation D := (zdb_of X rule_parse date_parse find_file windows_to_olson obj inj gettz utc).

Lemma instant_off d z off : dtz d = Some z -> (forall w f, tz_off E z w f = off) -> instant E d = wall d - off.
Proof. intros Z H. unfold instant, utcoffset. rewrite Z. now rewrite H. Qed.
Lemma utc_off w f : tz_off E utc w f = 0.
Proof. apply (ds_off _ _ _ _ _ DS). now rewrite (ds_utc _ _ _ _ _ DS). Qed.
Lemma inj_off z n off w f : own_name (obj z) = Some n -> own_offset (obj z) = Some off ->
  tz_off E (inj (Timezone_from_offset n off)) w f = off.
Proof.
  intros N O. apply (ds_zone _ _ _ _ _ DS _ (Timezone_from_offset n off)); [exact (ds_inj _ _ _ _ _ DS z n off N O)|].
  exact (fixed_from n off before [] QOffset w f).
Qed.
Theorem instant_kept w fo z off ps zs :
  wall_ok w = true -> w mod US_SEC = 0 -> 1000 <= f_y (fields_of w) -> dict_get (py "TZID") ps = None ->
  own_offset (obj z) = Some off -> honest (obj z) -> supported (obj z) -> own_name (obj z) <> Some [] ->
  (forall n y, own_name (obj z) = Some n -> dict_get n zs = Some y -> forall w f, tz_off E y w f = off) ->
  exists s ps' zs' d' qs zs'', datetime_serialize D (mk_dt w fo (Some z)) ps (Some zs) = Ok (s, ps', Some zs') /\
    datetime_parse D s ps' (Some zs') = Ok (d', qs, zs'') /\
    wall d' = w /\ instant E d' = instant E (mk_dt w fo (Some z)).
Proof.
  intros W0 W1 W2 P O H S NE R.
  assert (forall w f, tz_off E z w f = off) as ZO by (intros; now apply (ds_off _ _ _ _ _ DS)).
  destruct (utc_dec (obj z)) as [U|U].
  - destruct (rt_utc D w fo z ps (Some zs) W0 W1 W2 P (proj2 (is_utc_iff _) U)) as (s & A & B).
    exists s, ps, zs. do 3 eexists. split; [exact A|]. split; [exact B|]. split; [reflexivity|]. change (z_utc D) with utc.
    rewrite (instant_off (mk_dt w false (Some utc)) utc 0 eq_refl utc_off), (instant_off (mk_dt w fo (Some z)) z off eq_refl ZO).
    now rewrite (honest_utc _ _ O H U).
  - destruct (convert_fixed X rule_parse date_parse find_file windows_to_olson (obj z) off O S U) as (n & N & C).
    assert (z_from_tzinfo D z = Ok (Some (n, inj (Timezone_from_offset n off)))) as ZF by (cbn [z_from_tzinfo zdb_of]; rewrite C; reflexivity).
    destruct (rt_zone D w fo z n (inj (Timezone_from_offset n off)) ps zs W0 W1 W2 (proj2 (is_utc_false _) U) ZF) as (s & ps' & zs' & A & B).
    { intros ->. now apply NE. }
    destruct B as (_ & _ & _ & _ & B).
    exists s, ps', zs'. do 3 eexists. split; [exact A|]. split; [exact B|]. split; [reflexivity|].
    rewrite (instant_off (mk_dt w fo (Some z)) z off eq_refl ZO).
    destruct (dict_get n zs) as [y|] eqn:G.
    + exact (instant_off (mk_dt w false (Some y)) y off eq_refl (R n y N G)).
    + exact (instant_off (mk_dt w false (Some (inj (Timezone_from_offset n off)))) _ off eq_refl (fun w f => inj_off z n off w f N O)).
Qed.

Section Many.
Variable all : list datetime.
Hypothesis AG : names_agree obj all.
Definition table_ok (zs : zones) : Prop := forall n y d z off, dict_get n zs = Some y -> In d all -> dtz d = Some z ->
  own_name (obj z) = Some n -> own_offset (obj z) = Some off -> forall w f, tz_off E y w f = off.
Lemma write_one d zs : In d all -> writable obj d -> table_ok zs -> exists s ps zs',
  datetime_serialize D d [] (Some zs) = Ok (s, ps, Some zs') /\ table_ok zs' /\
  (forall k y, dict_get k zs = Some y -> dict_get k zs' = Some y) /\
  forall zs'', (forall k y, dict_get k zs' = Some y -> dict_get k zs'' = Some y) -> read_same D E zs'' d (s, ps).
Proof.
  intros I (W0 & W1 & W2 & z & off & Z & O & H & S & NE) T.
  assert (forall w f, tz_off E z w f = off) as ZO by (intros; now apply (ds_off _ _ _ _ _ DS)).
  destruct d as [w fo z0]. cbn [dtz wall] in *. subst z0.
  destruct (utc_dec (obj z)) as [U|U].
  - exists (fmt_datetime w ++ py "Z"), [], zs. split; [|split; [exact T|split; [easy|]]].
    + unfold datetime_serialize, serialize_dt. cbn [dtz wall z_is_utc zdb_of]. now rewrite (proj2 (is_utc_iff _) U).
    + intros zs'' _. destruct (rt_utc D w fo z [] (Some zs'') W0 W1 W2 eq_refl (proj2 (is_utc_iff _) U)) as (s & A & B).
      unfold datetime_serialize, serialize_dt in A. cbn [dtz wall z_is_utc zdb_of] in A.
      rewrite (proj2 (is_utc_iff _) U) in A. injection A as <-. eexists _, _, _. split; [exact B|]. split; [reflexivity|].
      change (z_utc D) with utc.
      rewrite (instant_off (mk_dt w false (Some utc)) utc 0 eq_refl utc_off), (instant_off (mk_dt w fo (Some z)) z off eq_refl ZO).
      now rewrite (honest_utc _ _ O H U).
  - destruct (convert_fixed X rule_parse date_parse find_file windows_to_olson (obj z) off O S U) as (n & N & C).
    assert (n <> []) as NN by congruence.
    set (zs' := match dict_get n zs with Some _ => zs | None => dict_set n (inj (Timezone_from_offset n off)) zs end).
    assert (exists y, dict_get n zs' = Some y /\ forall w f, tz_off E y w f = off) as (y & Y & YO).
    { subst zs'. destruct (dict_get n zs) as [y|] eqn:G.
      - exists y. split; [exact G|]. exact (T n y _ z off G I eq_refl N O).
      - eexists. split; [apply dict_get_set_same|]. exact (fun w f => inj_off z n off w f N O). }
    exists (fmt_datetime w), (dict_set (py "TZID") [n] []), zs'. split; [|split; [|split]].
    + unfold datetime_serialize, serialize_dt, write_zone. cbn [dtz wall z_is_utc z_from_tzinfo zdb_of].
      rewrite (proj2 (is_utc_false _) U), C. reflexivity.
    + intros k v d z1 o1 G I1 Z1 N1 O1. subst zs'. destruct (dict_get n zs) as [y0|] eqn:G0; [exact (T k v d z1 o1 G I1 Z1 N1 O1)|].
      destruct (str_eqb k n) eqn:Q.
      * apply str_eqb_eq in Q. subst k. rewrite dict_get_set_same in G. injection G as <-.
        assert (own_offset (obj z) = own_offset (obj z1)) as QO by exact (AG _ d z z1 n I I1 eq_refl Z1 N N1).
        rewrite O, O1 in QO. injection QO as <-. exact (fun w f => inj_off z n off w f N O).
      * rewrite dict_get_set_other in G; [exact (T k v d z1 o1 G I1 Z1 N1 O1)|]. intros F. subst k. now rewrite str_eqb_refl in Q.
    + intros k v G. subst zs'. destruct (dict_get n zs) eqn:G0; [exact G|]. rewrite dict_get_set_other; [exact G|congruence].
    + intros zs'' M. eexists _, _, _. cbn [fst snd]. split; [exact (parse_written_zone D w n [] zs'' y W0 W1 W2 NN (M _ _ Y))|].
      split; [reflexivity|]. rewrite (instant_off (mk_dt w fo (Some z)) z off eq_refl ZO). exact (instant_off (mk_dt w false (Some y)) y off eq_refl YO).
Qed.
Lemma write_many ds zs : incl ds all -> Forall (writable obj) ds -> table_ok zs -> exists out zs',
  write_all D ds zs = Ok (out, zs') /\ (forall k y, dict_get k zs = Some y -> dict_get k zs' = Some y) /\
  forall zs'', (forall k y, dict_get k zs' = Some y -> dict_get k zs'' = Some y) -> Forall2 (read_same D E zs'') ds out.
Proof.
  revert zs. induction ds as [|d ds IH]; intros zs I W T.
  - exists [], zs. split; [reflexivity|]. split; [easy|]. constructor.
  - inversion W as [|? ? Wd Ws]. subst.
    destruct (write_one d zs (I d (or_introl eq_refl)) Wd T) as (s & ps & zs' & A & B & C & F).
    destruct (IH zs' (fun x Hx => I x (or_intror Hx)) Ws B) as (out & zs'' & A2 & C2 & F2).
    exists ((s, ps) :: out), zs''. split; [|split].
    + cbn [write_all]. rewrite A. cbn [bind]. rewrite A2. reflexivity.
    + intros k y G. apply C2, C, G.
    + intros zs3 M. constructor; [|exact (F2 zs3 M)]. apply F. intros k y G. apply M, C2, G.
Qed.
End Many.
Theorem many_kept ds : Forall (writable obj) ds -> names_agree obj ds -> exists out zs,
  write_all D ds [] = Ok (out, zs) /\ Forall2 (read_same D E zs) ds out.
Proof.
  intros W AG. destruct (write_many ds AG ds [] (fun x H => H) W) as (out & zs & A & _ & F).
  - intros n y d z off G. discriminate G.
  - exists out, zs. split; [exact A|]. apply F. easy.
Qed.
End Instant.
(** Datetimes in zones made by [datetime.timezone(offset)] *)
Lemma default_agree obj ds : (forall d z, In d ds -> dtz d = Some z -> exists off, obj z = TBuiltin off None /\ Z.abs off < US_DAY) ->
  names_agree obj ds.
Proof.
  intros H d d' z z' n I I' Z Z' N N'. destruct (H d z I Z) as (off & Q & A). destruct (H d' z' I' Z') as (off' & Q' & A').
  rewrite Q in *. rewrite Q' in *.
  cbn [own_name builtin_name own_offset] in *. f_equal. apply default_inj; [exact A|exact A'|congruence].
Qed.
