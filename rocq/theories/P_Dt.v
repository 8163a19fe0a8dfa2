(** * Proofs about DATE, DATE-TIME, TIME and PERIOD *)
From Verif Require Import M_Base P_Base M_Codec P_Codec M_Cal P_Cal M_Time M_Span M_Dt S_Dt.
From Coq Require Import Lia ZifyBool ZifyNat ZifyN.
Ltac Zify.zify_post_hook ::= Z.div_mod_to_equations.
Open Scope Z_scope.

(** ** The calendar *)
Lemma leap_spec y : is_leap y = true <-> leap_year y.
Proof.
  unfold is_leap, leap_year.
  rewrite <- !Z.mod_divide by lia. lia.
Qed.
Lemma month_length_spec y m l : month_length y m l <-> 1 <= m <= 12 /\ l = days_in_month y m.
Proof.
  split.
  - destruct 1 as [y m H|y m H|y H|y H].
    + cbn in H. unfold days_in_month, month_days.
      repeat (destruct H as [<-|H]; [split; [lia|reflexivity]|]). easy.
    + cbn in H. unfold days_in_month, month_days.
      repeat (destruct H as [<-|H]; [split; [lia|reflexivity]|]). easy.
    + split; [lia|]. unfold days_in_month. destruct (is_leap y) eqn:EL; [|reflexivity].
      now apply leap_spec in EL.
    + split; [lia|]. apply leap_spec in H. unfold days_in_month. now rewrite H.
  - intros [H ->]. assert (Hm : In m (zrange 1 12)) by (apply zrange_in; lia). cbn in Hm.
    destruct Hm as [<-|Hm]; [apply ML_long; cbn; tauto|].
    destruct Hm as [<-|Hm].
    { unfold days_in_month. destruct (is_leap y) eqn:EL; cbn.
      - apply ML_feb_leap. now apply leap_spec.
      - apply ML_feb. rewrite <- leap_spec. congruence. }
    repeat (destruct Hm as [<-|Hm]; [first [apply ML_long; cbn; tauto | apply ML_short; cbn; tauto]|]).
    easy.
Qed.
Lemma real_date_spec y m d : valid_date y m d = true <-> real_date y m d.
Proof.
  rewrite valid_date_spec. unfold real_date. split.
  - intros (Hy & Hm & Hd). split; [easy|]. exists (days_in_month y m). split; [|easy].
    now apply month_length_spec.
  - intros (Hy & l & Hl & Hd). apply month_length_spec in Hl as [Hm ->]. tauto.
Qed.
Lemma next_day_ord a b : next_day a b ->
  let '(y, m, d) := a in let '(y', m', d') := b in
  1 <= d -> 1 <= m' <= 12 /\ 1 <= d' <= days_in_month y' m' /\ ymd2ord y' m' d' = ymd2ord y m d + 1 /\ y <= y'.
Proof.
  destruct 1 as [y m d l Hl Hd|y m d Hl Hm|y]; intros H1.
  - apply month_length_spec in Hl as [Hm ->]. repeat split; try lia. unfold ymd2ord. lia.
  - apply month_length_spec in Hl as [Hm' ->]. pose proof (days_in_month_pos y (m + 1)).
    repeat split; try lia. unfold ymd2ord. rewrite month_step by lia. lia.
  - pose proof (days_in_month_pos (y + 1) 1). repeat split; try lia. unfold ymd2ord.
    rewrite year_step. pose proof (year_end y). unfold days_before_month at 1. cbn. lia.
Qed.
Lemma day_number_ord a n : day_number a n ->
  let '(y, m, d) := a in 1 <= y /\ 1 <= m <= 12 /\ 1 <= d <= days_in_month y m /\ ymd2ord y m d = n.
Proof.
  induction 1 as [|a b n H IH HN].
  - repeat split; vm_compute; congruence.
  - apply next_day_ord in HN. destruct a as [[y m] d], b as [[y' m'] d'].
    destruct IH as (? & ? & ? & ?). destruct HN as (? & ? & ? & ?); [lia|]. repeat split; lia.
Qed.
Lemma next_day_exists y m d : 1 <= m <= 12 -> 1 <= d <= days_in_month y m ->
  exists b, next_day (y, m, d) b.
Proof.
  intros Hm Hd. destruct (Z.eq_dec d (days_in_month y m)) as [->|].
  - destruct (Z.eq_dec m 12) as [->|].
    + eexists. apply ND_year.
    + eexists. apply ND_month; [|lia]. now apply month_length_spec.
  - eexists. apply (ND_day y m d (days_in_month y m)); [|lia]. now apply month_length_spec.
Qed.
Lemma ord2ymd_day_number n : 1 <= n -> day_number (ord2ymd n) n.
Proof.
  intros H. replace n with (1 + (n - 1)) by ring. assert (Hk : 0 <= n - 1) by lia. revert Hk.
  generalize (n - 1). apply (natlike_ind (fun k => day_number (ord2ymd (1 + k)) (1 + k))).
  - change (ord2ymd (1 + 0)) with (1, 1, 1). apply DN_first.
  - intros k Hk IH. pose proof (day_number_ord _ _ IH) as HO.
    destruct (ord2ymd (1 + k)) as [[y m] d]. destruct HO as (Hy & Hm & Hd & EQ).
    destruct (next_day_exists y m d Hm Hd) as [b Hb].
    pose proof (next_day_ord _ _ Hb) as HB. destruct b as [[y' m'] d'].
    destruct HB as (Hm' & Hd' & EQ' & _); [lia|].
    replace (1 + Z.succ k) with (1 + k + 1) by lia.
    replace (ord2ymd (1 + k + 1)) with (y', m', d'); [now apply (DN_next (y, m, d))|].
    rewrite <- EQ, <- EQ'. now rewrite ord2ymd_ymd2ord.
Qed.
Lemma day_number_iff y m d n : real_date y m d -> (day_number (y, m, d) n <-> n = ymd2ord y m d).
Proof.
  intros H. apply real_date_spec in H. pose proof (ymd2ord_range _ _ _ H) as HR.
  apply valid_date_spec in H as (_ & Hm & Hd). split.
  - intros HN. apply day_number_ord in HN. lia.
  - intros ->. pose proof (ord2ymd_day_number (ymd2ord y m d) ltac:(lia)) as HD.
    rewrite ord2ymd_ymd2ord in HD by easy. exact HD.
Qed.

(** ** Digits *)
Lemma two_spec a b v : two a b = Some v <-> below v 100 /\ [a; b] = d2 v.
Proof.
  unfold two, below, d2, digit. cbn [undec fold_left]. split.
  - destruct (is_digit a) eqn:Ea; [|discriminate]. destruct (is_digit b) eqn:Eb; [|discriminate].
    apply is_digit_spec in Ea, Eb. cbn [andb]. intros [= <-]. unfold undec. cbn [fold_left].
    split; [lia|]. repeat f_equal; lia.
  - intros [H [= -> ->]].
    assert (Ha : is_digit (Z.to_N (48 + v / 10)) = true) by (apply is_digit_spec; lia).
    assert (Hb : is_digit (Z.to_N (48 + v mod 10)) = true) by (apply is_digit_spec; lia).
    rewrite Ha, Hb. cbn [andb]. f_equal. unfold undec. cbn [fold_left]. lia.
Qed.
Lemma four_spec a b c d v : four a b c d = Some v <-> below v 10000 /\ [a; b; c; d] = d4 v.
Proof.
  unfold four, below, d4, digit. split.
  - destruct (is_digit a) eqn:Ea; [|discriminate]. destruct (is_digit b) eqn:Eb; [|discriminate].
    destruct (is_digit c) eqn:Ec; [|discriminate]. destruct (is_digit d) eqn:Ed; [|discriminate].
    apply is_digit_spec in Ea, Eb, Ec, Ed. cbn [andb]. intros [= <-]. unfold undec. cbn [fold_left].
    split; [lia|]. repeat f_equal; lia.
  - intros [H [= -> -> -> ->]].
    assert (Ha : is_digit (Z.to_N (48 + v / 1000)) = true) by (apply is_digit_spec; lia).
    assert (Hb : is_digit (Z.to_N (48 + v / 100 mod 10)) = true) by (apply is_digit_spec; lia).
    assert (Hc : is_digit (Z.to_N (48 + v / 10 mod 10)) = true) by (apply is_digit_spec; lia).
    assert (Hd : is_digit (Z.to_N (48 + v mod 10)) = true) by (apply is_digit_spec; lia).
    rewrite Ha, Hb, Hc, Hd. cbn [andb]. f_equal. unfold undec. cbn [fold_left]. lia.
Qed.
Lemma two_in_spec lo hi a b v : two_in lo hi a b = Some v <->
  lo <= v <= hi /\ below v 100 /\ [a; b] = d2 v.
Proof.
  unfold two_in. split.
  - destruct (two a b) as [x|] eqn:ET; [|discriminate]. apply two_spec in ET.
    destruct (_ && _) eqn:EB; [|discriminate]. intros [= <-]. split; [lia|easy].
  - intros (H & H2). apply two_spec in H2. rewrite H2.
    replace ((lo <=? v) && (v <=? hi)) with true by lia. easy.
Qed.
Lemma day_in_spec a b v : day_in a b = Some v <-> 1 <= v <= 31 /\ day_text v [a; b].
Proof.
  unfold day_in, day_text. destruct (N.eqb_spec a c_space) as [->|Hs].
  - split.
    + destruct (is_digit b) eqn:Eb; [|discriminate]. apply is_digit_spec in Eb.
      destruct (N.eqb_spec b 48); [discriminate|]. cbn [andb negb]. intros [= <-].
      unfold undec. cbn [fold_left]. unfold digit. split; [lia|]. right. split; [lia|].
      unfold c_space. repeat f_equal. lia.
    + intros (H & [[Hb E]|[Hb E]]).
      * exfalso. unfold d2, digit, c_space in E. injection E as E1 E2. unfold below in Hb. lia.
      * injection E as ->. unfold digit. assert (Hd : is_digit (Z.to_N (48 + v)) = true) by (apply is_digit_spec; lia).
        rewrite Hd. destruct (N.eqb_spec (Z.to_N (48 + v)) 48); [lia|]. cbn [andb negb].
        f_equal. unfold undec. cbn [fold_left]. lia.
  - rewrite two_in_spec. split.
    + intros (H & Hb & E). tauto.
    + intros (H & [[Hb E]|[Hb E]]); [tauto|]. injection E as -> ->. now unfold c_space in Hs.
Qed.

(** ** strptime *)
Lemma mk_datetime_spec y m d hh mi ss w : mk_datetime y m d hh mi ss = Some w <->
  real_fields (mk_fields y m d hh mi ss 0) /\ w = wall_of (mk_fields y m d hh mi ss 0).
Proof.
  unfold mk_datetime, real_fields, wall_of, real_time. cbn [f_y f_m f_d f_H f_M f_S f_us].
  rewrite <- real_date_spec. destruct (valid_date y m d); cbn [andb]; [|easy].
  destruct (valid_time hh mi ss 0) eqn:ET.
  - apply valid_time_spec in ET. split; [intros [= <-]|intros [_ ->]]; intuition lia.
  - split; [easy|]. intros [(_ & HT & _) _].
    assert (valid_time hh mi ss 0 = true) by (apply valid_time_spec; lia). congruence.
Qed.
Lemma obind_some {A B} (o : option A) (f : A -> option B) v :
  opt_bind o f = Some v <-> exists x, o = Some x /\ f x = Some v.
Proof.
  destruct o as [a|]; cbn; split.
  - intros H. now exists a.
  - intros (x & [= <-] & H). exact H.
  - discriminate.
  - intros (x & H & _). discriminate.
Qed.

Lemma is_T_spec c : is_T c = true <-> is_t c.
Proof. unfold is_T, is_t. lia. Qed.
Lemma d2_len n : length (d2 n) = 2%nat. Proof. reflexivity. Qed.
Lemma day_text_len d s : day_text d s -> exists a b, s = [a; b].
Proof. intros [[_ ->]|[_ ->]]; eexists _, _; reflexivity. Qed.

Ltac field_inv := repeat match goal with
  | H : exists _, _ |- _ => destruct H
  | H : _ /\ _ |- _ => destruct H
  | H : opt_bind _ _ = Some _ |- _ => apply obind_some in H
  | H : two_in _ _ _ _ = Some _ |- _ => apply two_in_spec in H
  | H : four _ _ _ _ = Some _ |- _ => apply four_spec in H
  | H : day_in _ _ = Some _ |- _ => apply day_in_spec in H
  | H : mk_datetime _ _ _ _ _ _ = Some _ |- _ => apply mk_datetime_spec in H
  end.
Lemma real_bounds f : real_fields f -> 1 <= f_m f <= 12 /\ 1 <= f_d f <= 31 /\ 1 <= f_y f <= 9999 /\
  0 <= f_H f <= 23 /\ 0 <= f_M f <= 59 /\ 0 <= f_S f <= 59.
Proof.
  intros (H & HT & _). apply real_date_spec, valid_date_spec in H. unfold real_time in HT.
  pose proof (days_in_month_pos (f_y f) (f_m f)). lia.
Qed.

Ltac fld := apply two_in_spec; split; [lia|split; [assumption|reflexivity]].
Lemma ym_spec s w : strptime_ym s = Some w <->
  exists y m, below y 10000 /\ below m 100 /\ s = d4 y ++ d2 m /\
    let f := mk_fields y m 1 0 0 0 0 in real_fields f /\ w = wall_of f.
Proof.
  unfold strptime_ym. split.
  - destruct s as [|a [|b [|c [|d [|e [|f [|? ?]]]]]]]; try discriminate. intros H. field_inv.
    eexists _, _. split; [eassumption|]. split; [eassumption|]. split; [|split; eassumption].
    change [a; b; c; d; e; f] with ([a; b; c; d] ++ [e; f]). congruence.
  - intros (y & m & Hy & Hm & -> & HR & ->). pose proof (real_bounds _ HR) as HB. cbn in HB.
    unfold d4, d2. cbn [app]. apply obind_some. exists y. split; [now apply four_spec|].
    apply obind_some. exists m. split; [fld|].
    now apply mk_datetime_spec.
Qed.
Lemma ymd_spec s w : strptime_ymd s = Some w <->
  exists y m d t, below y 10000 /\ below m 100 /\ day_text d t /\ s = d4 y ++ d2 m ++ t /\
    let f := mk_fields y m d 0 0 0 0 in real_fields f /\ w = wall_of f.
Proof.
  unfold strptime_ymd. split.
  - destruct s as [|a [|b [|c [|d [|e [|f [|g [|h [|? ?]]]]]]]]]; try discriminate. intros H. field_inv.
    eexists _, _, _, [g; h]. split; [eassumption|]. split; [eassumption|]. split; [eassumption|].
    split; [|split; eassumption].
    change [a; b; c; d; e; f; g; h] with ([a; b; c; d] ++ [e; f] ++ [g; h]). congruence.
  - intros (y & m & d & t & Hy & Hm & Ht & -> & HR & ->). pose proof (real_bounds _ HR) as HB. cbn in HB.
    destruct (day_text_len _ _ Ht) as (a & b & ->).
    unfold d4, d2. cbn [app]. apply obind_some. exists y. split; [now apply four_spec|].
    apply obind_some. exists m. split; [fld|].
    apply obind_some. exists d. split; [apply day_in_spec; split; [lia|easy]|].
    now apply mk_datetime_spec.
Qed.
Lemma ymdh_spec s w : strptime_ymdh s = Some w <->
  exists y m d t c hh, below y 10000 /\ below m 100 /\ day_text d t /\ is_t c /\ below hh 100 /\
    s = d4 y ++ d2 m ++ t ++ c :: d2 hh /\
    let f := mk_fields y m d hh 0 0 0 in real_fields f /\ w = wall_of f.
Proof.
  unfold strptime_ymdh. split.
  - destruct s as [|a [|b [|c [|d [|e [|f [|g [|h [|i [|j [|k [|? ?]]]]]]]]]]]]; try discriminate.
    destruct (is_T i) eqn:ET; [|discriminate]. apply is_T_spec in ET. intros H. field_inv.
    exists x, x0, x1, [g; h], i, x2. do 5 (split; [eassumption|]).
    split; [|split; eassumption].
    change [a; b; c; d; e; f; g; h; i; j; k] with ([a; b; c; d] ++ [e; f] ++ [g; h] ++ i :: [j; k]). congruence.
  - intros (y & m & d & t & c & hh & Hy & Hm & Ht & Hc & Hh & -> & HR & ->).
    pose proof (real_bounds _ HR) as HB. cbn in HB.
    destruct (day_text_len _ _ Ht) as (a & b & ->). apply is_T_spec in Hc.
    unfold d4, d2. cbn [app]. rewrite Hc. apply obind_some. exists y. split; [now apply four_spec|].
    apply obind_some. exists m. split; [fld|].
    apply obind_some. exists d. split; [apply day_in_spec; split; [lia|easy]|].
    apply obind_some. exists hh. split; [fld|].
    now apply mk_datetime_spec.
Qed.
Lemma ymdhm_spec s w : strptime_ymdhm s = Some w <->
  exists y m d t c hh mi, below y 10000 /\ below m 100 /\ day_text d t /\ is_t c /\ below hh 100 /\
    below mi 100 /\ s = d4 y ++ d2 m ++ t ++ c :: d2 hh ++ d2 mi /\
    let f := mk_fields y m d hh mi 0 0 in real_fields f /\ w = wall_of f.
Proof.
  unfold strptime_ymdhm. split.
  - destruct s as [|a [|b [|c [|d [|e [|f [|g [|h [|i [|j [|k [|l [|n [|? ?]]]]]]]]]]]]]]; try discriminate.
    destruct (is_T i) eqn:ET; [|discriminate]. apply is_T_spec in ET. intros H. field_inv.
    exists x, x0, x1, [g; h], i, x2, x3. do 6 (split; [eassumption|]).
    split; [|split; eassumption].
    change [a; b; c; d; e; f; g; h; i; j; k; l; n]
      with ([a; b; c; d] ++ [e; f] ++ [g; h] ++ i :: [j; k] ++ [l; n]). congruence.
  - intros (y & m & d & t & c & hh & mi & Hy & Hm & Ht & Hc & Hh & Hmi & -> & HR & ->).
    pose proof (real_bounds _ HR) as HB. cbn in HB.
    destruct (day_text_len _ _ Ht) as (a & b & ->). apply is_T_spec in Hc.
    unfold d4, d2. cbn [app]. rewrite Hc. apply obind_some. exists y. split; [now apply four_spec|].
    apply obind_some. exists m. split; [fld|].
    apply obind_some. exists d. split; [apply day_in_spec; split; [lia|easy]|].
    apply obind_some. exists hh. split; [fld|].
    apply obind_some. exists mi. split; [fld|].
    now apply mk_datetime_spec.
Qed.
Lemma ymdhms_spec s w : strptime_ymdhms s = Some w <->
  exists y m d t c hh mi ss, below y 10000 /\ below m 100 /\ day_text d t /\ is_t c /\ below hh 100 /\
    below mi 100 /\ below ss 100 /\ s = d4 y ++ d2 m ++ t ++ c :: d2 hh ++ d2 mi ++ d2 ss /\
    let f := mk_fields y m d hh mi ss 0 in real_fields f /\ w = wall_of f.
Proof.
  unfold strptime_ymdhms. split.
  - destruct s as [|a [|b [|c [|d [|e [|f [|g [|h [|i [|j [|k [|l [|n [|o [|p [|? ?]]]]]]]]]]]]]]]]; try discriminate.
    destruct (is_T i) eqn:ET; [|discriminate]. apply is_T_spec in ET. intros H. field_inv.
    exists x, x0, x1, [g; h], i, x2, x3, x4. do 7 (split; [eassumption|]).
    split; [|split; eassumption].
    change [a; b; c; d; e; f; g; h; i; j; k; l; n; o; p]
      with ([a; b; c; d] ++ [e; f] ++ [g; h] ++ i :: [j; k] ++ [l; n] ++ [o; p]). congruence.
  - intros (y & m & d & t & c & hh & mi & ss & Hy & Hm & Ht & Hc & Hh & Hmi & Hs & -> & HR & ->).
    pose proof (real_bounds _ HR) as HB. cbn in HB.
    destruct (day_text_len _ _ Ht) as (a & b & ->). apply is_T_spec in Hc.
    unfold d4, d2. cbn [app]. rewrite Hc. apply obind_some. exists y. split; [now apply four_spec|].
    apply obind_some. exists m. split; [fld|].
    apply obind_some. exists d. split; [apply day_in_spec; split; [lia|easy]|].
    apply obind_some. exists hh. split; [fld|].
    apply obind_some. exists mi. split; [fld|].
    apply obind_some. exists ss. split; [fld|].
    now apply mk_datetime_spec.
Qed.
Lemma h_spec s w : strptime_h s = Some w <->
  exists hh, below hh 100 /\ s = d2 hh /\
    let f := mk_fields 1900 1 1 hh 0 0 0 in real_fields f /\ w = wall_of f.
Proof.
  unfold strptime_h. split.
  - destruct s as [|a [|b [|? ?]]]; try discriminate. intros H. field_inv.
    eexists. split; [eassumption|]. split; [congruence|]. split; eassumption.
  - intros (hh & Hh & -> & HR & ->). pose proof (real_bounds _ HR) as HB. cbn in HB. unfold d2.
    apply obind_some. exists hh. split; [fld|]. now apply mk_datetime_spec.
Qed.
Lemma hm_spec s w : strptime_hm s = Some w <->
  exists hh mi, below hh 100 /\ below mi 100 /\ s = d2 hh ++ d2 mi /\
    let f := mk_fields 1900 1 1 hh mi 0 0 in real_fields f /\ w = wall_of f.
Proof.
  unfold strptime_hm. split.
  - destruct s as [|a [|b [|c [|d [|? ?]]]]]; try discriminate. intros H. field_inv.
    exists x, x0. do 2 (split; [eassumption|]). split; [|split; eassumption].
    change [a; b; c; d] with ([a; b] ++ [c; d]). congruence.
  - intros (hh & mi & Hh & Hm & -> & HR & ->). pose proof (real_bounds _ HR) as HB. cbn in HB.
    unfold d2. cbn [app].
    apply obind_some. exists hh. split; [fld|].
    apply obind_some. exists mi. split; [fld|]. now apply mk_datetime_spec.
Qed.
Lemma hms_spec s w : strptime_hms s = Some w <->
  exists hh mi ss, below hh 100 /\ below mi 100 /\ below ss 100 /\ s = d2 hh ++ d2 mi ++ d2 ss /\
    let f := mk_fields 1900 1 1 hh mi ss 0 in real_fields f /\ w = wall_of f.
Proof.
  unfold strptime_hms. split.
  - destruct s as [|a [|b [|c [|d [|e [|f [|? ?]]]]]]]; try discriminate. intros H. field_inv.
    exists x, x0, x1. do 3 (split; [eassumption|]). split; [|split; eassumption].
    change [a; b; c; d; e; f] with ([a; b] ++ [c; d] ++ [e; f]). congruence.
  - intros (hh & mi & ss & Hh & Hm & Hs & -> & HR & ->). pose proof (real_bounds _ HR) as HB. cbn in HB.
    unfold d2. cbn [app].
    apply obind_some. exists hh. split; [fld|].
    apply obind_some. exists mi. split; [fld|].
    apply obind_some. exists ss. split; [fld|]. now apply mk_datetime_spec.
Qed.

Definition text_of (F : formats) : str -> fields -> Prop :=
  match F with FDate => date_text | FDatetime => datetime_text | FTime => time_text end.
Lemma ok_iff {A} (o : option A) w : match o with Some w => Ok w | None => Err ValueError end = Ok w <-> o = Some w.
Proof. destruct o; split; congruence. Qed.

Lemma date_text_len s f : date_text s f -> length s = 6%nat \/ length s = 8%nat.
Proof. destruct 1 as [|y m d t ? ? Ht]; [now left|right]. destruct (day_text_len _ _ Ht) as (a & b & ->). reflexivity. Qed.

Lemma strptime_date s w : strptime FDate s = Ok w <->
  exists f, date_text s f /\ real_fields f /\ w = wall_of f.
Proof.
  unfold strptime. rewrite ok_iff. split.
  - destruct (length s) as [|[|[|[|[|[|[|[|[|?]]]]]]]]] eqn:EL; try discriminate; intros H.
    + apply ym_spec in H as (y & m & Hy & Hm & -> & HR & ->). eexists. split; [|split; [exact HR|easy]]. now apply DT_ym.
    + apply ymd_spec in H as (y & m & d & t & Hy & Hm & Ht & -> & HR & ->).
      eexists. split; [|split; [exact HR|easy]]. now apply DT_ymd.
    + destruct n as [|[|[|[|[|[|[|?]]]]]]]; discriminate.
  - intros (f & Ht & HR & ->). destruct Ht as [y m Hy Hm|y m d t Hy Hm Ht].
    + cbn [length app d4 d2]. change (length (d4 y ++ d2 m)) with 6%nat. apply ym_spec.
      exists y, m. do 3 (split; [easy|]). easy.
    + destruct (day_text_len _ _ Ht) as (a & b & ->). change (length (d4 y ++ d2 m ++ [a; b])) with 8%nat.
      apply ymd_spec. exists y, m, d, [a; b]. do 4 (split; [easy|]). easy.
Qed.
Lemma strptime_datetime s w : strptime FDatetime s = Ok w <->
  exists f, datetime_text s f /\ real_fields f /\ w = wall_of f.
Proof.
  split.
  - unfold strptime. rewrite ok_iff.
    destruct (length s) as [|[|[|[|[|[|[|[|[|[|[|[|[|[|[|[|?]]]]]]]]]]]]]]]] eqn:EL; try discriminate; intros H.
    + apply ym_spec in H as (y & m & Hy & Hm & -> & HR & ->). eexists. split; [|split; [exact HR|easy]].
      apply DTT_date. now apply DT_ym.
    + apply ymd_spec in H as (y & m & d & t & Hy & Hm & Ht & -> & HR & ->).
      eexists. split; [|split; [exact HR|easy]]. apply DTT_date. now apply DT_ymd.
    + apply ymdh_spec in H as (y & m & d & t & c & hh & Hy & Hm & Ht & Hc & Hh & -> & HR & ->).
      eexists. split; [|split; [exact HR|easy]]. now apply DTT_h.
    + apply ymdhm_spec in H as (y & m & d & t & c & hh & mi & Hy & Hm & Ht & Hc & Hh & Hi & -> & HR & ->).
      eexists. split; [|split; [exact HR|easy]]. now apply DTT_hm.
    + apply ymdhms_spec in H as (y & m & d & t & c & hh & mi & ss & Hy & Hm & Ht & Hc & Hh & Hi & Hs & -> & HR & ->).
      eexists. split; [|split; [exact HR|easy]]. now apply DTT_hms.
  - intros (f & Ht & HR & ->).
    destruct Ht as [s f Ht|y m d t c hh Hy Hm Ht Hc Hh|y m d t c hh mi Hy Hm Ht Hc Hh Hi|y m d t c hh mi ss Hy Hm Ht Hc Hh Hi Hs].
    + destruct (date_text_len _ _ Ht) as [EL|EL].
      * assert (strptime FDate s = Ok (wall_of f)) by (apply strptime_date; eauto).
        unfold strptime in *. now rewrite EL in *.
      * assert (strptime FDate s = Ok (wall_of f)) by (apply strptime_date; eauto).
        unfold strptime in *. now rewrite EL in *.
    + unfold strptime. rewrite ok_iff. destruct (day_text_len _ _ Ht) as (a & b & ->).
      change (length (d4 y ++ d2 m ++ [a; b] ++ c :: d2 hh)) with 11%nat.
      apply ymdh_spec. exists y, m, d, [a; b], c, hh. do 6 (split; [easy|]). easy.
    + unfold strptime. rewrite ok_iff. destruct (day_text_len _ _ Ht) as (a & b & ->).
      change (length (d4 y ++ d2 m ++ [a; b] ++ c :: d2 hh ++ d2 mi)) with 13%nat.
      apply ymdhm_spec. exists y, m, d, [a; b], c, hh, mi. do 7 (split; [easy|]). easy.
    + unfold strptime. rewrite ok_iff. destruct (day_text_len _ _ Ht) as (a & b & ->).
      change (length (d4 y ++ d2 m ++ [a; b] ++ c :: d2 hh ++ d2 mi ++ d2 ss)) with 15%nat.
      apply ymdhms_spec. exists y, m, d, [a; b], c, hh, mi, ss. do 8 (split; [easy|]). easy.
Qed.
Lemma strptime_time s w : strptime FTime s = Ok w <->
  exists f, time_text s f /\ real_fields f /\ w = wall_of f.
Proof.
  unfold strptime. rewrite ok_iff. split.
  - destruct (length s) as [|[|[|[|[|[|[|[|[|?]]]]]]]]] eqn:EL; try discriminate; intros H.
    + apply h_spec in H as (hh & Hh & -> & HR & ->). eexists. split; [|split; [exact HR|easy]]. now apply TT_h.
    + apply hm_spec in H as (hh & mi & Hh & Hm & -> & HR & ->). eexists. split; [|split; [exact HR|easy]]. now apply TT_hm.
    + apply hms_spec in H as (hh & mi & ss & Hh & Hm & Hs & -> & HR & ->).
      eexists. split; [|split; [exact HR|easy]]. now apply TT_hms.
    + destruct n as [|[|[|[|[|[|[|?]]]]]]]; discriminate.
  - intros (f & Ht & HR & ->). destruct Ht as [hh Hh|hh mi Hh Hm|hh mi ss Hh Hm Hs].
    + change (length (d2 hh)) with 2%nat. apply h_spec. exists hh. do 2 (split; [easy|]). easy.
    + change (length (d2 hh ++ d2 mi)) with 4%nat. apply hm_spec. exists hh, mi. do 3 (split; [easy|]). easy.
    + change (length (d2 hh ++ d2 mi ++ d2 ss)) with 6%nat. apply hms_spec. exists hh, mi, ss. do 4 (split; [easy|]). easy.
Qed.
Lemma strptime_spec F s w : strptime F s = Ok w <-> exists f, text_of F s f /\ real_fields f /\ w = wall_of f.
Proof. destruct F; [apply strptime_date|apply strptime_datetime|apply strptime_time]. Qed.
Lemma strptime_err F s e : strptime F s = Err e -> e = ValueError.
Proof. unfold strptime. cbv zeta. match goal with |- match ?r with Some _ => _ | None => _ end = _ -> _ => destruct r end; congruence. Qed.

(** ** Reading *)
Lemma skip_char_mem c : skip_char c = mem c (py "/-Zz").
Proof. unfold skip_char, mem. cbn. unfold c_slash, c_dash. lia. Qed.
Lemma strip_unmarked v : strip_marks v = unmarked v.
Proof. apply filter_ext. intros c. now rewrite skip_char_mem. Qed.
Lemma rev_cons_app {A} (v : list A) c t : rev v = c :: t -> v = rev t ++ [c].
Proof. intros H. rewrite <- (rev_involutive v), H. reflexivity. Qed.
Lemma upper_Z c : N.eqb (upper_char c) 90 = true <-> c = 90%N \/ c = 122%N.
Proof. unfold upper_char. destruct (N.leb_spec 97 c), (N.leb_spec c 122); cbn [andb]; lia. Qed.
Lemma utc_mark_last u c : utc_mark (u ++ [c]) <-> c = 90%N \/ c = 122%N.
Proof.
  unfold utc_mark. change (py "Z") with [90%N]. change (py "z") with [122%N]. split.
  - intros (u' & [H|H]); apply app_inj_tail in H; intuition.
  - intros [->| ->]; exists u; tauto.
Qed.

Definition no_tzid (ps : params) : Prop := dict_get (py "TZID") ps = None.
Lemma pop_no_tzid ps : no_tzid ps -> pop_tzid ps = Ok None.
Proof. unfold no_tzid, pop_tzid. now intros ->. Qed.
Lemma dict_del_none {V} k (d : dict V) : dict_get k d = None -> dict_del k d = d.
Proof.
  induction d as [|[k' v] d IH]; [easy|]. cbn. destruct (str_eqb k k'); [easy|].
  intros H. now rewrite IH.
Qed.

Lemma parse_dt_ok D F v ps zs d ps' zs' : parse_dt D F v ps zs = Ok (d, ps', zs') ->
  exists f, text_of F (unmarked v) f /\ real_fields f /\ wall d = wall_of f /\ fold d = false /\
    ps' = dict_del (py "TZID") ps /\
    (utc_mark v -> dtz d = Some (z_utc D) /\ zs' = zs) /\
    (~ utc_mark v -> pop_tzid ps = Ok None /\ dtz d = None /\ zs' = zs \/
       exists t z, pop_tzid ps = Ok (Some t) /\ read_zone D t zs = Ok (z, zs') /\ dtz d = Some z).
Proof.
  unfold parse_dt. destruct (pop_tzid ps) as [t|e] eqn:EP; [|discriminate]. cbn [bind].
  destruct (rev v) as [|c r] eqn:ER; [discriminate|]. apply rev_cons_app in ER.
  destruct (strptime F (strip_marks v)) as [w|e] eqn:ES; [|discriminate]. cbn [bind].
  rewrite strip_unmarked in ES. apply strptime_spec in ES as (f & Ht & HR & ->).
  destruct (N.eqb (upper_char c) 90) eqn:EZ.
  - apply upper_Z in EZ. destruct t; [discriminate|]. intros [= <- <- <-]. exists f.
    do 3 (split; [easy|]). split; [easy|]. split; [easy|]. split; [easy|].
    intros HN. destruct HN. rewrite ER. now apply utc_mark_last.
  - assert (HN : ~ utc_mark v) by (rewrite ER, utc_mark_last, <- upper_Z; congruence).
    destruct t as [t|].
    + destruct (read_zone D t zs) as [[z zs1]|] eqn:EZo; [|discriminate]. intros [= <- <- <-]. exists f.
      do 3 (split; [easy|]). split; [easy|]. split; [easy|]. split; [easy|]. intros _. right. exists t, z. easy.
    + intros [= <- <- <-]. exists f. do 3 (split; [easy|]). split; [easy|]. split; [easy|]. split; [easy|].
      intros _. left. easy.
Qed.

Definition utc_kind D (v : str) : option tz := if mem (last v 0%N) (py "Zz") then Some (z_utc D) else None.
Lemma mem_Zz c : mem c (py "Zz") = true <-> c = 90%N \/ c = 122%N.
Proof. rewrite mem_In. cbn. intuition. Qed.
Lemma mem_Zz_f c : c <> 90%N -> c <> 122%N -> mem c (py "Zz") = false.
Proof. intros H1 H2. apply mem_not_In. cbn. intuition. Qed.
Lemma utc_kind_mark D v : utc_mark v -> utc_kind D v = Some (z_utc D).
Proof. unfold utc_kind. change (utc_mark v) with (exists u, v = u ++ [90%N] \/ v = u ++ [122%N]). intros (u & [-> | ->]); now rewrite last_last. Qed.
Lemma utc_kind_nomark D v : v <> [] -> ~ utc_mark v -> utc_kind D v = None.
Proof.
  intros Hv HN. destruct (exists_last Hv) as (u & c & ->). rewrite utc_mark_last in HN.
  unfold utc_kind. rewrite last_last, mem_Zz_f by tauto. easy.
Qed.
Lemma utc_mark_dec v : utc_mark v \/ ~ utc_mark v.
Proof.
  destruct v as [|x v]; [right; intros (u & [H|H]); destruct u; discriminate|].
  destruct (exists_last (l := x :: v) ltac:(easy)) as (u & c & ->). rewrite utc_mark_last. lia.
Qed.

(** Without a TZID parameter: the exact set of accepted texts. *)
Lemma parse_dt_plain D F v ps zs : v <> [] -> no_tzid ps ->
  parse_dt D F v ps zs =
    match strptime F (unmarked v) with
    | Ok w => Ok (mk_dt w false (utc_kind D v), ps, zs)
    | Err e => Err e
    end.
Proof.
  intros Hv Hps. unfold parse_dt. rewrite pop_no_tzid by easy. cbn [bind].
  rewrite dict_del_none by easy.
  destruct (exists_last Hv) as (u & c & ->). rewrite rev_app_distr. cbn [rev app].
  rewrite strip_unmarked. destruct (strptime F _) as [w|e]; [|easy]. cbn [bind].
  unfold utc_kind. rewrite last_last.
  destruct (N.eqb (upper_char c) 90) eqn:EZ.
  - apply upper_Z in EZ. destruct EZ as [-> | ->]; easy.
  - assert (HN : ~ (c = 90 \/ c = 122)%N) by (rewrite <- upper_Z; congruence).
    rewrite mem_Zz_f by tauto. easy.
Qed.

(** ** Writing *)
Definition check2 (n : Z) : bool := str_eqb (z2 n) (d2 n).
Lemma z2_d2 n : 0 <= n <= 99 -> z2 n = d2 n.
Proof.
  intros H. apply str_eqb_eq.
  assert (HC : all_from check2 0 100 = true) by (vm_compute; reflexivity).
  exact (all_from_spec _ _ _ HC n ltac:(lia)).
Qed.
Definition check4 (n : Z) : bool := str_eqb (dec (Z.to_N n)) (d4 n).
Lemma dec_d4 n : 1000 <= n <= 9999 -> dec (Z.to_N n) = d4 n.
Proof.
  intros H. apply str_eqb_eq.
  assert (HC : all_from check4 1000 9000 = true) by (vm_compute; reflexivity).
  exact (all_from_spec _ _ _ HC n ltac:(lia)).
Qed.

Lemma real_of_fields w : wall_ok w = true -> w mod US_SEC = 0 -> real_fields (fields_of w).
Proof.
  intros H Hu. pose proof (fields_of_valid w H) as [HD HT]. apply real_date_spec in HD. apply valid_time_spec in HT.
  split; [easy|]. split; [unfold real_time; lia|].
  unfold fields_of. destruct (ord2ymd _) as [[y m] d]. cbn. unfold US_DAY, US_SEC in *. lia.
Qed.
Lemma fields_bounds w : wall_ok w = true -> let f := fields_of w in
  1 <= f_y f <= 9999 /\ 1 <= f_m f <= 12 /\ 1 <= f_d f <= 31 /\ 0 <= f_H f <= 23 /\ 0 <= f_M f <= 59 /\ 0 <= f_S f <= 59.
Proof.
  intros H. pose proof (fields_of_valid w H) as [HD HT]. cbv zeta.
  apply valid_date_spec in HD. apply valid_time_spec in HT.
  pose proof (days_in_month_pos (f_y (fields_of w)) (f_m (fields_of w))). lia.
Qed.
Definition year_of (w : Z) : Z := f_y (fields_of w).

Lemma fmt_date_text w : wall_ok w = true -> 1000 <= year_of w ->
  fmt_date (fields_of w) = let f := fields_of w in d4 (f_y f) ++ d2 (f_m f) ++ d2 (f_d f).
Proof.
  intros H Hy. pose proof (fields_bounds w H) as HB. unfold year_of in Hy. cbv zeta in *. unfold fmt_date.
  rewrite dec_d4, !z2_d2 by lia. reflexivity.
Qed.
Lemma fmt_time_text w : wall_ok w = true ->
  fmt_time (fields_of w) = let f := fields_of w in d2 (f_H f) ++ d2 (f_M f) ++ d2 (f_S f).
Proof.
  intros H. pose proof (fields_bounds w H) as HB. cbv zeta in *. unfold fmt_time. rewrite !z2_d2 by lia. reflexivity.
Qed.
Lemma mk_fields_eta w : wall_ok w = true -> w mod US_SEC = 0 ->
  fields_of w = mk_fields (f_y (fields_of w)) (f_m (fields_of w)) (f_d (fields_of w)) (f_H (fields_of w)) (f_M (fields_of w)) (f_S (fields_of w)) 0.
Proof.
  intros H Hu. destruct (real_of_fields w H Hu) as (_ & _ & Hz). destruct (fields_of w). cbn in *. congruence.
Qed.
Lemma fmt_datetime_text w : wall_ok w = true -> w mod US_SEC = 0 -> 1000 <= year_of w ->
  datetime_text (fmt_datetime w) (fields_of w).
Proof.
  intros H Hu Hy. unfold fmt_datetime. rewrite fmt_date_text, fmt_time_text by easy. cbv zeta.
  pose proof (fields_bounds w H) as HB. cbv zeta in HB. unfold year_of in Hy.
  rewrite (mk_fields_eta w) at 7 by easy. change (py "T") with [84%N]. rewrite <- !app_assoc. cbn [app].
  apply DTT_hms; unfold below; try lia; [|now left]. left. unfold below. split; [lia|easy].
Qed.
Lemma fmt_date_text_ok w : wall_ok w = true -> w mod US_DAY = 0 -> 1000 <= year_of w ->
  date_text (date_serialize w) (fields_of w).
Proof.
  intros H Hu Hy. unfold date_serialize. rewrite fmt_date_text by easy. cbv zeta.
  pose proof (fields_bounds w H) as HB. cbv zeta in HB. unfold year_of in Hy.
  assert (HE : f_H (fields_of w) = 0 /\ f_M (fields_of w) = 0 /\ f_S (fields_of w) = 0).
  { unfold fields_of. destruct (ord2ymd _) as [[y m] d]. cbn. rewrite Hu. easy. }
  destruct HE as (E1 & E2 & E3).
  rewrite (mk_fields_eta w) at 4 by (unfold US_DAY, US_SEC in *; lia || easy). rewrite E1, E2, E3.
  apply DT_ymd; unfold below; try lia. left. unfold below. split; [lia|easy].
Qed.

(** Written texts contain no marks. *)
Definition plain (s : str) : Prop := Forall (fun c => mem c (py "/-Zz") = false) s.
Lemma plain_unmarked s : plain s -> unmarked s = s.
Proof. induction 1 as [|c s Hc Hs IH]; [easy|]. unfold unmarked in *. cbn [filter]. rewrite Hc. cbn [negb]. congruence. Qed.
Lemma plain_digits s : forallb is_digit s = true -> plain s.
Proof.
  intros H. apply Forall_forall. intros c Hc. rewrite forallb_forall in H. apply H, is_digit_spec in Hc.
  rewrite <- skip_char_mem. unfold skip_char, c_slash, c_dash. lia.
Qed.
Lemma plain_app a b : plain a -> plain b -> plain (a ++ b).
Proof. intros; apply Forall_app; easy. Qed.
Lemma pad_digits k n : forallb is_digit (pad k n) = true.
Proof.
  unfold pad. rewrite forallb_app, dec_digits, andb_true_r. apply forallb_forall. intros c Hc.
  apply repeat_spec in Hc. now subst.
Qed.
Lemma plain_date f : plain (fmt_date f).
Proof. apply plain_app; [|apply plain_app]; apply plain_digits; try apply dec_digits; apply pad_digits. Qed.
Lemma plain_time f : plain (fmt_time f).
Proof. apply plain_app; [|apply plain_app]; apply plain_digits; apply pad_digits. Qed.
Lemma plain_datetime w : plain (fmt_datetime w).
Proof. apply plain_app; [apply plain_date|]. apply plain_app; [|apply plain_time]. repeat constructor. Qed.
Lemma plain_last s D : plain s -> utc_kind D s = None.
Proof.
  intros H. destruct s as [|x s]; [easy|]. unfold utc_kind.
  destruct (exists_last (l := x :: s) ltac:(easy)) as (u & c & E). rewrite E in *. rewrite last_last.
  apply Forall_app in H as [_ H]. inversion H as [|? ? Hc]; subst. rewrite mem_Zz_f; [easy|intros ->..]; discriminate.
Qed.
Lemma fmt_datetime_nonempty w : fmt_datetime w <> [].
Proof.
  unfold fmt_datetime, fmt_date. pose proof (dec_nonempty (Z.to_N (f_y (fields_of w)))).
  destruct (dec _); [easy|]. easy.
Qed.
Lemma fmt_datetime_strptime w : wall_ok w = true -> w mod US_SEC = 0 -> 1000 <= year_of w ->
  strptime FDatetime (fmt_datetime w) = Ok w.
Proof.
  intros H Hu Hy. apply strptime_spec. exists (fields_of w). split; [now apply fmt_datetime_text|].
  split; [now apply real_of_fields|]. now rewrite wall_of_fields.
Qed.
Lemma unmarked_app a b : unmarked (a ++ b) = unmarked a ++ unmarked b.
Proof. apply filter_app. Qed.

Section RT.
Variable D : zone_db.
Lemma rt_naive w fo ps zs : wall_ok w = true -> w mod US_SEC = 0 -> 1000 <= year_of w -> no_tzid ps ->
  exists s, datetime_serialize D (mk_dt w fo None) ps zs = Ok (s, ps, zs) /\
    datetime_parse D s ps zs = Ok (mk_dt w false None, ps, zs).
Proof.
  intros H Hu Hy Hp. exists (fmt_datetime w). split; [reflexivity|]. unfold datetime_parse.
  rewrite parse_dt_plain by (try apply fmt_datetime_nonempty; easy).
  rewrite (plain_unmarked (fmt_datetime w)) by apply plain_datetime. rewrite fmt_datetime_strptime by easy.
  now rewrite plain_last by apply plain_datetime.
Qed.
Lemma rt_utc w fo z ps zs : wall_ok w = true -> w mod US_SEC = 0 -> 1000 <= year_of w -> no_tzid ps ->
  z_is_utc D z = true ->
  exists s, datetime_serialize D (mk_dt w fo (Some z)) ps zs = Ok (s, ps, zs) /\
    datetime_parse D s ps zs = Ok (mk_dt w false (Some (z_utc D)), ps, zs).
Proof.
  intros H Hu Hy Hp Hz. exists (fmt_datetime w ++ py "Z").
  split; [unfold datetime_serialize, serialize_dt; cbn; now rewrite Hz|]. unfold datetime_parse.
  rewrite parse_dt_plain by (try easy; destruct (fmt_datetime w); easy).
  rewrite unmarked_app, (plain_unmarked (fmt_datetime w)) by apply plain_datetime.
  change (unmarked (py "Z")) with (@nil N). rewrite app_nil_r, fmt_datetime_strptime by easy.
  change (py "Z") with [90%N]. unfold utc_kind. now rewrite last_last.
Qed.
Lemma pop_set t ps : t <> [] -> pop_tzid (dict_set (py "TZID") [t] ps) = Ok (Some t).
Proof. intros H. unfold pop_tzid. rewrite dict_get_set_same. destruct t; easy. Qed.
Lemma dict_del_set {V} k (v : V) d : dict_del k (dict_set k v d) = dict_del k d.
Proof.
  induction d as [|[k' v'] d IH]; cbn; [now rewrite str_eqb_refl|].
  destruct (str_eqb k k') eqn:E; cbn; rewrite E; [easy|]. now rewrite IH.
Qed.
Lemma parse_written_zone w t ps zs z : wall_ok w = true -> w mod US_SEC = 0 -> 1000 <= year_of w ->
  t <> [] -> dict_get t zs = Some z ->
  datetime_parse D (fmt_datetime w) (dict_set (py "TZID") [t] ps) (Some zs) =
    Ok (mk_dt w false (Some z), dict_del (py "TZID") ps, Some zs).
Proof.
  intros H Hu Hy Ht Hz. unfold datetime_parse, parse_dt. rewrite pop_set by easy. cbn [bind].
  rewrite dict_del_set.
  destruct (rev (fmt_datetime w)) as [|c r] eqn:ER.
  { assert (E := f_equal (@length N) ER). rewrite rev_length in E. pose proof (fmt_datetime_nonempty w).
    destruct (fmt_datetime w); easy. }
  rewrite strip_unmarked, plain_unmarked by apply plain_datetime. rewrite fmt_datetime_strptime by easy. cbn [bind].
  apply rev_cons_app in ER. pose proof (plain_datetime w) as HP. rewrite ER in HP.
  apply Forall_app in HP as [_ HP]. inversion HP as [|? ? Hc]; subst.
  destruct (N.eqb (upper_char c) 90) eqn:EZ.
  { apply upper_Z in EZ. destruct EZ as [-> | ->]; discriminate. }
  unfold read_zone. rewrite Hz. reflexivity.
Qed.
Lemma rt_zone w fo z t z' ps zs : wall_ok w = true -> w mod US_SEC = 0 -> 1000 <= year_of w ->
  z_is_utc D z = false -> z_from_tzinfo D z = Ok (Some (t, z')) -> t <> [] ->
  exists s ps' zs', datetime_serialize D (mk_dt w fo (Some z)) ps (Some zs) = Ok (s, ps', Some zs') /\
    dict_get (py "TZID") ps' = Some [t] /\ (forall k, k <> py "TZID" -> dict_get k ps' = dict_get k ps) /\
    (forall k y, dict_get k zs = Some y -> dict_get k zs' = Some y) /\
    (forall k, k <> t -> dict_get k zs' = dict_get k zs) /\
    datetime_parse D s ps' (Some zs') =
      Ok (mk_dt w false (Some (match dict_get t zs with Some y => y | None => z' end)), dict_del (py "TZID") ps, Some zs').
Proof.
  intros H Hu Hy Hz Hf Ht.
  exists (fmt_datetime w), (dict_set (py "TZID") [t] ps),
    (match dict_get t zs with Some _ => zs | None => dict_set t z' zs end).
  split. { unfold datetime_serialize, serialize_dt, write_zone. cbn. rewrite Hz, Hf. reflexivity. }
  split; [apply dict_get_set_same|].
  split. { intros k Hk. apply dict_get_set_other; congruence. }
  split. { intros k y Hk. destruct (dict_get t zs) eqn:E; [easy|]. rewrite dict_get_set_other; [easy|congruence]. }
  split. { intros k Hk. destruct (dict_get t zs) eqn:E; [easy|]. apply dict_get_set_other; congruence. }
  apply parse_written_zone; try easy. destruct (dict_get t zs) as [y|] eqn:E; [easy|]. apply dict_get_set_same.
Qed.
Lemma rt_date w ps zs : wall_ok w = true -> w mod US_DAY = 0 -> 1000 <= year_of w -> no_tzid ps ->
  date_parse D (date_serialize w) ps zs = Ok (w, ps, zs).
Proof.
  intros H Hu Hy Hp. unfold date_parse.
  assert (Hne : date_serialize w <> []).
  { unfold date_serialize, fmt_date. pose proof (dec_nonempty (Z.to_N (f_y (fields_of w)))). destruct (dec _); easy. }
  rewrite parse_dt_plain by assumption. rewrite plain_unmarked by apply plain_date.
  assert (ES : strptime FDate (date_serialize w) = Ok w).
  { apply strptime_spec. exists (fields_of w). split; [now apply fmt_date_text_ok|].
    split; [apply real_of_fields; [easy|unfold US_DAY, US_SEC in *; lia]|]. now rewrite wall_of_fields. }
  rewrite ES. cbn. repeat f_equal. lia.
Qed.
End RT.

(** ** What is lost *)
Lemma fields_floor w : let f := fields_of w in let g := fields_of (w - w mod US_SEC) in
  f_y g = f_y f /\ f_m g = f_m f /\ f_d g = f_d f /\ f_H g = f_H f /\ f_M g = f_M f /\ f_S g = f_S f.
Proof.
  cbv zeta. unfold fields_of.
  replace ((w - w mod US_SEC) / US_DAY) with (w / US_DAY) by (unfold US_DAY, US_SEC; lia).
  destruct (ord2ymd _) as [[y m] d]. cbn. unfold US_DAY, US_SEC. repeat split; lia.
Qed.
Lemma fmt_floor w : fmt_datetime w = fmt_datetime (w - w mod US_SEC).
Proof.
  unfold fmt_datetime, fmt_date, fmt_time. destruct (fields_floor w) as (-> & -> & -> & -> & -> & ->). reflexivity.
Qed.
Lemma year_floor w : year_of (w - w mod US_SEC) = year_of w.
Proof. apply fields_floor. Qed.
Lemma wall_floor w : wall_ok w = true -> wall_ok (w - w mod US_SEC) = true.
Proof. unfold wall_ok, WALL_END, MAXORDINAL, US_DAY, US_SEC. lia. Qed.
Lemma rt_truncates D w fo ps zs : wall_ok w = true -> 1000 <= year_of w -> no_tzid ps ->
  exists s, datetime_serialize D (mk_dt w fo None) ps zs = Ok (s, ps, zs) /\
    datetime_parse D s ps zs = Ok (mk_dt (w - w mod US_SEC) false None, ps, zs).
Proof.
  intros H Hy Hp. destruct (rt_naive D (w - w mod US_SEC) fo ps zs) as (s & E1 & E2).
  - now apply wall_floor.
  - unfold US_SEC. lia.
  - now rewrite year_floor.
  - easy.
  - exists s. split; [|easy]. rewrite <- E1. unfold datetime_serialize, serialize_dt. cbn [dtz wall]. now rewrite (fmt_floor w).
Qed.

Lemma dec_len_bounds n k : (n < 10 ^ N.of_nat k)%N -> (0 < k)%nat -> (length (dec n) <= k)%nat.
Proof.
  revert n. induction k as [|k IH]; intros n Hn Hk; [lia|]. rewrite dec_unfold.
  destruct (N.ltb_spec n 10) as [Hl|Hl]; [cbn; lia|]. rewrite app_length. cbn [length].
  rewrite Nat2N.inj_succ, N.pow_succ_r' in Hn.
  assert (length (dec (n / 10)) <= k)%nat; [|lia].
  destruct k as [|k]; [change (10 ^ N.of_nat 0)%N with 1%N in Hn; lia|].
  apply IH; [|lia]. apply N.div_lt_upper_bound; lia.
Qed.
Lemma z2_len n : 0 <= n <= 99 -> length (z2 n) = 2%nat.
Proof. intros H. now rewrite z2_d2. Qed.
Lemma fmt_datetime_len w : wall_ok w = true ->
  length (fmt_datetime w) = (length (dec (Z.to_N (f_y (fields_of w)))) + 11)%nat.
Proof.
  intros H. unfold fmt_datetime, fmt_date, fmt_time. pose proof (fields_bounds w H) as HB. cbv zeta in HB.
  rewrite !app_length, !z2_len by lia. cbn. lia.
Qed.
Lemma fmt_datetime_rejects_date D w m ps zs : wall_ok w = true -> no_tzid ps -> unmarked m = [] ->
  parse_dt D FDate (fmt_datetime w ++ m) ps zs = Err ValueError.
Proof.
  intros H Hp Hm. rewrite parse_dt_plain; [|pose proof (fmt_datetime_nonempty w); destruct (fmt_datetime w); easy|easy].
  rewrite unmarked_app, plain_unmarked by apply plain_datetime. rewrite Hm, app_nil_r.
  unfold strptime. rewrite fmt_datetime_len by easy.
  destruct (length (dec _)) as [|n]; [reflexivity|]. replace (Datatypes.S n + 11)%nat with (12 + n)%nat by lia. destruct n as [|[|[|[|?]]]]; reflexivity.
Qed.
Lemma ymdhm_T s w : strptime_ymdhm s = Some w -> is_T (nth 8 s 0%N) = true.
Proof.
  unfold strptime_ymdhm. destruct s as [|a [|b [|c [|d [|e [|f [|g [|h [|i [|j [|k [|l [|n [|? ?]]]]]]]]]]]]]]; try discriminate.
  cbn [nth]. destruct (is_T i); easy.
Qed.
Lemma rt_small_year D w fo ps zs : wall_ok w = true -> year_of w < 1000 -> no_tzid ps ->
  exists s, datetime_serialize D (mk_dt w fo None) ps zs = Ok (s, ps, zs) /\
    datetime_parse D s ps zs = Err ValueError.
Proof.
  intros H Hy Hp. exists (fmt_datetime w). split; [reflexivity|].
  unfold datetime_parse. rewrite parse_dt_plain by (try apply fmt_datetime_nonempty; easy).
  rewrite plain_unmarked by apply plain_datetime.
  assert (HL : (length (dec (Z.to_N (f_y (fields_of w)))) <= 3)%nat).
  { apply dec_len_bounds; [|lia]. change (10 ^ N.of_nat 3)%N with 1000%N. unfold year_of in Hy. lia. }
  pose proof (fields_bounds w H) as HB. cbv zeta in HB.
  pose proof (dec_nonempty (Z.to_N (f_y (fields_of w)))) as HN.
  unfold strptime. rewrite fmt_datetime_len by easy.
  unfold fmt_datetime, fmt_date, fmt_time. rewrite !z2_d2 by lia.
  destruct (dec (Z.to_N (f_y (fields_of w)))) as [|a [|b [|c [|? ?]]]]; cbn in HL; try lia; [easy|reflexivity| |reflexivity].
  cbn [length Nat.add].
  match goal with |- context [strptime_ymdhm ?s] => destruct (strptime_ymdhm s) eqn:ES end; [|reflexivity].
  apply ymdhm_T in ES. unfold d2 in ES. change (py "T") with [84%N] in ES. cbn [app nth] in ES.
  apply is_T_spec in ES. unfold is_t, digit in ES. lia.
Qed.

(** ** TIME *)
Definition time_ok (t : Z) : Prop := 0 <= t < US_DAY.
Lemma fields_time t : time_ok t -> t mod US_SEC = 0 ->
  let f := fields_of t in time_text (fmt_time f) (mk_fields 1900 1 1 (f_H f) (f_M f) (f_S f) 0) /\
    real_fields (mk_fields 1900 1 1 (f_H f) (f_M f) (f_S f) 0) /\
    wall_of (mk_fields 1900 1 1 (f_H f) (f_M f) (f_S f) 0) mod US_DAY = t.
Proof.
  intros H Hu. assert (Hw : wall_ok t = true) by (unfold wall_ok, WALL_END, MAXORDINAL, time_ok, US_DAY, US_SEC in *; lia).
  pose proof (fields_bounds t Hw) as HB. cbv zeta in *. rewrite fmt_time_text by easy. cbv zeta.
  split; [apply TT_hms; unfold below; lia|]. split.
  - split; [|split; [|reflexivity]]; cbn.
    + apply real_date_spec. reflexivity.
    + unfold real_time. lia.
  - unfold wall_of. cbn [f_y f_m f_d f_H f_M f_S f_us]. unfold mk_wall.
    change (ymd2ord 1900 1 1) with 693596.
    unfold fields_of. destruct (ord2ymd _) as [[y m] d]. cbn. unfold time_ok, US_DAY, US_SEC in *. lia.
Qed.
Lemma fmt_time_nonempty f : fmt_time f <> [].
Proof. unfold fmt_time, z2, pad. pose proof (dec_nonempty (Z.to_N (f_H f))). destruct (repeat _ _ ++ _) eqn:E; [|easy]. apply app_eq_nil in E as [_ E]. easy. Qed.
Lemma rt_time D t fo ps zs : time_ok t -> t mod US_SEC = 0 -> no_tzid ps ->
  exists s, time_serialize D (mk_dt t fo None) ps zs = Ok (s, ps, zs) /\
    time_parse D s ps zs = Ok (mk_dt t false None, ps, zs).
Proof.
  intros H Hu Hp. exists (fmt_time (fields_of t)). split; [reflexivity|]. unfold time_parse.
  rewrite parse_dt_plain by (try apply fmt_time_nonempty; easy).
  rewrite plain_unmarked, plain_last by apply plain_time.
  destruct (fields_time t H Hu) as (HT & HR & HW).
  assert (ES : strptime FTime (fmt_time (fields_of t)) =
    Ok (wall_of (mk_fields 1900 1 1 (f_H (fields_of t)) (f_M (fields_of t)) (f_S (fields_of t)) 0)))
    by (apply strptime_time; eauto).
  rewrite ES. cbn [bind wall fold dtz]. rewrite HW. reflexivity.
Qed.
Lemma time_no_mark D d ps zs s ps' zs' : time_serialize D d ps zs = Ok (s, ps', zs') -> ~ utc_mark s.
Proof.
  assert (HN : ~ utc_mark (fmt_time (fields_of (wall d)))).
  { intros HM. pose proof (plain_last _ (mk_zdb (fun _ => true) (fun _ => Ok None) (fun _ => Err ValueError) (fun _ => None) TzLocal) (plain_time (fields_of (wall d)))) as HL.
    rewrite utc_kind_mark in HL by easy. discriminate. }
  unfold time_serialize. destruct (dtz d) as [z|]; [|now intros [= <- _ _]].
  destruct (write_zone D z ps zs) as [[a b]|]; [|discriminate]. now intros [= <- _ _].
Qed.

(** ** PERIOD *)
Lemma partition_slash_app a b : Forall (fun c => c <> c_slash) a -> partition_slash (a ++ py "/" ++ b) = (a, Some b).
Proof.
  induction 1 as [|c a Hc Ha IH]; [reflexivity|]. cbn [app partition_slash].
  destruct (N.eqb_spec c c_slash); [easy|]. cbn [app] in IH. now rewrite IH.
Qed.
Lemma no_slash_datetime w m : Forall (fun c => c <> c_slash) m -> Forall (fun c => c <> c_slash) (fmt_datetime w ++ m).
Proof.
  intros Hm. apply Forall_app. split; [|easy]. eapply Forall_impl; [|apply plain_datetime].
  intros c H ->. discriminate.
Qed.
Lemma serialize_dt_text D d ps zs s ps' zs' : serialize_dt D d ps zs = Ok (s, ps', zs') ->
  exists m, s = fmt_datetime (wall d) ++ m /\ (m = [] \/ m = py "Z").
Proof.
  unfold serialize_dt. destruct (dtz d) as [z|].
  - destruct (z_is_utc D z).
    + intros [= <- _ _]. eexists. split; [reflexivity|now right].
    + destruct (write_zone _ _ _ _) as [[a b]|]; [|discriminate]. intros [= <- _ _]. exists [].
      split; [now rewrite app_nil_r|now left].
  - intros [= <- _ _]. exists []. split; [now rewrite app_nil_r|now left].
Qed.
Lemma parse_dt_bad_text D F v ps zs : v <> [] -> strptime F (unmarked v) = Err ValueError ->
  parse_dt D F v ps zs = Err ValueError.
Proof.
  intros Hv HS. unfold parse_dt. destruct (pop_tzid ps) as [t|e] eqn:EP.
  - cbn [bind]. destruct (rev v) as [|c r] eqn:ER; [apply (f_equal (@length N)) in ER; rewrite rev_length in ER; destruct v; easy|].
    rewrite strip_unmarked, HS. reflexivity.
  - cbn. unfold pop_tzid in EP. destruct (dict_get _ _) as [[|x [|? ?]]|]; try discriminate. now injection EP as <-.
Qed.
Lemma period_written_rejected D E t ps zs s ps' zs' qs ws :
  (forall b, ts_begin t = Some b -> wall_ok (wall b) = true) ->
  period_serialize D E t ps zs = Ok (s, ps', zs') -> period_parse D E s qs ws = Err ValueError.
Proof.
  intros Hw HS.
  assert (HX : exists b m r, ts_begin t = Some b /\ s = (fmt_datetime (wall b) ++ m) ++ py "/" ++ r /\ (m = [] \/ m = py "Z")).
  { unfold period_serialize in HS. destruct (ts_begin t) as [b|]; [|discriminate]. exists b.
    destruct (end_representation t) as [[|]|].
    - destruct (eff_duration E t) as [d|]; [|discriminate]. cbn in HS.
      destruct (serialize_dt D b ps zs) as [[[s1 p1] z1]|] eqn:E1; [|discriminate]. cbn in HS.
      destruct d; [|discriminate]. apply serialize_dt_text in E1 as (m & -> & Hm). injection HS as <- _ _.
      exists m. eexists. split; [easy|]. split; [|easy]. reflexivity.
    - destruct (eff_end E t) as [[e|]|]; cbn in HS; try discriminate.
      destruct (serialize_dt D b ps zs) as [[[s1 p1] z1]|] eqn:E1; [|discriminate]. cbn in HS.
      destruct (serialize_dt D e ps z1) as [[[s2 p2] z2]|] eqn:E2; [|discriminate]. cbn in HS.
      destruct (params_eqb p2 p1); [|discriminate]. apply serialize_dt_text in E1 as (m & -> & Hm).
      injection HS as <- _ _. exists m. eexists. split; [easy|]. split; [|easy]. reflexivity.
    - destruct (eff_end E t) as [[e|]|]; cbn in HS; try discriminate.
      destruct (serialize_dt D b ps zs) as [[[s1 p1] z1]|] eqn:E1; [|discriminate]. cbn in HS.
      destruct (serialize_dt D e ps z1) as [[[s2 p2] z2]|] eqn:E2; [|discriminate]. cbn in HS.
      destruct (params_eqb p2 p1); [|discriminate]. apply serialize_dt_text in E1 as (m & -> & Hm).
      injection HS as <- _ _. exists m. eexists. split; [easy|]. split; [|easy]. reflexivity. }
  destruct HX as (b & m & r & Hb & -> & Hm). specialize (Hw b Hb).
  assert (HP : parse_dt D FDate (fmt_datetime (wall b) ++ m) qs ws = Err ValueError).
  { apply parse_dt_bad_text.
    - pose proof (fmt_datetime_nonempty (wall b)). destruct (fmt_datetime (wall b)); easy.
    - rewrite unmarked_app, plain_unmarked by apply plain_datetime.
      replace (unmarked m) with (@nil N) by (destruct Hm as [-> | ->]; reflexivity). rewrite app_nil_r.
      unfold strptime. rewrite fmt_datetime_len by easy.
      destruct (length (dec _)) as [|n]; [reflexivity|]. replace (Datatypes.S n + 11)%nat with (12 + n)%nat by lia. destruct n as [|[|[|[|?]]]]; reflexivity. }
  unfold period_parse. rewrite partition_slash_app.
  - destruct r as [|c r]; [now rewrite HP|].
    destruct c as [|p]; [now rewrite HP|]. do 7 (destruct p as [p|p|]; try (now rewrite HP)).
  - apply no_slash_datetime. destruct Hm as [-> | ->]; repeat constructor. discriminate.
Qed.

(** ** Statements used by C_Dt *)
Lemma fields_wall_real f : real_fields f -> fields_of (wall_of f) = f /\ wall_ok (wall_of f) = true.
Proof.
  intros (HD & HT & Hu). assert (HV : fields_valid f).
  { split; [now apply real_date_spec|]. apply valid_time_spec. rewrite Hu. unfold real_time in HT. lia. }
  split; [now apply fields_of_wall|now apply wall_of_ok].
Qed.
Lemma parse_exact D F v ps zs : v <> [] -> dict_get (py "TZID") ps = None ->
  match parse_dt D F v ps zs with
  | Ok (d, ps', zs') =>
      text_of F (unmarked v) (fields_of (wall d)) /\ real_fields (fields_of (wall d)) /\
      wall_ok (wall d) = true /\ fold d = false /\ ps' = ps /\ zs' = zs /\
      (utc_mark v -> dtz d = Some (z_utc D)) /\ (~ utc_mark v -> dtz d = None)
  | Err e => e = ValueError /\ ~ exists f, text_of F (unmarked v) f /\ real_fields f
  end.
Proof.
  intros Hv Hp. rewrite parse_dt_plain by easy. destruct (strptime F (unmarked v)) as [w|e] eqn:ES.
  - apply strptime_spec in ES as (f & Ht & HR & ->). destruct (fields_wall_real f HR) as [HE HO].
    cbn [wall fold dtz]. rewrite HE. do 4 (split; [easy|]). split; [easy|]. split; [easy|]. split.
    + apply utc_kind_mark.
    + now apply utc_kind_nomark.
  - split; [now apply strptime_err in ES|]. intros (f & Ht & HR).
    assert (HX : strptime F (unmarked v) = Ok (wall_of f)) by (apply strptime_spec; eauto). congruence.
Qed.
Lemma date_parse_exact D v ps zs : v <> [] -> dict_get (py "TZID") ps = None ->
  match date_parse D v ps zs with
  | Ok (w, ps', zs') =>
      date_text (unmarked v) (fields_of w) /\ real_fields (fields_of w) /\ wall_ok w = true /\ ps' = ps /\ zs' = zs
  | Err e => e = ValueError /\ ~ exists f, date_text (unmarked v) f /\ real_fields f
  end.
Proof.
  intros Hv Hp. pose proof (parse_exact D FDate v ps zs Hv Hp) as HX. unfold date_parse.
  destruct (parse_dt D FDate v ps zs) as [[[d ps'] zs']|e]; [|exact HX]. cbn [bind].
  destruct HX as (Ht & HR & HO & _ & -> & -> & _).
  assert (HM : wall d mod US_DAY = 0).
  { rewrite <- (wall_of_fields (wall d)). destruct Ht; unfold wall_of; cbn [f_y f_m f_d f_H f_M f_S f_us]; unfold mk_wall, US_DAY, US_SEC; lia. }
  rewrite HM, Z.sub_0_r. easy.
Qed.
Lemma parse_sound D F v ps zs d ps' zs' : parse_dt D F v ps zs = Ok (d, ps', zs') ->
  text_of F (unmarked v) (fields_of (wall d)) /\ real_fields (fields_of (wall d)) /\ wall_ok (wall d) = true.
Proof.
  intros H. apply parse_dt_ok in H as (f & Ht & HR & -> & _). destruct (fields_wall_real f HR) as [-> HO]. easy.
Qed.
Lemma calendar_days w : wall_ok w = true ->
  let f := fields_of w in
  real_date (f_y f) (f_m f) (f_d f) /\ day_number (f_y f, f_m f, f_d f) (w / US_DAY + 1) /\
  w mod US_DAY = ((f_H f * 60 + f_M f) * 60 + f_S f) * 1000000 + f_us f /\
  0 <= f_H f <= 23 /\ 0 <= f_M f <= 59 /\ 0 <= f_S f <= 59 /\ 0 <= f_us f <= 999999.
Proof.
  intros H. cbv zeta. pose proof (fields_of_valid w H) as [HD HT]. apply valid_time_spec in HT.
  apply real_date_spec in HD. split; [easy|]. split; [|split; [|lia]].
  - unfold fields_of. pose proof (ord2ymd_day_number (w / US_DAY + 1)) as HN.
    destruct (ord2ymd _) as [[y m] d]. apply HN. unfold wall_ok, US_DAY, US_SEC in *. lia.
  - unfold fields_of. destruct (ord2ymd _) as [[y m] d]. cbn. unfold US_DAY, US_SEC. lia.
Qed.
Lemma day_number_unique a n m : day_number a n -> day_number a m -> n = m.
Proof. intros H1 H2. apply day_number_ord in H1, H2. destruct a as [[y mo] d]. lia. Qed.
Lemma no_context D t z : z_from_tzid D t = Ok z -> t <> [] ->
  datetime_parse D (py "20200101T000000") [(py "TZID", [t])] None = Err AttributeError.
Proof.
  intros H Ht. unfold datetime_parse, parse_dt.
  replace (pop_tzid [(py "TZID", [t])]) with (Ok (Some t)) by (destruct t; [easy|reflexivity]). cbn [bind].
  change (rev (py "20200101T000000")) with (48%N :: rev (py "20200101T00000")).
  replace (strptime FDatetime (strip_marks (py "20200101T000000"))) with (Ok (mk_wall 2020 1 1 0 0 0 0)) by (vm_compute; reflexivity).
  cbn -[mk_wall]. unfold read_zone, find_zone. rewrite H. reflexivity.
Qed.
