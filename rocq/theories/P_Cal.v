(** * Calendar proofs: day numbers and dates are in bijection *)
From Verif Require Import M_Base P_Base M_Codec M_Cal.
From Coq Require Import Lia ZifyBool ZifyNat ZifyN.
Ltac Zify.zify_post_hook ::= Z.div_mod_to_equations.
Open Scope Z_scope.

Lemma valid_date_spec y m d : valid_date y m d = true <->
  1 <= y <= 9999 /\ 1 <= m <= 12 /\ 1 <= d <= days_in_month y m.
Proof. unfold valid_date. lia. Qed.
Lemma valid_time_spec H M S us : valid_time H M S us = true <->
  0 <= H <= 23 /\ 0 <= M <= 59 /\ 0 <= S <= 59 /\ 0 <= us <= 999999.
Proof. unfold valid_time. lia. Qed.

(** 400-year periodicity. *)
Lemma is_leap_shift y q : is_leap (y + 400 * q) = is_leap y.
Proof.
  unfold is_leap.
  replace ((y + 400 * q) mod 4) with (y mod 4) by (rewrite <- (Z_mod_plus_full y (100 * q) 4); f_equal; ring).
  replace ((y + 400 * q) mod 100) with (y mod 100) by (rewrite <- (Z_mod_plus_full y (4 * q) 100); f_equal; ring).
  replace ((y + 400 * q) mod 400) with (y mod 400) by (rewrite <- (Z_mod_plus_full y q 400); f_equal; ring).
  reflexivity.
Qed.
Lemma ymd2ord_shift y m d q : ymd2ord (y + 400 * q) m d = ymd2ord y m d + 146097 * q.
Proof.
  unfold ymd2ord, days_before_month. rewrite is_leap_shift.
  assert (days_before_year (y + 400 * q) = days_before_year y + 146097 * q); [|lia].
  unfold days_before_year.
  replace (y + 400 * q - 1) with (y - 1 + 400 * q) by ring.
  set (x := y - 1).
  replace ((x + 400 * q) / 4) with (x / 4 + 100 * q).
  2:{ rewrite <- (Z_div_plus_full x (100 * q) 4) by lia. f_equal. ring. }
  replace ((x + 400 * q) / 100) with (x / 100 + 4 * q).
  2:{ rewrite <- (Z_div_plus_full x (4 * q) 100) by lia. f_equal. ring. }
  replace ((x + 400 * q) / 400) with (x / 400 + q).
  2:{ rewrite <- (Z_div_plus_full x q 400) by lia. f_equal. ring. }
  ring.
Qed.
Lemma days_in_month_shift y m q : days_in_month (y + 400 * q) m = days_in_month y m.
Proof. unfold days_in_month. now rewrite is_leap_shift. Qed.
Lemma ord2ymd_shift n q : ord2ymd (n + 146097 * q) =
  let '(y, m, d) := ord2ymd n in (y + 400 * q, m, d).
Proof.
  unfold ord2ymd.
  replace ((n + 146097 * q - 1) / 146097) with ((n - 1) / 146097 + q).
  2:{ rewrite <- (Z_div_plus_full (n - 1) q 146097) by lia. f_equal. ring. }
  replace ((n + 146097 * q - 1) mod 146097) with ((n - 1) mod 146097).
  2:{ rewrite <- (Z_mod_plus_full (n - 1) q 146097) by lia. f_equal. ring. }
  set (a := (n - 1) / 146097). set (b := (n - 1) mod 146097). cbv zeta.
  destruct (_ || _) eqn:?; [f_equal; f_equal; ring|].
  destruct (_ <? _) eqn:?; f_equal; f_equal; ring.
Qed.

(** One cycle. *)
Definition zrange (a : Z) (n : nat) : list Z := map (fun k => a + Z.of_nat k) (seq 0 n).
Lemma zrange_in a n x : a <= x < a + Z.of_nat n -> In x (zrange a n).
Proof.
  intros H. apply in_map_iff. exists (Z.to_nat (x - a)). split; [lia|]. apply in_seq. lia.
Qed.

Fixpoint all_from (f : Z -> bool) (start : Z) (n : positive) : bool :=
  match n with
  | xH => f start
  | xO p => all_from f start p && all_from f (start + Zpos p) p
  | xI p => f start && all_from f (start + 1) p && all_from f (start + 1 + Zpos p) p
  end.
Lemma all_from_spec f n : forall start, all_from f start n = true ->
  forall x, start <= x < start + Zpos n -> f x = true.
Proof.
  induction n as [p IH|p IH|]; intros start H x Hx; cbn [all_from] in H.
  - apply andb_true_iff in H as [H H3]. apply andb_true_iff in H as [H1 H2].
    destruct (Z.eq_dec x start) as [->|]; [easy|].
    destruct (Z_lt_dec x (start + 1 + Zpos p)); [apply (IH _ H2); lia|apply (IH _ H3); lia].
  - apply andb_true_iff in H as [H1 H2].
    destruct (Z_lt_dec x (start + Zpos p)); [apply (IH _ H1); lia|apply (IH _ H2); lia].
  - replace x with start by lia. exact H.
Qed.
(** Month and day from the day of the year: all 2 x 366 cases. *)
Definition month_of (leap : bool) (n : Z) : Z * Z :=
  let month := (n + 50) / 32 in
  let preceding := month_start month + (if (2 <? month) && leap then 1 else 0) in
  let '(month, preceding) :=
    if n <? preceding then
      (month - 1, preceding - (month_days (month - 1) + (if (month - 1 =? 2) && leap then 1 else 0)))
    else (month, preceding) in
  (month, n - preceding + 1).
Definition check_month (leap : bool) (n : Z) : bool :=
  let '(m, d) := month_of leap n in
  (1 <=? m) && (m <=? 12) && (1 <=? d) && (d <=? (if (m =? 2) && leap then 29 else month_days m))
  && (month_start m + (if (2 <? m) && leap then 1 else 0) + d =? n + 1).
Lemma check_month_all : all_from (check_month false) 0 365 && all_from (check_month true) 0 366 = true.
Proof. vm_compute. reflexivity. Qed.
Lemma month_of_spec (leap : bool) n : 0 <= n < (if leap then 366 else 365) ->
  let '(m, d) := month_of leap n in
  1 <= m <= 12 /\ 1 <= d <= (if (m =? 2) && leap then 29 else month_days m) /\
  month_start m + (if (2 <? m) && leap then 1 else 0) + d = n + 1.
Proof.
  intros H. pose proof check_month_all as HA. apply andb_true_iff in HA as [HF HT].
  assert (HC : check_month leap n = true).
  { destruct leap; [apply (all_from_spec _ _ _ HT)|apply (all_from_spec _ _ _ HF)]; lia. }
  unfold check_month in HC. destruct (month_of leap n) as [m d]. lia.
Qed.

Lemma ord2ymd_cycle n : 1 <= n <= 146097 ->
  let '(y, m, d) := ord2ymd n in
  1 <= y <= 400 /\ 1 <= m <= 12 /\ 1 <= d <= days_in_month y m /\ ymd2ord y m d = n.
Proof.
  intros H. destruct (Z.eq_dec n 146097) as [->|Hn]; [vm_compute; repeat split; congruence|].
  unfold ord2ymd. replace ((n - 1) / 146097) with 0 by lia. replace ((n - 1) mod 146097) with (n - 1) by lia.
  set (n100 := (n - 1) / 36524). set (a := (n - 1) mod 36524).
  set (n4 := a / 1461). set (b := a mod 1461). set (n1 := b / 365). set (r := b mod 365). cbv zeta.
  assert (H100 : 0 <= n100 <= 3) by (unfold n100; lia).
  assert (Ha : 0 <= a < 36524) by (unfold a; lia).
  assert (EA : n - 1 = 36524 * n100 + a) by (unfold n100, a; lia).
  assert (H4 : 0 <= n4 <= 24) by (unfold n4; lia).
  assert (Hb : 0 <= b < 1461) by (unfold b; lia).
  assert (EB : a = 1461 * n4 + b) by (unfold n4, b; lia).
  assert (H1 : 0 <= n1 <= 4) by (unfold n1; lia).
  assert (Hr : 0 <= r < 365) by (unfold r; lia).
  assert (EC : b = 365 * n1 + r) by (unfold n1, r; lia).
  clearbody n100 a n4 b n1 r.
  replace (n100 =? 4) with false by lia. rewrite orb_false_r.
  destruct (Z.eqb_spec n1 4) as [->|H14].
  - (* last day of a leap year *)
    set (y := 0 * 400 + 1 + n100 * 100 + n4 * 4 + 4 - 1).
    assert (Ey : y = 100 * n100 + 4 * n4 + 4) by (unfold y; ring). clearbody y.
    assert (HL : is_leap y = true).
    { unfold is_leap. assert (n4 < 24) by lia. lia. }
    split; [lia|]. split; [lia|]. split; [unfold days_in_month; cbn; lia|].
    unfold ymd2ord, days_before_month. rewrite HL. change (month_start 12) with 334. cbn [andb Z.ltb Z.compare Pos.compare Pos.compare_cont].
    unfold days_before_year. lia.
  - set (y := 0 * 400 + 1 + n100 * 100 + n4 * 4 + n1).
    assert (Ey : y = 100 * n100 + 4 * n4 + n1 + 1) by (unfold y; ring). clearbody y.
    set (lp := (n1 =? 3) && (negb (n4 =? 24) || (n100 =? 3))).
    assert (HL : is_leap y = lp) by (unfold is_leap, lp; lia).
    pose proof (month_of_spec lp r) as HM. unfold month_of in HM. cbv zeta in HM.
    assert (HD : days_before_year y = 36524 * n100 + 1461 * n4 + 365 * n1) by (unfold days_before_year; lia).
    specialize (HM ltac:(destruct lp; lia)).
    destruct (r <? month_start ((r + 50) / 32) + (if (2 <? (r + 50) / 32) && lp then 1 else 0)).
    all: destruct HM as (M1 & M2 & M3); split; [lia|]; split; [exact M1|];
      split; [unfold days_in_month; rewrite HL; exact M2|];
      unfold ymd2ord, days_before_month; rewrite HL, HD; lia.
Qed.

Lemma ord2ymd_spec n :
  let '(y, m, d) := ord2ymd n in
  1 <= m <= 12 /\ 1 <= d <= days_in_month y m /\ ymd2ord y m d = n /\
  400 * ((n - 1) / 146097) + 1 <= y <= 400 * ((n - 1) / 146097) + 400.
Proof.
  set (q := (n - 1) / 146097). set (r := (n - 1) mod 146097 + 1).
  assert (E : n = r + 146097 * q) by (unfold q, r; lia).
  assert (Hr : 1 <= r <= 146097) by (unfold r; lia). clearbody q r. subst n.
  rewrite ord2ymd_shift. pose proof (ord2ymd_cycle r Hr) as HC.
  destruct (ord2ymd r) as [[y m] d]. rewrite days_in_month_shift, ymd2ord_shift. lia.
Qed.

(** Dates are ordered like their day numbers, hence the map is injective. *)
Lemma days_in_month_pos y m : 28 <= days_in_month y m <= 31.
Proof.
  unfold days_in_month. destruct (_ && _); [lia|]. unfold month_days.
  destruct m as [|p|p]; try lia. do 4 (destruct p as [p|p|]; try lia).
Qed.

Lemma month_step y m : 1 <= m < 12 -> days_before_month y (m + 1) = days_before_month y m + days_in_month y m.
Proof.
  intros H. assert (Hm : In m (zrange 1 11)) by (apply zrange_in; lia).
  unfold days_before_month, days_in_month. cbn in Hm.
  destruct (is_leap y); repeat (destruct Hm as [<-|Hm]; [reflexivity|]); easy.
Qed.
Lemma month_mono y m m' : 1 <= m -> m < m' -> m' <= 12 ->
  days_before_month y m + days_in_month y m <= days_before_month y m'.
Proof.
  intros H1 H2 H3. replace m' with (m + 1 + (m' - m - 1)) by ring.
  assert (Hk : 0 <= m' - m - 1) by lia. assert (Hb : m + 1 + (m' - m - 1) <= 12) by lia.
  revert Hk Hb. generalize (m' - m - 1). apply (natlike_ind (fun k => m + 1 + k <= 12 ->
    days_before_month y m + days_in_month y m <= days_before_month y (m + 1 + k))).
  - intros _. rewrite Z.add_0_r, month_step by lia. lia.
  - intros k Hk IH Hb. replace (m + 1 + Z.succ k) with (m + 1 + k + 1) by ring.
    rewrite month_step by lia. pose proof (days_in_month_pos y (m + 1 + k)). lia.
Qed.
Lemma year_step y : days_before_year (y + 1) = days_before_year y + (if is_leap y then 366 else 365).
Proof.
  unfold days_before_year, is_leap. replace (y + 1 - 1) with y by ring.
  destruct (Z.eqb_spec (y mod 4) 0), (Z.eqb_spec (y mod 100) 0), (Z.eqb_spec (y mod 400) 0); cbn [andb orb negb]; lia.
Qed.
Lemma year_end y : days_before_month y 12 + 31 = if is_leap y then 366 else 365.
Proof. unfold days_before_month. destruct (is_leap y); reflexivity. Qed.
Lemma date_in_year y m d : 1 <= m <= 12 -> 1 <= d <= days_in_month y m ->
  1 <= days_before_month y m + d <= (if is_leap y then 366 else 365).
Proof.
  intros Hm Hd. pose proof (year_end y).
  assert (0 <= days_before_month y m).
  { destruct (Z.eq_dec m 1) as [->|]; [unfold days_before_month; cbn; lia|].
    pose proof (month_mono y 1 m ltac:(lia) ltac:(lia) ltac:(lia)). unfold days_before_month at 1 in H0. cbn in H0.
    pose proof (days_in_month_pos y 1). lia. }
  destruct (Z.eq_dec m 12) as [->|].
  - assert (days_in_month y 12 = 31) by (unfold days_in_month; reflexivity). lia.
  - pose proof (month_mono y m 12 ltac:(lia) ltac:(lia) ltac:(lia)). lia.
Qed.

Lemma year_mono y y' : y < y' -> days_before_year y + (if is_leap y then 366 else 365) <= days_before_year y'.
Proof.
  intros H. replace y' with (y + 1 + (y' - y - 1)) by ring.
  assert (Hk : 0 <= y' - y - 1) by lia. revert Hk. generalize (y' - y - 1).
  apply (natlike_ind (fun k => days_before_year y + (if is_leap y then 366 else 365) <= days_before_year (y + 1 + k))).
  - rewrite Z.add_0_r, year_step. lia.
  - intros k Hk IH. replace (y + 1 + Z.succ k) with (y + 1 + k + 1) by ring. rewrite year_step.
    destruct (is_leap (y + 1 + k)); lia.
Qed.

Definition date_lt (a b : Z * Z * Z) : Prop :=
  let '(y, m, d) := a in let '(y', m', d') := b in
  y < y' \/ y = y' /\ (m < m' \/ m = m' /\ d < d').

Lemma ymd2ord_mono y m d y' m' d' :
  1 <= m <= 12 -> 1 <= d <= days_in_month y m -> 1 <= m' <= 12 -> 1 <= d' <= days_in_month y' m' ->
  date_lt (y, m, d) (y', m', d') -> ymd2ord y m d < ymd2ord y' m' d'.
Proof.
  intros Hm Hd Hm' Hd' H. unfold ymd2ord.
  pose proof (date_in_year y m d Hm Hd). pose proof (date_in_year y' m' d' Hm' Hd').
  cbn in H. destruct H as [H|[-> [H|[-> H]]]].
  - pose proof (year_mono y y' H). lia.
  - pose proof (month_mono y' m m' ltac:(lia) H ltac:(lia)). lia.
  - lia.
Qed.
Lemma date_trichotomy a b : date_lt a b \/ a = b \/ date_lt b a.
Proof.
  destruct a as [[y m] d], b as [[y' m'] d']. cbn.
  destruct (Z.lt_trichotomy y y') as [|[->|]]; [tauto| |tauto].
  destruct (Z.lt_trichotomy m m') as [|[->|]]; [tauto| |tauto].
  destruct (Z.lt_trichotomy d d') as [|[->|]]; tauto.
Qed.

Lemma ord2ymd_ymd2ord y m d : 1 <= m <= 12 -> 1 <= d <= days_in_month y m ->
  ord2ymd (ymd2ord y m d) = (y, m, d).
Proof.
  intros Hm Hd. pose proof (ord2ymd_spec (ymd2ord y m d)) as HS.
  destruct (ord2ymd (ymd2ord y m d)) as [[y' m'] d']. destruct HS as (Hm' & Hd' & E & _).
  destruct (date_trichotomy (y', m', d') (y, m, d)) as [H|[H|H]]; [|easy|].
  - apply ymd2ord_mono in H; auto. lia.
  - apply ymd2ord_mono in H; auto. lia.
Qed.

Lemma ymd2ord_range y m d : valid_date y m d = true -> 1 <= ymd2ord y m d <= MAXORDINAL.
Proof.
  intros H. apply valid_date_spec in H as (Hy & Hm & Hd).
  pose proof (date_in_year y m d Hm Hd). unfold ymd2ord.
  assert (days_before_year 1 = 0) by reflexivity. assert (days_before_year 10000 = MAXORDINAL) by reflexivity.
  assert (0 <= days_before_year y).
  { destruct (Z.eq_dec y 1) as [->|]; [lia|]. pose proof (year_mono 1 y ltac:(lia)) as HY. destruct (is_leap 1); lia. }
  assert (days_before_year y + (if is_leap y then 366 else 365) <= MAXORDINAL).
  { rewrite <- H1. apply year_mono. lia. }
  lia.
Qed.

Lemma ord2ymd_valid n : 1 <= n <= MAXORDINAL ->
  let '(y, m, d) := ord2ymd n in valid_date y m d = true /\ ymd2ord y m d = n.
Proof.
  intros H. pose proof (ord2ymd_spec n) as HS. destruct (ord2ymd n) as [[y m] d].
  destruct HS as (Hm & Hd & E & _). split; [|easy]. apply valid_date_spec. split; [|easy].
  assert (days_before_year 1 = 0) by reflexivity. assert (days_before_year 10000 = MAXORDINAL) by reflexivity.
  pose proof (date_in_year y m d Hm Hd). unfold ymd2ord in E.
  split.
  - destruct (Z_lt_dec y 1) as [Hy|]; [|lia]. exfalso. pose proof (year_mono y 1 ltac:(lia)). lia.
  - destruct (Z_lt_dec 9999 y) as [Hy|]; [|lia]. exfalso.
    destruct (Z.eq_dec y 10000) as [->|]; [lia|]. pose proof (year_mono 10000 y ltac:(lia)).
    destruct (is_leap 10000); lia.
Qed.

(** Wall clock readings and fields. *)
Definition fields_valid (f : fields) : Prop :=
  valid_date (f_y f) (f_m f) (f_d f) = true /\ valid_time (f_H f) (f_M f) (f_S f) (f_us f) = true.
Definition wall_of (f : fields) : Z := mk_wall (f_y f) (f_m f) (f_d f) (f_H f) (f_M f) (f_S f) (f_us f).

Lemma fields_of_wall f : fields_valid f -> fields_of (wall_of f) = f.
Proof.
  destruct f as [y m d H M S us]. unfold fields_valid, wall_of. cbn. intros [HD HT].
  assert (HR := ymd2ord_range y m d HD).
  apply valid_time_spec in HT. apply valid_date_spec in HD as (_ & Hm & Hd).
  unfold fields_of, mk_wall.
  set (o := ymd2ord y m d) in *. set (t := ((H * 60 + M) * 60 + S) * US_SEC + us).
  assert (Ht : 0 <= t < US_DAY) by (unfold t, US_DAY, US_SEC; lia).
  replace ((o - 1) * US_DAY + ((H * 60 + M) * 60 + S) * US_SEC + us) with (t + (o - 1) * US_DAY) by (unfold t; ring).
  rewrite Z_div_plus_full, Z_mod_plus_full by (unfold US_DAY, US_SEC; lia).
  rewrite (Z.div_small t), (Z.mod_small t) by lia.
  replace (0 + (o - 1) + 1) with o by ring. unfold o. rewrite ord2ymd_ymd2ord by easy.
  unfold t, US_SEC in *. f_equal; lia.
Qed.

Lemma wall_of_fields w : wall_of (fields_of w) = w.
Proof.
  unfold wall_of, fields_of. pose proof (ord2ymd_spec (w / US_DAY + 1)) as HS.
  destruct (ord2ymd (w / US_DAY + 1)) as [[y m] d]. destruct HS as (_ & _ & E & _).
  cbn. unfold mk_wall. rewrite E. unfold US_DAY, US_SEC. lia.
Qed.
Lemma fields_of_valid w : wall_ok w = true -> fields_valid (fields_of w).
Proof.
  intros H. unfold wall_ok, WALL_END in H. unfold fields_of, fields_valid.
  assert (Hn : 1 <= w / US_DAY + 1 <= MAXORDINAL) by (unfold US_DAY, US_SEC, MAXORDINAL in *; lia).
  pose proof (ord2ymd_valid _ Hn) as HV. destruct (ord2ymd (w / US_DAY + 1)) as [[y m] d].
  cbn. split; [tauto|]. apply valid_time_spec. unfold US_DAY, US_SEC in *. lia.
Qed.
Lemma wall_of_ok f : fields_valid f -> wall_ok (wall_of f) = true.
Proof.
  destruct f as [y m d H M S us]. unfold fields_valid, wall_of. cbn. intros [HD HT].
  apply ymd2ord_range in HD. apply valid_time_spec in HT. unfold wall_ok, WALL_END, mk_wall, MAXORDINAL, US_DAY, US_SEC in *. lia.
Qed.
