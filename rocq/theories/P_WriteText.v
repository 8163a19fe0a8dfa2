(** * Proofs: the texts that are written *)
From Verif Require Import M_Base M_Text M_Line M_Codec M_Cal M_Time M_Span M_Dt M_Tree M_Comp.
From Verif Require Import S_Codec S_Dt S_Read S_Order S_Write P_Base P_Codec P_Cal P_Dt.
From Coq Require Import Lia ZifyBool ZifyNat ZifyN.
Open Scope N_scope.

(** ** Texts *)
Lemma escape_step c s : translate escape_text_char (c :: s) =
  (if c =? 92 then [92; 92] else if c =? 59 then [92; 59] else if c =? 44 then [92; 44] else if c =? 10 then [92; 110] else if c =? 13 then [92; 114] else [c]) ++ translate escape_text_char s.
Proof. reflexivity. Qed.
Lemma escaped_text s w : escaped s w -> w = text_serialize s.
Proof.
  unfold text_serialize, escape_text.
  induction 1 as [|c s w Hc H ->|c s w Hc H ->|s w H ->|s w H ->]; try reflexivity.
  - rewrite escape_step.
    cbn in Hc. destruct (N.eqb_spec c 92), (N.eqb_spec c 59), (N.eqb_spec c 44), (N.eqb_spec c 10), (N.eqb_spec c 13); try (exfalso; apply Hc; subst; tauto). reflexivity.
  - cbn in Hc. destruct Hc as [<- |[<- |[<- |[]]]]; reflexivity.
Qed.
Lemma escaped_total s : escaped s (text_serialize s).
Proof.
  unfold text_serialize, escape_text. induction s as [|c s IH]; [constructor|]. rewrite escape_step.
  destruct (N.eqb_spec c 92) as [-> |]; [apply (ES_mark 92); [cbn; tauto|exact IH]|].
  destruct (N.eqb_spec c 59) as [-> |]; [apply (ES_mark 59); [cbn; tauto|exact IH]|].
  destruct (N.eqb_spec c 44) as [-> |]; [apply (ES_mark 44); [cbn; tauto|exact IH]|].
  destruct (N.eqb_spec c 10) as [-> |]; [apply ES_lf; exact IH|].
  destruct (N.eqb_spec c 13) as [-> |]; [apply ES_cr; exact IH|].
  apply ES_plain; [|exact IH]. cbn. intros [<- |[<- |[<- |[<- |[<- |[]]]]]]; tauto.
Qed.

Lemma no_zero_dec s : s <> [] -> forallb is_digit s = true -> (forall t, s = 48 :: t -> t = []) -> s = dec (undec s).
Proof.
  induction s as [|c s IH] using rev_ind; [easy|]. intros _ D Z. rewrite forallb_app in D. apply andb_true_iff in D as [D1 D2].
  cbn in D2. unfold is_digit in D2. rewrite undec_snoc. destruct s as [|b s].
  - cbn [undec fold_left app]. rewrite dec_unfold. change (undec []) with 0. destruct (N.ltb_spec (0 * 10 + (c - 48)) 10); [|lia]. f_equal. lia.
  - assert (P : 0 < undec (b :: s)).
    { destruct (N.eq_dec (undec (b :: s)) 0) as [U|]; [|lia]. rewrite IH in Z; [|easy|exact D1|].
      - rewrite U in Z. specialize (Z [c]). cbn in Z. discriminate Z. reflexivity.
      - intros t E. injection E as -> ->. specialize (Z (t ++ [c]) eq_refl). now apply app_eq_nil in Z. }
    rewrite dec_unfold. destruct (N.ltb_spec (undec (b :: s) * 10 + (c - 48)) 10); [lia|].
    replace ((undec (b :: s) * 10 + (c - 48)) / 10) with (undec (b :: s)) by lia.
    replace ((undec (b :: s) * 10 + (c - 48)) mod 10) with (c - 48) by lia. rewrite <- IH; [|easy|exact D1|].
    + f_equal. f_equal. lia.
    + intros t E. injection E as -> ->. specialize (Z (t ++ [c]) eq_refl). now apply app_eq_nil in Z.
Qed.
Lemma dec_no_zero n t : dec n = 48 :: t -> t = [].
Proof.
  revert t. induction n as [n H|n H IH] using N_ind10; intros t; rewrite dec_unfold; destruct (N.ltb_spec n 10); try lia.
  - intro E. now injection E as _ <-.
  - intro E. destruct (dec (n / 10)) as [|b l] eqn:B; [now apply dec_nonempty in B|]. cbn [app] in E. injection E as -> <-.
    specialize (IH l eq_refl). subst l. assert (U : undec (dec (n / 10)) = 0) by now rewrite B. rewrite undec_dec in U. lia.
Qed.
Lemma decimal_zdec n s : decimal n s -> s = zdec n /\ (0 <= n)%Z.
Proof.
  intros [H Z]. apply number_digits in H as (H1 & H2 & ->). split; [|lia]. unfold zdec. rewrite N2Z.id. now apply no_zero_dec.
Qed.
Lemma decimal_total n : (0 <= n)%Z -> decimal n (zdec n).
Proof. intro H. split; [now apply zdec_number|]. intros t E. now apply dec_no_zero in E. Qed.
Lemma integer_text n s : integer n s -> s = int_serialize n.
Proof.
  unfold int_serialize. destruct 1 as [n s H|n s P H]; apply decimal_zdec in H as [-> H].
  - now destruct (Z.ltb_spec n 0); [lia|].
  - destruct (Z.ltb_spec (- n) 0); [|lia]. now rewrite Z.opp_involutive.
Qed.
Lemma integer_total n : exists s, integer n s.
Proof.
  destruct (Z.leb_spec 0 n); [exists (zdec n); constructor; now apply decimal_total|].
  exists (py "-" ++ zdec (- n)). rewrite <- (Z.opp_involutive n) at 1. constructor; [lia|]. apply decimal_total. lia.
Qed.

Open Scope Z_scope.
Lemma round_unique a b m : 0 < b -> (2 * Z.abs (a - m * b) < b \/ 2 * Z.abs (a - m * b) = b /\ Z.even m = true) -> m = round_half_even a b.
Proof.
  intros B H. unfold round_half_even. pose proof (Z.div_mod a b ltac:(lia)) as DM. pose proof (Z.mod_pos_bound a b B) as MB.
  set (q := a / b) in *. set (r := a mod b) in *. 
  assert (Q : m = q \/ m = q + 1).
  { assert (a - m * b = (q - m) * b + r) by lia. assert (- b < 2 * ((q - m) * b + r) < b \/ 2 * ((q-m) * b + r) = b \/ 2 * ((q-m)*b+r) = - b) by lia. nia. }
  destruct (Z.ltb_spec (2 * r) b).
  - destruct Q as [-> | ->]; [easy|]. nia.
  - destruct (Z.ltb_spec b (2 * r)); [destruct Q as [-> | ->]; [nia|easy]|].
    assert (2 * r = b) by lia. destruct Q as [-> | ->].
    + replace (a - q * b) with r in H by lia. destruct H as [H|[_ ->]]; [lia|easy].
    + replace (a - (q + 1) * b) with (r - b) in H by lia. destruct H as [H|[_ H]]; [lia|].
      rewrite Z.add_1_r, Z.even_succ, <- Z.negb_even in H. destruct (Z.even q); easy.
Qed.
Lemma round_near a b : 0 < b -> let m := round_half_even a b in 2 * Z.abs (a - m * b) < b \/ 2 * Z.abs (a - m * b) = b /\ Z.even m = true.
Proof.
  intros B m. unfold m, round_half_even. pose proof (Z.div_mod a b ltac:(lia)) as DM. pose proof (Z.mod_pos_bound a b B) as MB.
  set (q := a / b) in *. set (r := a mod b) in *. 
  destruct (Z.ltb_spec (2 * r) b); [left; lia|]. destruct (Z.ltb_spec b (2 * r)); [left; lia|].
  destruct (Z.even q) eqn:E; right; split; try lia. rewrite Z.add_1_r, Z.even_succ, <- Z.negb_even, E. reflexivity.
Qed.
Lemma exp_unique n e : 10 ^ 6 <= n -> 0 <= e -> 2 ^ 52 * 10 ^ 6 <= n * 2 ^ e < 2 ^ 53 * 10 ^ 6 -> e = float_exp n.
Proof.
  intros H E [L U]. unfold float_exp. 
  assert (E52 : e <= 52).
  { destruct (Z.leb_spec e 52); [easy|]. exfalso. pose proof (Z.pow_le_mono_r 2 53 e ltac:(lia) ltac:(lia)). nia. }
  assert (L2 : Z.log2 (n / US_SEC) = 52 - e); [|lia]. apply Z.log2_unique; [lia|]. change US_SEC with (10 ^ 6).
  assert (S1 : 2 ^ 52 = 2 ^ (52 - e) * 2 ^ e) by (rewrite <- Z.pow_add_r by lia; f_equal; lia).
  assert (S2 : 2 ^ 53 = 2 ^ Z.succ (52 - e) * 2 ^ e) by (rewrite <- Z.pow_add_r by lia; f_equal; lia).
  rewrite S1 in L. rewrite S2 in U. pose proof (Z.pow_pos_nonneg 2 e ltac:(lia) E) as P.
  split; [apply Z.div_le_lower_bound; [lia|]; nia|apply Z.div_lt_upper_bound; [lia|]; nia].
Qed.
Lemma whole_exact n T : whole_seconds n T -> T = int_total_seconds n.
Proof.
  unfold int_total_seconds. intros [[H ->]|(H & e & m & E & B & R & ->)].
  - change US_SEC with (10 ^ 6). now destruct (Z.ltb_spec n (10 ^ 6)); [|lia].
  - change US_SEC with (10 ^ 6). destruct (Z.ltb_spec n (10 ^ 6)); [lia|]. rewrite <- (exp_unique n e H E B).
    f_equal. now apply round_unique.
Qed.
Lemma whole_total n : 0 <= n < 2 ^ 53 * 10 ^ 6 -> exists T, whole_seconds n T.
Proof.
  intro H. destruct (Z.ltb_spec n (10 ^ 6)); [exists 0; left; lia|].
  set (q := n / 10 ^ 6). assert (Q : 0 < q) by (apply Z.div_str_pos; lia). destruct (Z.log2_spec q Q) as [L1 L2].
  assert (L0 : 0 <= Z.log2 q) by apply Z.log2_nonneg.
  assert (Q53 : q < 2 ^ 53) by (apply Z.div_lt_upper_bound; lia). assert (L3 : Z.log2 q <= 52) by (apply Z.lt_succ_r; apply Z.log2_lt_pow2; easy).
  set (e := 52 - Z.log2 q). exists (round_half_even (n * 2 ^ e) (10 ^ 6) / 2 ^ e). right. split; [easy|]. exists e, (round_half_even (n * 2 ^ e) (10 ^ 6)).
  assert (S1 : 2 ^ 52 = 2 ^ Z.log2 q * 2 ^ e) by (rewrite <- Z.pow_add_r by lia; f_equal; lia).
  assert (S2 : 2 ^ 53 = 2 ^ Z.succ (Z.log2 q) * 2 ^ e) by (rewrite <- Z.pow_add_r by lia; f_equal; lia).
  pose proof (Z.pow_pos_nonneg 2 e ltac:(lia) ltac:(lia)) as P. pose proof (Z.div_mod n (10 ^ 6) ltac:(lia)) as DM. fold q in DM.
  pose proof (Z.mod_pos_bound n (10 ^ 6) ltac:(lia)) as MB. repeat split; try lia.
  - rewrite S1. nia.
  - rewrite S2. nia.
  - now apply round_near.
Qed.
Lemma whole_nonneg n T : whole_seconds n T -> 0 <= T.
Proof.
  intros [[_ ->]|(H & e & m & E & B & R & ->)]; [lia|]. pose proof (Z.pow_pos_nonneg 2 e ltac:(lia) E). apply Z.div_pos; [|easy]. nia.
Qed.

Lemma amount_text n u s : amount n u s -> s = if n =? 0 then [] else zdec n ++ u.
Proof.
  intros [[-> ->]|(H & ds & D & ->)]; [easy|]. apply decimal_zdec in D as [-> _]. now destruct (Z.eqb_spec n 0).
Qed.
Lemma amount_total n u : 0 <= n -> amount n u (if n =? 0 then [] else zdec n ++ u).
Proof. intro H. destruct (Z.eqb_spec n 0); [now left|]. right. split; [easy|]. exists (zdec n). split; [now apply decimal_total|easy]. Qed.
Lemma body_shape T d h m x : T = ((24 * d + h) * 60 + m) * 60 + x -> 0 <= d -> 0 <= h < 24 -> 0 <= m < 60 -> 0 <= x < 60 -> T <> 0 ->
  let sd := if d =? 0 then [] else zdec d ++ py "D" in let sh := if h =? 0 then [] else zdec h ++ py "H" in
  let sm := if m =? 0 then [] else zdec m ++ py "M" in let sx := if x =? 0 then [] else zdec x ++ py "S" in
  ser_body T = sd ++ match sh ++ sm ++ sx with [] => [] | t => py "T" ++ t end.
Proof.
  intros ET D H M XX NZ sd sh sm sx. set (r := (h * 60 + m) * 60 + x).
  assert (R : 0 <= r < 86400) by lia. assert (E1 : T / 86400 = d) by (symmetry; apply Z.div_unique with r; lia).
  assert (E2 : T mod 86400 = r) by (symmetry; apply Z.mod_unique with d; lia). unfold ser_body. cbv zeta. rewrite E1, E2.
  assert (E3 : r / 3600 = h) by (symmetry; apply Z.div_unique with (m * 60 + x); lia).
  assert (E4 : (if h =? 0 then r else r mod 3600) = m * 60 + x).
  { destruct (Z.eqb_spec h 0); [lia|]. symmetry. apply Z.mod_unique with h; lia. }
  rewrite E3, E4. assert (E5 : (m * 60 + x) / 60 = m) by (symmetry; apply Z.div_unique with x; lia). rewrite E5.
  assert (E6 : (if m =? 0 then m * 60 + x else (m * 60 + x) mod 60) = x).
  { destruct (Z.eqb_spec m 0); [lia|]. symmetry. apply Z.mod_unique with m; lia. }
  rewrite E6. fold sd. 
  assert (NE : forall n (u : list N), zdec n ++ u <> []) by (intros n u E; apply app_eq_nil in E as [E _]; now apply dec_nonempty in E).
  destruct (Z.eqb_spec r 0) as [R0|R0].
  - assert (S1 : sh = []) by (unfold sh; now replace (h =? 0) with true by lia). assert (S2 : sm = []) by (unfold sm; now replace (m =? 0) with true by lia).
    assert (S3 : sx = []) by (unfold sx; now replace (x =? 0) with true by lia). rewrite S1, S2, S3. cbn [app]. rewrite app_nil_r. unfold sd. destruct (Z.eqb_spec d 0); [lia|]. now rewrite nonempty_match by apply NE.
  - assert (G : (if x =? 0 then if m =? 0 then if h =? 0 then sd ++ py "T" else (sd ++ py "T") ++ zdec h ++ py "H" else (if h =? 0 then sd ++ py "T" else (sd ++ py "T") ++ zdec h ++ py "H") ++ zdec m ++ py "M"
       else (if m =? 0 then if h =? 0 then sd ++ py "T" else (sd ++ py "T") ++ zdec h ++ py "H" else (if h =? 0 then sd ++ py "T" else (sd ++ py "T") ++ zdec h ++ py "H") ++ zdec m ++ py "M") ++ zdec x ++ py "S") = sd ++ py "T" ++ sh ++ sm ++ sx).
    { unfold sh, sm, sx. destruct (x =? 0), (m =? 0), (h =? 0); rewrite ?app_nil_r, <- ?app_assoc; reflexivity. }
    rewrite G. rewrite nonempty_match by (destruct sd; discriminate). f_equal.
    destruct (sh ++ sm ++ sx) eqn:Z0; [|reflexivity]. exfalso. apply app_eq_nil in Z0 as [Z1 Z0]. apply app_eq_nil in Z0 as [Z2 Z3].
    unfold sh, sm, sx in *. destruct (Z.eqb_spec h 0), (Z.eqb_spec m 0), (Z.eqb_spec x 0); try (now apply NE in Z1); try (now apply NE in Z2); try (now apply NE in Z3). lia.
Qed.
Lemma period_body T s : period_text T s -> s = py "P" ++ ser_body T.
Proof.
  intros [[-> ->]|(NZ & d & h & m & x & sd & sh & sm & sx & ET & D & H & M & XX & A1 & A2 & A3 & A4 & ->)]; [reflexivity|].
  apply amount_text in A1 as ->. apply amount_text in A2 as ->. apply amount_text in A3 as ->. apply amount_text in A4 as ->.
  now rewrite (body_shape T d h m x) by easy.
Qed.
Lemma period_total T : 0 <= T -> exists s, period_text T s.
Proof.
  intro P. destruct (Z.eq_dec T 0) as [->|NZ]; [exists (py "PT0S"); now left|]. eexists. right. split; [easy|].
  exists (T / 86400), (T / 3600 mod 24), (T / 60 mod 60), (T mod 60). do 4 eexists. 
  split; [|split; [|split; [|split; [|split; [|split; [|split; [|split; [|split; [|reflexivity]]]]]]]]].
  all: try apply amount_total; try (apply Z.mod_pos_bound; lia); try (apply Z.div_pos; lia); try (apply Z.mod_pos_bound; lia).
  pose proof (Z.div_mod T 60 ltac:(lia)). pose proof (Z.div_mod (T / 60) 60 ltac:(lia)) as A. pose proof (Z.div_mod (T / 3600) 24 ltac:(lia)) as B.
  rewrite Z.div_div in A by lia. rewrite Z.div_div in B by lia. change (60 * 60) with 3600 in A. change (3600 * 24) with 86400 in B. lia.
Qed.
Lemma duration_exact us s : duration_written us s -> s = duration_serialize us.
Proof.
  intros (T & w & W & P & ->). apply whole_exact in W as ->. apply period_body in P as ->. rewrite duration_serialize_body.
  destruct (Z.ltb_spec us 0), (Z.leb_spec 0 us); try lia; reflexivity.
Qed.
Lemma duration_total us : TD_MIN <= us <= TD_MAX -> exists s, duration_written us s.
Proof.
  intro H. destruct (whole_total (Z.abs us)) as [T W].
  { assert (Z.abs us <= 10 ^ 9 * (86400 * 10 ^ 6)) by (change TD_MIN with (-86399999913600000000) in H; change TD_MAX with 86399999999999999999 in H; lia). lia. }
  destruct (period_total T (whole_nonneg _ _ W)) as [w P]. do 3 eexists. repeat split; eassumption.
Qed.

Lemma day_exact w s : day_written w s -> s = date_serialize w.
Proof.
  intros (R & y & D & ->). apply decimal_zdec in D as [-> _]. unfold date_serialize, fmt_date, zdec. f_equal.
  destruct R as (_ & len & ML & B). assert (1 <= f_m (fields_of w) <= 12 /\ len <= 31).
  { inversion ML as [? ? I|? ? I| |]; subst; try lia; cbn in I; lia. }
  rewrite !z2_d2 by lia. reflexivity.
Qed.
Lemma clock_exact w s : clock_written w s -> s = fmt_datetime w.
Proof.
  intros (R & a & D & ->). apply day_exact in D as ->. unfold fmt_datetime, fmt_time, date_serialize. unfold real_time in R. rewrite !z2_d2 by lia. reflexivity.
Qed.
Lemma fields_real w : wall_ok w = true -> let f := fields_of w in real_date (f_y f) (f_m f) (f_d f) /\ real_time (f_H f) (f_M f) (f_S f).
Proof.
  intros H f. pose proof (fields_bounds w H) as B. pose proof (fields_of_valid w H) as V. subst f. cbv zeta in B.
  destruct V as [V _]. split; [now apply real_date_spec|]. unfold real_time. lia.
Qed.
Lemma day_total w : wall_ok w = true -> exists s, day_written w s.
Proof.
  intro H. destruct (fields_real w H) as [D _]. eexists. split; [exact D|]. eexists. split; [|reflexivity]. apply decimal_total. destruct D as [D _]. lia.
Qed.
Lemma clock_total w : wall_ok w = true -> exists s, clock_written w s.
Proof.
  intro H. destruct (fields_real w H) as [_ T]. destruct (day_total w H) as [a A]. eexists. split; [exact T|]. exists a. split; [exact A|reflexivity].
Qed.
