(** * Proofs about reading and writing GEO values *)
From Verif Require Import M_Base P_Base M_Codec S_Codec P_Codec M_Float S_Float P_Float P_Float2.
From Coq Require Import Lia ZifyBool ZifyNat ZifyN.
Open Scope Z_scope.

(** ** Reading decimals *)
Definition halts (r : str) : Prop := match r with [] => True | c :: _ => is_digit c = false /\ c <> 95%N end.
Lemma digit_run_app ds r : forall p, forallb is_digit ds = true -> halts r -> digit_run p (ds ++ r) = (ds, r).
Proof.
  induction ds as [|c ds IH]; intros p HD HR.
  - cbn [app]. destruct r as [|c r]; [easy|]. cbn [digit_run]. destruct HR as (-> & HN). destruct (N.eqb_spec c 95); [congruence|easy].
  - cbn [forallb] in HD. apply andb_true_iff in HD as (HC & HD). cbn [app digit_run]. rewrite HC, IH by easy. easy.
Qed.
Lemma number_forall ds v : number ds v -> forallb is_digit ds = true.
Proof. intros H. now apply number_digits in H as (_ & H & _). Qed.
Lemma digit_run_all ds p : forallb is_digit ds = true -> digit_run p ds = (ds, []).
Proof. intros H. rewrite <- (app_nil_r ds) at 1. now apply digit_run_app. Qed.
Lemma number_nil v : ~ number [] v.
Proof. now intros (H & _). Qed.
Lemma read_decimal t n k : decimal t n k -> read_number t = Some (n, 10 ^ k).
Proof.
  intros [ds v HN|ds v fs f HN HF].
  - unfold read_number. rewrite (digit_run_all ds false (number_forall _ _ HN)).
    rewrite app_nil_r. destruct ds as [|c ds]; [now apply number_nil in HN|]. cbn [read_exponent length Z.of_nat]. cbn [Z.leb Z.sub Z.compare].
    destruct HN as (_ & _ & ->). change (10 ^ 0) with 1. now rewrite Z.mul_1_r.
  - unfold read_number. rewrite digit_run_app; [|now apply (number_forall ds v)|now split]. change (py "." ++ fs) with (46%N :: fs). cbv iota beta. change (46 =? 46)%N with true. cbv iota.
    rewrite (digit_run_all fs false (number_forall _ _ HF)).
    destruct (ds ++ fs) as [|c r] eqn:E; [apply app_eq_nil in E as (-> & _); now apply number_nil in HN|]. rewrite <- E. clear E c r.
    cbn [read_exponent]. destruct fs as [|c fs]; [now apply number_nil in HF|]. set (fs' := c :: fs) in *.
    assert (L : (0 < length fs')%nat) by (cbn; lia). clearbody fs'. destruct (Z.leb_spec 0 (0 - Z.of_nat (length fs'))); [lia|].
    replace (- (0 - Z.of_nat (length fs'))) with (Z.of_nat (length fs')) by lia. do 2 f_equal.
    destruct HN as (_ & _ & ->), HF as (_ & _ & ->). rewrite undec_app, N2Z.inj_add, N2Z.inj_mul, N2Z.inj_pow, nat_N_Z. reflexivity.
Qed.
Lemma decimal_head t n k : decimal t n k -> exists c r, t = c :: r /\ is_digit c = true.
Proof.
  intros [ds v HN|ds v fs f HN HF]; pose proof (number_forall _ _ HN) as HD; destruct ds as [|c ds]; try (now apply number_nil in HN);
    cbn [forallb] in HD; apply andb_true_iff in HD as (HC & _); cbn [app]; eauto.
Qed.
Definition plainc (c : char) : Prop := is_digit c = true \/ c = 46%N \/ c = 43%N \/ c = 45%N.
Lemma decimal_chars t n k : decimal t n k -> forall c, In c t -> plainc c.
Proof.
  assert (D : forall ds v, number ds v -> forall c, In c ds -> plainc c).
  { intros ds v HN c HI. left. pose proof (number_forall _ _ HN) as H. rewrite forallb_forall in H. now apply H. }
  intros [ds v HN|ds v fs f HN HF] c HI; [now apply (D _ _ HN)|].
  apply in_app_or in HI as [HI|HI]; [now apply (D _ _ HN)|]. apply in_app_or in HI as [[<-|[]]|HI]; [right; now left|now apply (D _ _ HF)].
Qed.
Lemma signed_chars t b n k : signed t b n k -> forall c, In c t -> plainc c.
Proof.
  intros [t' n' k' H|t' n' k' H|t' n' k' H] c HI; [now apply (decimal_chars _ _ _ H)| |];
    (apply in_app_or in HI as [[<-|[]]|HI]; [unfold plainc; auto|now apply (decimal_chars _ _ _ H)]).
Qed.
Lemma plainc_space c : plainc c -> is_space c = false.
Proof. unfold plainc, is_space. rewrite is_digit_spec. lia. Qed.
Lemma plainc_sep c : plainc c -> c <> 59%N /\ c <> 13%N /\ c <> 10%N.
Proof. unfold plainc. rewrite is_digit_spec. lia. Qed.
Lemma digit_lower c r w : is_digit c = true -> (match w with a :: _ => (97 <= a)%N | [] => False end) -> str_eqb (lower_ascii (c :: r)) w = false.
Proof.
  intros HC HW. destruct w as [|a w]; [easy|]. unfold lower_ascii. cbn [map str_eqb]. apply is_digit_spec in HC.
  destruct (N.leb_spec 65 c); [lia|]. cbn [andb]. destruct (N.eqb_spec c a); [lia|easy].
Qed.
Lemma read_signed t neg n k : signed t neg n k -> fl_read t = Ok (encode neg (double_of n (10 ^ k))).
Proof.
  intros H. assert (G : exists t', decimal t' n k /\ take_sign t = (neg, t')).
  { destruct H as [t n k H|t n k H|t n k H]; exists t; (split; [easy|]); cbn [app]; [|easy|easy].
    destruct (decimal_head _ _ _ H) as (c & r & -> & HC). cbn [take_sign]. apply is_digit_spec in HC.
    destruct (N.eqb_spec c c_dash) as [->|]; [exfalso; unfold c_dash in HC; lia|]. destruct (N.eqb_spec c c_plus) as [->|]; [exfalso; unfold c_plus in HC; lia|easy]. }
  destruct G as (t' & HD & HT). unfold fl_read. rewrite strip_id by (intros c HI; apply plainc_space; now apply (signed_chars _ _ _ _ H)).
  rewrite HT, (read_decimal _ _ _ HD). destruct (decimal_head _ _ _ HD) as (c & r & -> & HC). unfold str_in. cbn [existsb].
  rewrite !digit_lower by (easy || (cbn; lia)). easy.
Qed.

(** ** Writing *)
Lemma dec_first n c r : dec n = c :: r -> c = 48%N -> r = [].
Proof.
  intros E ->. destruct (N.eq_dec n 0) as [->|Hn]; [vm_compute in E; now injection E as <-|]. exfalso. revert Hn r E.
  induction n as [n IH] using (well_founded_induction N.lt_wf_0). intros Hn r E. rewrite dec_unfold in E. destruct (N.ltb_spec n 10) as [L|L].
  - injection E as E _. lia.
  - destruct (dec (n / 10)) as [|a x] eqn:ED; [now apply dec_nonempty in ED|]. injection E as -> _.
    assert (n / 10 < n)%N by (apply N.div_lt; lia). assert (n / 10 <> 0)%N by (assert (1 <= n / 10)%N by (apply N.div_le_lower_bound; lia); lia).
    eapply IH; eauto.
Qed.
Lemma pad6 n : 0 <= n < 10 ^ 6 -> number (pad 6 (Z.to_N n)) n /\ length (pad 6 (Z.to_N n)) = 6%nat.
Proof.
  intros H. assert (L : length (pad 6 (Z.to_N n)) = 6%nat) by (apply pad_length; lia). split; [|easy]. repeat split.
  - intros E. rewrite E in L. discriminate.
  - intros; apply is_digit_spec. pose proof (pad_digits 6 (Z.to_N n)) as D. rewrite forallb_forall in D. now apply D.
  - pose proof (pad_digits 6 (Z.to_N n)) as D. rewrite forallb_forall in D. specialize (D c H0). apply is_digit_spec in D. lia.
  - rewrite undec_pad. lia.
Qed.
Lemma fixed_six n : 0 <= n -> six (fixed n) n.
Proof.
  intros H. exists (zdec (n / 10 ^ 6)), (pad 6 (Z.to_N (n mod 10 ^ 6))), (n / 10 ^ 6), (n mod 10 ^ 6).
  pose proof (Z.mod_pos_bound n (10 ^ 6) ltac:(lia)) as HM. destruct (pad6 _ HM) as (HP & HL).
  split; [easy|]. split; [apply zdec_number; apply Z.div_pos; lia|]. split; [easy|]. split; [easy|]. split.
  - pose proof (Z.div_mod n (10 ^ 6) ltac:(lia)). lia.
  - intros r E. now apply (dec_first _ _ _ E).
Qed.
Lemma six_decimal t n : six t n -> decimal t n 6.
Proof.
  intros (ds & fs & i & f & -> & H1 & H2 & HL & -> & _). pose proof (D_point ds i fs f H1 H2) as H. rewrite HL in H. exact H.
Qed.
Lemma fixed_signed (neg : bool) n : 0 <= n -> signed ((if neg then py "-" else []) ++ fixed n) neg n 6.
Proof.
  intros H. apply fixed_six, six_decimal in H. destruct neg; [now apply S_minus|now apply S_plus].
Qed.
Lemma millionths_nonneg m E : finite m E -> 0 <= millionths m E.
Proof.
  intros (Hm & HE & _). apply rhe_nonneg; [|apply unit_pos]. apply Z.mul_nonneg_nonneg; [|lia]. apply Z.mul_nonneg_nonneg; [lia|apply Z.pow_nonneg; lia].
Qed.
Lemma encode_stands neg m E : finite m E -> stands (encode neg (DFin m E)) neg m E.
Proof.
  intros HF. split; [easy|]. destruct HF as (Hm & HE & _). unfold encode. assert (0 < 2 ^ 52) by now vm_compute. change (2 ^ 63) with (Z.of_N (2 ^ 63)). set (P := 2 ^ 52) in *. clearbody P.
  destruct neg, (Z.ltb_spec m P); lia.
Qed.
Lemma stands_encode b neg m E : stands b neg m E -> b = encode neg (DFin m E).
Proof. intros (HF & H). pose proof (encode_stands neg m E HF) as (_ & H'). rewrite <- H in H'. lia. Qed.
Lemma stands_decode b neg m E : stands b neg m E -> decode b = DFin m E /\ is_neg b = neg.
Proof. intros H. pose proof H as (HF & _). rewrite (stands_encode _ _ _ _ H). now apply mag_decode. Qed.
Lemma show_stands b neg m E : stands b neg m E -> fl_show b = (if neg then py "-" else []) ++ fixed (millionths m E).
Proof. intros H. apply stands_decode in H as (H & H'). unfold fl_show. now rewrite H, H'. Qed.
Lemma millionths_nearest m E : nearest_six m E (millionths m E).
Proof.
  intros n'. pose proof (rhe_nearest (m * 2 ^ E * 10 ^ 6) UNIT n' unit_pos) as H. pose proof (rhe_spec (m * 2 ^ E * 10 ^ 6) UNIT unit_pos) as HS.
  pose proof (rhe_even (m * 2 ^ E * 10 ^ 6) UNIT unit_pos) as HE. fold (millionths m E) in H, HS, HE. fold UNIT. pose proof unit_pos as HU.
  set (a := m * 2 ^ E * 10 ^ 6) in *. set (x := millionths m E) in *. set (U := UNIT) in *. clearbody a x U. split; [lia|]. intros HN HT. apply HE. nia.
Qed.
Lemma shown b neg m E : stands b neg m E -> exists t n, fl_show b = (if neg then py "-" else []) ++ t /\ six t n /\ nearest_six m E n.
Proof.
  intros H. exists (fixed (millionths m E)), (millionths m E). split; [now apply show_stands|]. split; [apply fixed_six, millionths_nonneg; apply H|apply millionths_nearest].
Qed.
Lemma encode_rounded neg n d : 0 <= n -> 0 < d -> rounded neg n d (encode neg (double_of n d)).
Proof.
  intros Hn Hd. pose proof (double_inf n d Hn Hd) as HI. destruct (double_of n d) as [| |m E] eqn:ED.
  - now apply double_not_nan in ED.
  - right. split; [now apply HI|]. unfold infinite, encode. destruct neg; reflexivity.
  - left. split; [intros H; now apply HI in H|]. exists m, E. pose proof (double_nearest n d m E Hn Hd ED) as HN.
    split; [apply encode_stands, HN|]. split; [easy|]. now apply double_even.
Qed.

(** ** There and back *)
Lemma finite_cases b : bits b -> (exists neg m E, stands b neg m E) \/ (exists neg : bool, fl_show b = (if neg then py "-" else []) ++ py "inf" /\ b = encode neg DInf) \/ fl_show b = py "nan".
Proof.
  intros HB. destruct (decode b) as [| |m E] eqn:ED.
  - right. right. unfold fl_show. now rewrite ED.
  - right. left. exists (is_neg b). unfold fl_show. rewrite ED. split; [easy|].
    unfold decode in ED. unfold encode, is_neg, bits in *. set (g := (b mod 2 ^ 63)%N) in *.
    assert (HG : b = ((if (2 ^ 63 <=? b)%N then 2 ^ 63 else 0) + g)%N).
    { unfold g. destruct (N.leb_spec (2 ^ 63) b) as [L|L]; [|now rewrite N.mod_small].
      pose proof (N.div_mod b (2 ^ 63) ltac:(discriminate)) as H. assert (b / 2 ^ 63 = 1)%N as Q; [|rewrite Q in H; lia].
      assert (b / 2 ^ 63 < 2)%N by (apply N.div_lt_upper_bound; [discriminate|exact HB]).
      assert (1 <= b / 2 ^ 63)%N by (apply N.div_le_lower_bound; [discriminate|lia]). lia. }
    rewrite HG at 1. f_equal. pose proof (N.div_mod g (2 ^ 52) ltac:(discriminate)) as H. rewrite H. revert ED.
    set (f := (g mod 2 ^ 52)%N). set (x := (g / 2 ^ 52)%N). destruct (Z.eqb_spec (Z.of_N x) 2047) as [Q|]; [|destruct (Z.of_N x =? 0); discriminate].
    destruct (Z.eqb_spec (Z.of_N f) 0) as [Q'|]; [|discriminate]. intros _. assert (x = 2047%N) as -> by lia. assert (f = 0%N) as -> by lia. reflexivity.
  - left. exists (is_neg b), m, E. rewrite <- (decode_encode b m E HB ED) at 1. apply encode_stands. now apply decode_finite in ED.
Qed.
Lemma stable b : bits b -> exists b', fl_read (fl_show b) = Ok b' /\ fl_show b' = fl_show b.
Proof.
  intros HB. destruct (finite_cases b HB) as [(neg & m & E & H)|[(neg & H & Hb)|H]].
  - pose proof H as (HF & _). destruct (millionths_read m E HF) as (m2 & E2 & HD & HF2 & HM).
    exists (encode neg (DFin m2 E2)). rewrite (show_stands _ _ _ _ H). split.
    + rewrite (read_signed _ neg (millionths m E) 6); [now rewrite HD|]. apply fixed_signed. now apply millionths_nonneg.
    + rewrite (show_stands _ neg m2 E2); [now rewrite HM|]. now apply encode_stands.
  - exists (encode neg DInf). rewrite H, Hb in *. destruct neg; split; vm_compute; reflexivity.
  - exists (encode false DNan). rewrite H. split; vm_compute; reflexivity.
Qed.
Lemma large_kept b neg m E : stands b neg m E -> 2 ^ 33 * 2 ^ 1074 <= m * 2 ^ E -> fl_read (fl_show b) = Ok b.
Proof.
  intros H HL. pose proof H as (HF & _). pose proof HF as (Hm & HE & HD). rewrite (show_stands _ _ _ _ H).
  rewrite (read_signed _ neg (millionths m E) 6) by (apply fixed_signed; now apply millionths_nonneg).
  change (10 ^ 6) with (10 ^ 6). rewrite millionths_large; [now rewrite <- (stands_encode _ _ _ _ H)|easy|].
  destruct (Z.le_gt_cases E 1054) as [L|]; [exfalso|lia]. assert (2 ^ E <= 2 ^ 1054) by (apply Z.pow_le_mono_r; lia).
  replace (2 ^ 33 * 2 ^ 1074) with (2 ^ 53 * 2 ^ 1054) in HL by (rewrite <- !Z.pow_add_r by lia; reflexivity).
  assert (0 < 2 ^ 1054) by (apply Z.pow_pos_nonneg; lia). set (A := 2 ^ 1054) in *. set (B := 2 ^ E) in *. set (P := 2 ^ 53) in *. clearbody A B P. nia.
Qed.
Lemma millionths_exact D m E : 0 <= D -> double_of D (10 ^ 6) = DFin m E -> E <= 1054 -> millionths m E = D.
Proof.
  intros HD0 HD HL. destruct (double_of_cases D (10 ^ 6) HD0 ltac:(lia)) as (m0 & E0 & HE0 & HB & _ & _ & Hm0 & H2 & HN & HQ). rewrite HQ in HD. clear HQ.
  assert (HV : m * 2 ^ E = m0 * 2 ^ E0 /\ E0 <= E).
  { revert HD. destruct (Z.eqb_spec m0 (2 ^ 53)) as [->|Hc].
    - destruct (2045 <? E0 + 1); [discriminate|]. intros Q. injection Q as <- <-. split; [exact (carry E0 HE0)|lia].
    - destruct (2045 <? E0); [discriminate|]. intros Q. injection Q as <- <-. split; [easy|lia]. }
  destruct HV as (HV & HE). assert (H3 : 2 ^ E0 <= 2 ^ 1054) by (apply Z.pow_le_mono_r; lia).
  assert (HUe : UNIT = 2 ^ 1054 * 2 ^ 20) by (rewrite (unit_split 1054) by lia; reflexivity).
  assert (H54 : 0 < 2 ^ 1054) by (apply Z.pow_pos_nonneg; lia).
  unfold millionths. rewrite HV. apply rhe_unique; [apply unit_pos|].
  replace (m0 * 2 ^ E0 * 10 ^ 6) with (m0 * (10 ^ 6 * 2 ^ E0)) by ring. rewrite HUe in *. set (A := 2 ^ 1054) in *. set (B := 2 ^ E0) in *. clearbody A B.
  change (2 ^ 20) with 1048576 in *. change (10 ^ 6) with 1000000 in *. lia.
Qed.
Lemma rhe_scale a b c : 0 < b -> 0 < c -> round_half_even (a * c) (b * c) = round_half_even a b.
Proof.
  intros Hb Hc. unfold round_half_even. rewrite Z.div_mul_cancel_r, Z.mul_mod_distr_r by lia.
  set (r := a mod b). clearbody r.
  assert ((2 * (r * c) <? b * c) = (2 * r <? b)) as -> by (destruct (Z.ltb_spec (2 * r) b), (Z.ltb_spec (2 * (r * c)) (b * c)); (reflexivity || nia)).
  assert ((b * c <? 2 * (r * c)) = (b <? 2 * r)) as -> by (destruct (Z.ltb_spec b (2 * r)), (Z.ltb_spec (b * c) (2 * (r * c))); (reflexivity || nia)).
  reflexivity.
Qed.
Lemma double_scale n d c : 0 < d -> 0 < c -> double_of (n * c) (d * c) = double_of n d.
Proof.
  intros Hd Hc. unfold double_of. replace (n * c * UNIT) with (n * UNIT * c) by ring. rewrite Z.div_mul_cancel_r by lia.
  set (E := Z.max 0 (Z.log2 (n * UNIT / d) - 52)). replace (d * c * 2 ^ E) with (d * 2 ^ E * c) by ring.
  assert (0 < 2 ^ E) by (apply Z.pow_pos_nonneg; lia). rewrite rhe_scale by nia. reflexivity.
Qed.
Lemma six_kept t neg n k b : signed t neg n k -> k <= 6 -> fl_read t = Ok b -> fl_read (fl_show b) = Ok b.
Proof.
  intros H Hk HR. rewrite (read_signed _ _ _ _ H) in HR. injection HR as <-.
  assert (Hn : 0 <= n /\ 0 <= k).
  { assert (D : exists t', decimal t' n k) by (destruct H; eauto). destruct D as (t' & D).
    destruct D as [ds v (_ & _ & ->)|ds v fs f (_ & _ & ->) (_ & _ & ->)]; [lia|].
    assert (0 < 10 ^ Z.of_nat (length fs)) by (apply Z.pow_pos_nonneg; lia). nia. }
  destruct Hn as (Hn & Hk0). set (D := n * 10 ^ (6 - k)).
  assert (ED : double_of n (10 ^ k) = double_of D (10 ^ 6)).
  { unfold D. replace (10 ^ 6) with (10 ^ k * 10 ^ (6 - k)) by (rewrite <- Z.pow_add_r by lia; f_equal; lia).
    symmetry. apply double_scale; apply Z.pow_pos_nonneg; lia. }
  rewrite ED. assert (HD0 : 0 <= D) by (unfold D; assert (0 < 10 ^ (6 - k)) by (apply Z.pow_pos_nonneg; lia); nia). clearbody D. clear H ED Hk Hn Hk0.
  destruct (double_of D (10 ^ 6)) as [| |m E] eqn:EQ.
  - exfalso. apply double_not_nan in EQ; [easy|easy|lia].
  - destruct neg; vm_compute; reflexivity.
  - pose proof (double_nearest D (10 ^ 6) m E HD0 ltac:(lia) EQ) as (HF & _). pose proof (encode_stands neg m E HF) as HS.
    rewrite (show_stands _ _ _ _ HS), (read_signed _ neg (millionths m E) 6) by (apply fixed_signed; now apply millionths_nonneg).
    do 2 f_equal. destruct (Z.le_gt_cases E 1054) as [L|L]; [|now apply millionths_large].
    now rewrite (millionths_exact D m E).
Qed.
Lemma show_chars b c : In c (fl_show b) -> c <> 59%N /\ c <> 13%N /\ c <> 10%N.
Proof.
  intros HI. unfold fl_show in HI. destruct (decode b) as [| |m E] eqn:ED.
  - cbn in HI. lia.
  - destruct (is_neg b); cbn in HI; lia.
  - apply decode_finite in ED. apply plainc_sep. apply (signed_chars _ (is_neg b) (millionths m E) 6) in HI; [easy|].
    apply fixed_signed. now apply millionths_nonneg.
Qed.
