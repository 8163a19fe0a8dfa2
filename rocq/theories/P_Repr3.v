(** * Proofs about the texts of floats: layout, there and back *)
From Verif Require Import M_Base P_Base M_Codec S_Codec P_Codec M_Float S_Float P_Float P_Float2 P_Float3 P_Float4 P_Float5 P_Float6 M_Repr S_Repr P_Repr P_Repr2.
From Coq Require Import Lia ZifyBool ZifyNat ZifyN.
Open Scope Z_scope.

Lemma all_under ds : ds <> [] -> forallb is_digit ds = true -> under ds ds.
Proof.
  intros HN HD. rewrite forallb_forall in HD. assert (HD' : forall c, In c ds -> (48 <= c <= 57)%N) by (intros; apply is_digit_spec; auto). clear HD.
  induction ds as [|c ds IH]; [easy|]. destruct ds as [|c' ds]; [constructor; apply HD'; now left|].
  apply U_next; [apply HD'; now left|]. apply IH; [discriminate|]. intros a HA. apply HD'. now right.
Qed.
Lemma zeros_digits n : forallb is_digit (zeros n) = true.
Proof. unfold zeros. induction (Z.to_nat n) as [|k IH]; [easy|exact IH]. Qed.
Lemma zeros_length n : 0 <= n -> Z.of_nat (length (zeros n)) = n.
Proof. intros. unfold zeros. rewrite repeat_length. lia. Qed.
Lemma undec_zeros n : undec (zeros n) = 0%N.
Proof. apply undec_repeat0. Qed.
Lemma undec_app_Z a b : Z.of_N (undec (a ++ b)) = Z.of_N (undec a) * 10 ^ Z.of_nat (length b) + Z.of_N (undec b).
Proof. rewrite undec_app, N2Z.inj_add, N2Z.inj_mul, N2Z.inj_pow, nat_N_Z. reflexivity. Qed.
Lemma forallb_firstn {A} (f : A -> bool) k l : forallb f l = true -> forallb f (firstn k l) = true.
Proof. intros H. rewrite <- (firstn_skipn k l), forallb_app in H. now apply andb_true_iff in H. Qed.
Lemma forallb_skipn {A} (f : A -> bool) k l : forallb f l = true -> forallb f (skipn k l) = true.
Proof. intros H. rewrite <- (firstn_skipn k l), forallb_app in H. now apply andb_true_iff in H. Qed.
(** The value of the text. *)
Definition same_value (n d c q : Z) : Prop := n * 10 ^ Z.max 0 (- q) = c * 10 ^ Z.max 0 q * d.
Lemma numeral_value s (neg : bool) m ds k e x c q : sign s neg -> mantissa m ds k -> exponent e x -> forall z, 0 <= z -> Z.of_N (undec ds) = c * 10 ^ z -> x - k = q - z ->
  exists n d, numeral (s ++ m ++ e) neg n d /\ same_value n d c q.
Proof.
  intros HS HM HE z Hz HV HX. exists (Z.of_N (undec ds) * 10 ^ Z.max 0 (x - k)), (10 ^ Z.max 0 (k - x)). split.
  - exists [], s, m, ds, k, e, x, []. rewrite app_nil_r. split; [easy|]. split; [now intros a []|]. split; [now intros a []|]. auto.
  - unfold same_value. rewrite HV. replace (k - x) with (z - q) by lia. rewrite HX.
    replace (c * 10 ^ z * 10 ^ Z.max 0 (q - z) * 10 ^ Z.max 0 (- q)) with (c * (10 ^ z * 10 ^ Z.max 0 (q - z) * 10 ^ Z.max 0 (- q))) by ring.
    rewrite <- (Z.mul_assoc c). f_equal. rewrite <- !Z.pow_add_r by lia. f_equal. lia.
Qed.
Lemma layout_numeral s (neg : bool) c q : 0 <= c -> sign s neg -> exists n d, numeral (s ++ layout c q) neg n d /\ same_value n d c q.
Proof.
  intros Hc HS. unfold layout. destruct (zdec_number c Hc) as (HN & _ & HV). assert (HD : forallb is_digit (zdec c) = true) by apply dec_digits.
  set (ds := zdec c) in *. clearbody ds. set (p := q + Z.of_nat (length ds)). assert (HL : 1 <= Z.of_nat (length ds)) by (destruct ds; [easy|cbn [length]; lia]).
  destruct ((-4 <? p) && (p <=? 16)) eqn:EP.
  - destruct (Z.leb_spec p 0) as [L0|L0]; [|destruct (Z.leb_spec 0 q) as [Lq|Lq]].
    + change (py "0." ++ zeros (- p) ++ ds) with (py "0" ++ py "." ++ zeros (- p) ++ ds).
      destruct (numeral_value s neg (py "0" ++ py "." ++ zeros (- p) ++ ds) (py "0" ++ zeros (- p) ++ ds) (Z.of_nat (length (zeros (- p) ++ ds))) [] 0 c q) with (z := 0) as (n & d & H1 & H2); try easy.
      * constructor; [apply MU_some, all_under; easy|apply MU_some, all_under|easy].
        -- intros Q. apply app_eq_nil in Q as (_ & ->). easy.
        -- now rewrite forallb_app, zeros_digits.
      * constructor.
      * rewrite !undec_app_Z, undec_zeros, Z.pow_0_r, HV. change (Z.of_N (undec (py "0"))) with 0. lia.
      * rewrite app_length, Nat2Z.inj_add, zeros_length by lia. unfold p. lia.
      * rewrite app_nil_r in H1. eauto.
    + destruct (numeral_value s neg ((ds ++ zeros q) ++ py "." ++ py "0") ((ds ++ zeros q) ++ py "0") (Z.of_nat (length (py "0"))) [] 0 c q) with (z := q + 1) as (n & d & H1 & H2); try easy.
      * constructor; [apply MU_some, all_under|apply MU_some, all_under; easy|].
        -- intros Q. apply app_eq_nil in Q as (-> & _). easy.
        -- now rewrite forallb_app, zeros_digits, HD.
        -- intros Q. apply app_eq_nil in Q as (_ & Q). discriminate.
      * constructor.
      * lia.
      * rewrite !undec_app_Z, undec_zeros, zeros_length, HV by lia. change (Z.of_N (undec (py "0"))) with 0. change (Z.of_nat (length (py "0"))) with 1. rewrite Z.pow_add_r by lia. ring.
      * change (Z.of_nat (length (py "0"))) with 1. lia.
      * rewrite app_nil_r in H1. exists n, d. split; [|easy]. rewrite <- app_assoc in H1. exact H1.
    + set (i := Z.to_nat p). assert (Hi : (0 < i < length ds)%nat) by (unfold i, p in *; lia).
      destruct (numeral_value s neg (firstn i ds ++ py "." ++ skipn i ds) (firstn i ds ++ skipn i ds) (Z.of_nat (length (skipn i ds))) [] 0 c q) with (z := 0) as (n & d & H1 & H2); try easy.
      * constructor; [apply MU_some, all_under|apply MU_some, all_under|].
        -- intros Q. apply (f_equal (@length N)) in Q. rewrite firstn_length in Q. cbn [length] in Q. lia.
        -- now apply forallb_firstn.
        -- intros Q. apply (f_equal (@length N)) in Q. rewrite skipn_length in Q. cbn [length] in Q. lia.
        -- now apply forallb_skipn.
        -- now rewrite firstn_skipn.
      * constructor.
      * rewrite firstn_skipn, Z.pow_0_r, HV. lia.
      * rewrite skipn_length. unfold i, p in *. lia.
      * rewrite app_nil_r in H1. eauto.
  - set (e := py "e" ++ (if p - 1 <? 0 then py "-" else py "+") ++ pad 2 (Z.to_N (Z.abs (p - 1)))).
    assert (HE : exponent e (p - 1)).
    { assert (HP : under (pad 2 (Z.to_N (Z.abs (p - 1)))) (pad 2 (Z.to_N (Z.abs (p - 1))))).
      { apply all_under; [|apply pad_digits]. unfold pad. intros Q. apply app_eq_nil in Q as (_ & Q). now apply dec_nonempty in Q. }
      replace (p - 1) with (if p - 1 <? 0 then - Z.of_N (undec (pad 2 (Z.to_N (Z.abs (p - 1))))) else Z.of_N (undec (pad 2 (Z.to_N (Z.abs (p - 1))))))
        by (rewrite undec_pad; destruct (Z.ltb_spec (p - 1) 0); lia).
      assert (HR : exponent e (if p - 1 <? 0 then - Z.of_N (undec (pad 2 (Z.to_N (Z.abs (p - 1))))) else Z.of_N (undec (pad 2 (Z.to_N (Z.abs (p - 1))))))); [|exact HR].
      unfold e. apply E_some; [now left| |exact HP]. unfold sign. destruct (p - 1 <? 0); auto. }
    fold e. destruct ds as [|a r]; [easy|]. cbn [firstn skipn]. cbn [length] in HL. destruct r as [|b r].
    + cbn [app]. destruct (numeral_value s neg [a] [a] 0 e (p - 1) c q) with (z := 0) as (n & d & H1 & H2); try easy.
      * constructor. now apply all_under.
      * rewrite HV, Z.pow_0_r. lia.
      * unfold p. cbn [length]. lia.
      * eauto.
    + destruct (numeral_value s neg ([a] ++ py "." ++ b :: r) ([a] ++ b :: r) (Z.of_nat (length (b :: r))) e (p - 1) c q) with (z := 0) as (n & d & H1 & H2); try easy.
      * cbn [forallb] in HD. apply andb_true_iff in HD as (HA & HD). constructor; [apply MU_some, all_under; [easy|cbn [forallb]; now rewrite HA]|apply MU_some, all_under; easy|easy].
      * cbn [app]. rewrite HV, Z.pow_0_r. lia.
      * unfold p. cbn [length]. lia.
      * exists n, d. split; [|easy]. rewrite <- !app_assoc in H1 |- *. exact H1.
Qed.
Lemma same_value_double n d c q : 0 < d -> same_value n d c q -> dec_double c q = double_of n d.
Proof.
  intros Hd H. unfold same_value in H. assert (A : 0 < 10 ^ Z.max 0 (- q)) by (apply Z.pow_pos_nonneg; lia).
  assert (EQ : dec_double c q = double_of (c * 10 ^ Z.max 0 q) (10 ^ Z.max 0 (- q))).
  { unfold dec_double. destruct (Z.leb_spec 0 q); [rewrite (Z.max_r 0 q), (Z.max_l 0 (- q)) by lia; reflexivity|].
    rewrite (Z.max_l 0 q), (Z.max_r 0 (- q)) by lia. now rewrite Z.pow_0_r, Z.mul_1_r. }
  rewrite EQ. rewrite <- (double_scale (c * 10 ^ Z.max 0 q) _ d) by easy. rewrite <- H. rewrite (Z.mul_comm (10 ^ _) d). now apply double_scale.
Qed.
Lemma sign_of (neg : bool) : sign (if neg then py "-" else []) neg.
Proof. unfold sign. destruct neg; auto. Qed.
Lemma repr_stands b neg m E : stands b neg m E -> fl_repr b = (if neg then py "-" else []) ++ layout (fst (digits m E)) (snd (digits m E)).
Proof. intros H. apply stands_decode in H as (H & H'). unfold fl_repr. rewrite H, H'. destruct (digits m E); reflexivity. Qed.
Lemma zero_digits m E : finite m E -> m = 0 -> E = 0.
Proof. intros (_ & _ & [H|H]) ->; [easy|]. exfalso. vm_compute in H. now apply H. Qed.
Lemma digits_read m E : finite m E -> 0 <= fst (digits m E) /\ dec_double (fst (digits m E)) (snd (digits m E)) = DFin m E.
Proof.
  intros HF. destruct (Z.eq_dec m 0) as [->|HM].
  - rewrite (zero_digits _ _ HF eq_refl). split; [easy|now vm_compute].
  - pose proof HF as (Hm & _). destruct (digits_spec m E HF ltac:(lia)) as (c & q & j & -> & _ & Hc & HD & _). cbn [fst snd]. split; [lia|easy].
Qed.
(** Every double but the ones that are not a number is read from its text. *)
Lemma repr_read b : bits b -> ~ not_a_number b -> fl_read (fl_repr b) = Ok b.
Proof.
  intros HB HN. destruct (finite_cases b HB) as [(neg & m & E & H)|[(neg & _ & ->)|H]].
  - pose proof H as (HF & _). destruct (digits_read m E HF) as (Hc & HD). rewrite (repr_stands _ _ _ _ H).
    destruct (layout_numeral (if neg then py "-" else []) neg (fst (digits m E)) (snd (digits m E)) Hc (sign_of neg)) as (n & d & H1 & H2).
    destruct (numeral_bounds _ _ _ _ H1) as (_ & Hd). rewrite (numeral_read _ _ _ _ H1). rewrite (same_value_double n d _ _ Hd H2) in HD. rewrite HD. now rewrite <- (stands_encode _ _ _ _ H).
  - destruct neg; vm_compute; reflexivity.
  - exfalso. apply HN. clear HN. unfold fl_show in H. destruct (decode b) as [| |m E] eqn:ED.
    + unfold decode in ED. unfold not_a_number. set (g := (b mod 2 ^ 63)%N) in *. clearbody g. pose proof (N.div_mod g (2 ^ 52) ltac:(easy)) as DM.
      destruct (Z.eqb_spec (Z.of_N (g / 2 ^ 52)) 2047) as [E1|]; [|destruct (Z.of_N (g / 2 ^ 52) =? 0); discriminate].
      destruct (Z.eqb_spec (Z.of_N (g mod 2 ^ 52)) 0) as [|E2]; [discriminate|]. assert ((g / 2 ^ 52)%N = 2047%N) as E3 by lia. rewrite E3 in DM. set (P := (2 ^ 52)%N) in *. set (y := (g mod P)%N) in *. clearbody P y. lia.
    + destruct (is_neg b); vm_compute in H; discriminate.
    + exfalso. assert (HI : In 46%N (py "nan")) by (rewrite <- H; apply in_or_app; right; unfold fixed; apply in_or_app; right; now left). repeat (destruct HI as [HI|HI]; [discriminate HI|]). destruct HI.
Qed.
Lemma repr_nan b : bits b -> not_a_number b -> fl_repr b = py "nan" /\ exists b', fl_read (fl_repr b) = Ok b' /\ not_a_number b'.
Proof.
  intros HB HN. assert (E : fl_repr b = py "nan").
  { unfold fl_repr. assert (decode b = DNan) as ->; [|easy]. unfold not_a_number in HN. unfold decode. assert (HG : ((b mod 2 ^ 63) < 2 ^ 63)%N) by (apply N.mod_lt; easy).
    set (g := (b mod 2 ^ 63)%N) in *. clearbody g. pose proof (N.div_mod g (2 ^ 52) ltac:(easy)) as DM. pose proof (N.mod_lt g (2 ^ 52) ltac:(easy)) as ML.
    assert (EQ : (g / 2 ^ 52)%N = 2047%N). { change (2 ^ 63)%N with (2048 * 2 ^ 52)%N in HG. set (P := (2 ^ 52)%N) in *. set (x := (g / P)%N) in *. set (y := (g mod P)%N) in *. clearbody P x y. nia. }
    rewrite EQ. change (Z.of_N 2047 =? 2047) with true. cbv iota zeta. destruct (Z.eqb_spec (Z.of_N (g mod 2 ^ 52)) 0) as [E0|]; [|easy]. exfalso.
    rewrite EQ in DM. set (P := (2 ^ 52)%N) in *. set (y := (g mod P)%N) in *. clearbody P y. lia. }
  split; [easy|]. rewrite E. exists 9221120237041090560%N. split; now vm_compute.
Qed.
Lemma rounded_double neg n d b m E : 0 <= n -> 0 < d -> stands b neg m E -> rounded neg n d b -> double_of n d = DFin m E.
Proof.
  intros Hn Hd HS HR. pose proof (rounded_unique neg n d b (encode neg (double_of n d)) Hd HR (encode_rounded neg n d Hn Hd)) as HE.
  destruct (double_of n d) as [| |m' E'] eqn:ED.
  - now apply double_not_nan in ED.
  - apply stands_decode in HS as (HS & _). rewrite HE in HS. destruct neg; vm_compute in HS; discriminate.
  - pose proof (double_nearest _ _ _ _ Hn Hd ED) as (HF & _). pose proof (encode_stands neg m' E' HF) as HS'. rewrite <- HE in HS'.
    apply stands_decode in HS as (HS & _), HS' as (HS' & _). congruence.
Qed.
(** The text is the nearest of the shortest numbers read as the double. *)
Lemma repr_shortest b neg m E : stands b neg m E -> 0 < m -> exists n d j, numeral (fl_repr b) neg n d /\ short n d j /\ rounded neg n d b /\
  (forall n' d' j', 0 <= n' -> 0 < d' -> rounded neg n' d' b -> short n' d' j' -> j <= j') /\
  (forall n' d', 0 <= n' -> 0 < d' -> rounded neg n' d' b -> short n' d' j -> not_farther m E n d n' d').
Proof.
  intros H H0. pose proof H as (HF & _). destruct (digits_spec m E HF H0) as (c & q & j & ED & Hq & Hc & HR & HMIN & HNEAR & _).
  rewrite (repr_stands _ _ _ _ H), ED. cbn [fst snd]. destruct (layout_numeral (if neg then py "-" else []) neg c q ltac:(lia) (sign_of neg)) as (n & d & H1 & H2).
  destruct (numeral_bounds _ _ _ _ H1) as (Hn & Hd). exists n, d, j. split; [easy|].
  assert (HV : n * T = c * P10 q * d).
  { unfold same_value in H2. apply (Z.mul_reg_r _ _ (10 ^ Z.max 0 (- q))); [pose proof (Z.pow_pos_nonneg 10 (Z.max 0 (- q))); lia|].
    replace (n * T * 10 ^ Z.max 0 (- q)) with (n * 10 ^ Z.max 0 (- q) * T) by ring. rewrite H2.
    replace (c * 10 ^ Z.max 0 q * d * T) with (c * (10 ^ Z.max 0 q * T) * d) by ring. replace (c * P10 q * d * 10 ^ Z.max 0 (- q)) with (c * (P10 q * 10 ^ Z.max 0 (- q)) * d) by ring.
    do 2 f_equal. unfold P10, T. rewrite <- !Z.pow_add_r by lia. f_equal. lia. }
  split; [|split; [|split]].
  - exists c, (Z.max 0 (- q)), (Z.max 0 q). split; [lia|]. split; [lia|]. split; [lia|exact H2].
  - rewrite (same_value_double n d c q Hd H2) in HR. rewrite (stands_encode _ _ _ _ H), <- HR. now apply encode_rounded.
  - intros n' d' j' Hn' Hd' HR'. apply HMIN; try easy. now apply (rounded_double neg _ _ b).
  - intros n' d' Hn' Hd' HR' HSh. pose proof (HNEAR n' d' Hn' Hd' (rounded_double neg _ _ b m E Hn' Hd' H HR') HSh) as HNF. unfold not_farther in *. fold UNIT in *. pose proof T_pos as HT.
    set (v := m * 2 ^ E) in *. clearbody v. rewrite abs_mul_pos in * by easy. rewrite abs_mul_pos in * by easy.
    apply (Z.mul_le_mono_pos_r _ _ T HT). rewrite !abs_mul_pos by easy. apply (Z.mul_le_mono_nonneg_r _ _ d ltac:(lia)) in HNF. rewrite !abs_mul_pos in HNF by easy.
    replace ((n * UNIT - v * d) * d' * T) with ((n * T * UNIT - v * d * T) * d') by ring. rewrite HV.
    replace ((c * P10 q * d * UNIT - v * d * T) * d') with ((c * P10 q * UNIT - v * T) * d' * d) by ring.
    replace ((n' * UNIT - v * d') * d * T) with ((n' * UNIT - v * d') * T * d) by ring. exact HNF.
Qed.
