(** * Proofs about the texts accepted as numbers *)
From Verif Require Import M_Base P_Base M_Codec S_Codec P_Codec M_Float S_Float P_Float P_Float2 P_Float3.
From Coq Require Import Lia ZifyBool ZifyNat ZifyN.
Open Scope Z_scope.

(** ** White space *)
Lemma blank_space t : blank t <-> forallb is_space t = true.
Proof.
  unfold blank, is_space. rewrite forallb_forall. split; intros H c HI; specialize (H c HI); lia.
Qed.
Lemma lstrip_split s : exists l r, s = l ++ r /\ forallb is_space l = true /\ lstrip_space s = r /\ match r with c :: _ => is_space c = false | [] => True end.
Proof.
  induction s as [|c s IH]; [now exists [], []|]. cbn [lstrip_space]. destruct (is_space c) eqn:EC.
  - destruct IH as (l & r & -> & H1 & H2 & H3). exists (c :: l), r. cbn [app forallb]. now rewrite EC, H1.
  - exists [], (c :: s). now rewrite EC.
Qed.
Lemma lstrip_app l r : forallb is_space l = true -> lstrip_space (l ++ r) = lstrip_space r.
Proof. induction l as [|c l IH]; [easy|]. cbn [forallb app lstrip_space]. intros (-> & H)%andb_true_iff. now apply IH. Qed.
Lemma forallb_rev {A} (f : A -> bool) l : forallb f (rev l) = forallb f l.
Proof. induction l as [|a l IH]; [easy|]. cbn [rev forallb]. rewrite forallb_app, IH. cbn [forallb]. now rewrite andb_true_r, andb_comm. Qed.
(** What is between the white space has none at its ends. *)
Definition trimmed (s : str) : Prop := match s with c :: _ => is_space c = false | [] => True end /\ match rev s with c :: _ => is_space c = false | [] => True end.
Lemma strip_split s : exists l r, s = l ++ strip_space s ++ r /\ blank l /\ blank r.
Proof.
  destruct (lstrip_split s) as (l & r & -> & H1 & H2 & H3). unfold strip_space. rewrite H2.
  destruct (lstrip_split (rev r)) as (l' & r' & E & H1' & H2' & _). rewrite H2'. exists l, (rev l').
  rewrite <- (rev_involutive r), E, rev_app_distr at 1. split; [easy|]. split; [now apply blank_space|]. apply blank_space. now rewrite forallb_rev.
Qed.
Lemma strip_trimmed l s r : blank l -> blank r -> trimmed s -> strip_space (l ++ s ++ r) = s.
Proof.
  intros HL HR (T1 & T2). apply blank_space in HL, HR. unfold strip_space. rewrite lstrip_app by easy. destruct s as [|c s].
  - cbn [app]. destruct (lstrip_split r) as (a & b & -> & H1 & H2 & H3). rewrite H2. rewrite forallb_app in HR. apply andb_true_iff in HR as (_ & HR).
    destruct b as [|c b]; [easy|]. cbn [forallb] in HR. rewrite H3 in HR. discriminate.
  - rewrite (lstrip_id ((c :: s) ++ r)) by exact T1. rewrite rev_app_distr, lstrip_app by (now rewrite forallb_rev).
    rewrite lstrip_id by exact T2. apply rev_involutive.
Qed.

(** ** Digits *)
Definition rest_ok (r : str) : Prop := match r with [] => True | c :: r' => is_digit c = false /\ (c = 95%N -> starts_digit r' = false) end.
Lemma run_complete t ds r : forall p, under t ds -> rest_ok r -> digit_run p (t ++ r) = (ds, r).
Proof.
  intros p H HR. revert p. induction H as [c HC|c t ds HC H IH|c t ds HC H IH]; intros p; cbn [app digit_run];
    rewrite (proj2 (is_digit_spec c) HC).
  - destruct r as [|a r]; [easy|]. cbn [digit_run]. destruct HR as (-> & HR). destruct (N.eqb_spec a 95) as [E|]; [|easy].
    rewrite (HR E). now rewrite andb_false_r.
  - now rewrite IH.
  - cbn [digit_run]. change (is_digit 95) with false. change (95 =? 95)%N with true.
    assert (starts_digit (t ++ r) = true) as -> by (destruct H as [a H|a u v H _|a u v H _]; cbn [app starts_digit]; now apply is_digit_spec).
    cbn [andb]. now rewrite IH.
Qed.
Lemma run_sound s : forall p ds r, digit_run p s = (ds, r) ->
  (rest_ok r \/ p = false /\ ds = []) /\ ((ds = [] /\ r = s) \/ exists t, under t ds /\ (s = t ++ r \/ p = true /\ s = 95%N :: t ++ r)).
Proof.
  induction s as [|c s IH]; intros p ds r H; cbn [digit_run] in H.
  - injection H as <- <-. split; [now left|now left].
  - destruct (is_digit c) eqn:EC.
    + destruct (digit_run true s) as [ds' r'] eqn:ER. injection H as <- <-. destruct (IH _ _ _ ER) as (HR & HT).
      destruct HR as [HR|(HR & _)]; [|discriminate]. split; [now left|]. right. apply is_digit_spec in EC.
      destruct HT as [(-> & ->)|(t & HU & [-> |(_ & ->)])].
      * exists [c]. split; [now constructor|now left].
      * exists (c :: t). split; [now constructor|now left].
      * exists (c :: 95%N :: t). split; [now constructor|now left].
    + destruct (N.eqb_spec c 95) as [->|HN]; [destruct p; [destruct (starts_digit s) eqn:ES|]|]; cbn [andb] in H.
      * destruct (IH _ _ _ H) as (HR & HT). destruct s as [|a s]; [discriminate|]. cbn [starts_digit] in ES.
        assert (ds <> []). { intros ->. cbn [digit_run] in H. rewrite ES in H. destruct (digit_run true s). discriminate. }
        split; [destruct HR as [HR|(_ & HR)]; [now left|easy]|]. right. destruct HT as [(HT & _)|(t & HU & [-> |(HT & _)])]; [easy| |discriminate].
        exists t. split; [easy|]. right. now split.
      * injection H as <- <-. split; [left; now split|now left].
      * injection H as <- <-. split; [right; now split|now left].
      * injection H as <- <-. split; [left; split; [easy|congruence]|now left].
Qed.
(** At the start of a number. *)
Lemma run_start s ds r : digit_run false s = (ds, r) -> exists t, s = t ++ r /\ maybe_under t ds.
Proof.
  intros H. destruct (run_sound _ _ _ _ H) as (_ & [(-> & ->)|(t & HU & [-> |(HT & _)])]); [exists []; split; [easy|constructor]|exists t; split; [easy|now constructor]|discriminate].
Qed.
Lemma under_cons t ds : under t ds -> exists c t' ds', t = c :: t' /\ ds = c :: ds' /\ (48 <= c <= 57)%N.
Proof. intros [c H|c t' ds' H _|c t' ds' H _]; eauto 8. Qed.
Definition no_digit (r : str) : Prop := match r with [] => True | c :: _ => is_digit c = false /\ c <> 95%N end.
Lemma no_digit_rest r : no_digit r -> rest_ok r.
Proof. destruct r as [|c r]; [easy|]. now intros (H & HN). Qed.
Lemma run_maybe t ds r : maybe_under t ds -> no_digit r -> digit_run false (t ++ r) = (ds, r).
Proof.
  intros [|t' ds' H] HR; [|now apply run_complete; [easy|apply no_digit_rest]].
  cbn [app]. destruct r as [|c r]; [easy|]. cbn [digit_run]. destruct HR as (-> & HN). destruct (N.eqb_spec c 95); [easy|easy].
Qed.

(** ** Signs, exponents, numbers *)
Lemma sign_take s neg t : sign s neg -> match t with c :: _ => c <> 45%N /\ c <> 43%N | [] => True end -> take_sign (s ++ t) = (neg, t).
Proof.
  intros [(-> & ->)|[(-> & ->)|(-> & ->)]] HT; [|easy|easy]. cbn [app]. destruct t as [|c t]; [easy|]. cbn [take_sign].
  destruct HT as (H1 & H2). unfold c_dash, c_plus. destruct (N.eqb_spec c 45); [easy|]. destruct (N.eqb_spec c 43); [easy|easy].
Qed.
Lemma take_sign_inv s neg t : take_sign s = (neg, t) -> exists g, s = g ++ t /\ sign g neg.
Proof.
  unfold take_sign, sign. destruct s as [|c s]; [intros [= <- <-]; exists []; auto|]. unfold c_dash, c_plus.
  destruct (N.eqb_spec c 45) as [->|]; [intros [= <- <-]; exists (py "-"); auto|]. destruct (N.eqb_spec c 43) as [->|]; intros [= <- <-]; [exists (py "+"); auto|exists []; auto].
Qed.
Lemma exponent_complete e x : exponent e x -> read_exponent e = Some x.
Proof.
  intros [|e' s neg t ds HE HS HU]; [easy|]. destruct (under_cons _ _ HU) as (c & t' & ds' & Et & Ed & HC).
  assert (HT : take_sign (s ++ t) = (neg, t)) by (apply sign_take; [easy|rewrite Et; lia]).
  assert (HR : digit_run false t = (ds, [])) by (rewrite <- (app_nil_r t); now apply run_complete).
  destruct HE as [-> | ->]; [change (py "e" ++ s ++ t) with (101%N :: s ++ t)|change (py "E" ++ s ++ t) with (69%N :: s ++ t)]; unfold read_exponent;
    rewrite HT, HR, Ed; destruct neg; cbn [N.eqb Pos.eqb orb]; apply (f_equal Some); lia.
Qed.
Lemma exponent_sound e x : read_exponent e = Some x -> exponent e x.
Proof.
  unfold read_exponent. destruct e as [|c e]; [intros [= <-]; constructor|]. destruct (N.eqb c 101 || N.eqb c 69) eqn:EC; [|discriminate].
  destruct (take_sign e) as [neg s] eqn:ES. destruct (digit_run false s) as [ds r] eqn:ER. destruct ds as [|d ds]; [discriminate|]. destruct r as [|]; [|discriminate].
  intros [= <-]. apply take_sign_inv in ES as (g & -> & HG). apply run_start in ER as (t & E & HU). rewrite app_nil_r in E. subst t.
  inversion HU as [|t' ds' HU' E1 E2]; subst.
  assert (HX : exponent ([c] ++ g ++ s) (if neg then - Z.of_N (undec (d :: ds)) else Z.of_N (undec (d :: ds)))).
  { constructor; [|easy|easy]. apply orb_true_iff in EC as [EC|EC]; apply N.eqb_eq in EC as ->; [now left|now right]. }
  cbn [app] in HX. replace ((if neg then -1 else 1) * Z.of_N (undec (d :: ds))) with (if neg then - Z.of_N (undec (d :: ds)) else Z.of_N (undec (d :: ds))) by (destruct neg; lia). easy.
Qed.
Lemma exponent_no_digit e x : exponent e x -> no_digit e /\ match e with [] => True | c :: _ => c <> 46%N end.
Proof. intros [|e' s neg t ds [-> | ->] _ _]; easy. Qed.
Definition fraction (v x k : Z) : Z * Z := (v * 10 ^ Z.max 0 (x - k), 10 ^ Z.max 0 (k - x)).
Lemma fraction_eq v x k : (if 0 <=? x - k then (v * 10 ^ (x - k), 1) else (v, 10 ^ (- (x - k)))) = fraction v x k.
Proof.
  unfold fraction. destruct (Z.leb_spec 0 (x - k)).
  - rewrite (Z.max_r 0 (x - k)), (Z.max_l 0 (k - x)) by lia. easy.
  - rewrite (Z.max_l 0 (x - k)), (Z.max_r 0 (k - x)) by lia. rewrite Z.pow_0_r, Z.mul_1_r. do 2 f_equal. lia.
Qed.
Lemma number_complete m ds k e x : mantissa m ds k -> exponent e x -> read_number (m ++ e) = Some (fraction (Z.of_N (undec ds)) x k).
Proof.
  intros HM HE. destruct (exponent_no_digit _ _ HE) as (HN & HP). unfold read_number. destruct HM as [t ds HU|a u b v HA HB HX].
  - rewrite (run_complete t ds e false HU (no_digit_rest _ HN)).
    assert (EP : match e with c :: r' => if (c =? 46)%N then digit_run false r' else ([], e) | [] => ([], e) end = ([], e)).
    { destruct e as [|c e]; [easy|]. now destruct (N.eqb_spec c 46). }
    rewrite EP, app_nil_r. destruct (under_cons _ _ HU) as (c & t' & ds' & _ & Ed & _). rewrite (exponent_complete _ _ HE).
    rewrite Ed. cbv zeta. cbn [length Z.of_nat]. cbv zeta. now rewrite fraction_eq.
  - rewrite <- !app_assoc. rewrite (run_maybe a u) by easy. change (py "." ++ b ++ e) with (46%N :: b ++ e). cbv iota beta. change (46 =? 46)%N with true. cbv iota.
    rewrite (run_maybe b v) by easy. destruct (u ++ v) as [|c r] eqn:E; [easy|]. rewrite (exponent_complete _ _ HE). cbv zeta. now rewrite fraction_eq.
Qed.
Lemma some_inj {A} (a b : A) : Some a = Some b -> a = b.
Proof. congruence. Qed.
Lemma number_sound s n d : read_number s = Some (n, d) -> exists m ds k e x, s = m ++ e /\ mantissa m ds k /\ exponent e x /\ (n, d) = fraction (Z.of_N (undec ds)) x k.
Proof.
  unfold read_number. destruct (digit_run false s) as [ip r] eqn:ER. apply run_start in ER as (a & -> & HA).
  destruct r as [|c r].
  - rewrite app_nil_r. destruct ip as [|i ip]; [discriminate|]. cbv zeta. cbn [read_exponent length Z.of_nat]. rewrite fraction_eq. intros HQ%some_inj.
    inversion HA as [|t ds HU]; subst. exists a, (i :: ip), 0, [], 0. rewrite app_nil_r. split; [easy|]. split; [now constructor|]. split; [constructor|]. now rewrite HQ.
  - destruct (N.eqb_spec c 46) as [->|HN].
    + destruct (digit_run false r) as [fp r'] eqn:EF. apply run_start in EF as (b & -> & HB). destruct (ip ++ fp) as [|i l] eqn:EI; [discriminate|].
      destruct (read_exponent r') as [x|] eqn:EX; [|discriminate]. cbv zeta. rewrite fraction_eq. intros HQ%some_inj. apply exponent_sound in EX. rewrite <- EI in HQ.
      exists (a ++ py "." ++ b), (ip ++ fp), (Z.of_nat (length fp)), r', x. split; [now rewrite <- !app_assoc|].
      split; [constructor; [easy|easy|now rewrite EI]|]. split; [easy|]. now rewrite HQ.
    + rewrite app_nil_r. destruct ip as [|i ip]; [discriminate|]. destruct (read_exponent (c :: r)) as [x|] eqn:EX; [|discriminate]. cbv zeta. cbn [length Z.of_nat]. rewrite fraction_eq. intros HQ%some_inj.
      apply exponent_sound in EX. inversion HA as [|t ds HU]; subst. exists a, (i :: ip), 0, (c :: r), x. split; [easy|]. split; [now constructor|]. split; [easy|]. now rewrite HQ.
Qed.

(** ** Words *)
Lemma spells_lower w u : (forall c, In c w -> (97 <= c <= 122)%N) -> (spells w u <-> lower_ascii u = w).
Proof.
  unfold spells, lower_ascii. revert u. induction w as [|a w IH]; intros u HW.
  - split; [now intros H; inversion H|]. destruct u; [constructor|discriminate].
  - assert (HA : (97 <= a <= 122)%N) by (apply HW; now left). split.
    + intros H. inversion H as [|? b ? u' HB HU]; subst. cbn [map]. f_equal; [|apply IH; [intros; apply HW; now right|easy]].
      destruct HB as [->|(_ & ->)]; [destruct (N.leb_spec 65 a), (N.leb_spec a 90)|destruct (N.leb_spec 65 (a - 32)), (N.leb_spec (a - 32) 90)]; cbn [andb]; lia.
    + destruct u as [|b u]; [discriminate|]. cbn [map]. intros H. injection H as H1 H2. constructor; [|apply IH; [intros; apply HW; now right|easy]].
      revert H1. destruct (N.leb_spec 65 b), (N.leb_spec b 90); cbn [andb]; intros; lia.
Qed.
Definition words : list str := [py "inf"; py "infinity"; py "nan"].
Lemma words_letters w : In w words -> (forall c, In c w -> (97 <= c <= 122)%N) /\ w <> [].
Proof.
  intros H. assert (F : forallb (fun w => forallb (fun c => (97 <=? c) && (c <=? 122))%N w && negb (str_eqb w [])) words = true) by reflexivity.
  rewrite forallb_forall in F. specialize (F w H). apply andb_true_iff in F as (F & F'). rewrite forallb_forall in F. split; [intros c HC; specialize (F c HC); lia|now intros ->].
Qed.
Lemma spells_letter w u c : In w words -> spells w u -> In c u -> ((65 <= c <= 90) \/ (97 <= c <= 122))%N.
Proof.
  intros HW HS HC. apply words_letters in HW as (HW & _). unfold spells in HS. induction HS as [|a b w u HB HS IH]; [easy|].
  assert (97 <= a <= 122)%N by (apply HW; now left). destruct HC as [<-|HC]; [lia|]. apply IH; [intros; apply HW; now right|easy].
Qed.
(** ** Characters at the ends *)
Lemma ends_trimmed a s : s <> [] -> (forall c, In c (a ++ s) -> is_space c = false) -> trimmed (a ++ s).
Proof.
  intros HS H. split; [|rewrite rev_app_distr].
  - destruct (a ++ s) as [|c r]; [easy|]. apply H. now left.
  - destruct (rev s) as [|c r] eqn:E; [destruct s; [easy|apply (f_equal (@rev N)) in E; rewrite rev_involutive in E; discriminate]|].
    cbn [app]. apply H, in_or_app. right. apply in_rev. rewrite E. now left.
Qed.
Lemma under_chars t ds c : under t ds -> In c t -> (48 <= c <= 57)%N \/ c = 95%N.
Proof. intros H. induction H as [a Ha|a t ds Ha H IH|a t ds Ha H IH]; cbn [In]; intuition lia. Qed.
Lemma maybe_chars t ds c : maybe_under t ds -> In c t -> (48 <= c <= 57)%N \/ c = 95%N.
Proof. intros [|t' ds' H]; [easy|]. now apply under_chars with ds'. Qed.
Lemma sign_chars s neg c : sign s neg -> In c s -> c = 43%N \/ c = 45%N.
Proof. intros [(-> & _)|[(-> & _)|(-> & _)]] H; [easy| |]; destruct H as [<-|[]]; auto. Qed.
Lemma mantissa_chars m ds k c : mantissa m ds k -> In c m -> (48 <= c <= 57)%N \/ c = 95%N \/ c = 46%N.
Proof.
  intros [t ds' H|a x b y HA HB _] HI; [destruct (under_chars _ _ _ H HI); auto|].
  apply in_app_or in HI as [HI|HI]; [destruct (maybe_chars _ _ _ HA HI); auto|]. apply in_app_or in HI as [[<-|[]]|HI]; [auto|]. destruct (maybe_chars _ _ _ HB HI); auto.
Qed.
Lemma exponent_chars e x c : exponent e x -> In c e -> (48 <= c <= 57)%N \/ c = 95%N \/ c = 43%N \/ c = 45%N \/ c = 69%N \/ c = 101%N.
Proof.
  intros [|e' s neg t ds HE HS HU] HI; [easy|]. apply in_app_or in HI as [HI|HI].
  - destruct HE as [-> | ->]; destruct HI as [<-|[]]; auto 8.
  - apply in_app_or in HI as [HI|HI]; [destruct (sign_chars _ _ _ HS HI); auto 8|destruct (under_chars _ _ _ HU HI); auto 8].
Qed.
Lemma mantissa_cons m ds k : mantissa m ds k -> exists c r, m = c :: r /\ ((48 <= c <= 57)%N \/ c = 46%N).
Proof.
  intros [t ds' H|a x b y HA HB _].
  - destruct (under_cons _ _ H) as (c & t' & _ & -> & _ & HC). eauto.
  - destruct HA as [|a x H]; [exists 46%N; cbn; eauto|]. destruct (under_cons _ _ H) as (c & t' & _ & -> & _ & HC). cbn [app]. eauto.
Qed.
(** ** Both directions *)
Lemma numeral_read t neg n d : numeral t neg n d -> fl_read t = Ok (encode neg (double_of n d)).
Proof.
  intros (l & s & m & ds & k & e & x & r & -> & HL & HR & HS & HM & HE & -> & ->).
  destruct (mantissa_cons _ _ _ HM) as (c & q & Em & HC).
  assert (ET : trimmed (s ++ m ++ e)).
  { apply ends_trimmed; [rewrite Em; discriminate|]. intros a HI. apply not_true_is_false. unfold is_space. intros HA.
    apply in_app_or in HI as [HI|HI]; [apply (sign_chars _ _ _ HS) in HI; lia|]. apply in_app_or in HI as [HI|HI]; [apply (mantissa_chars _ _ _ _ HM) in HI|apply (exponent_chars _ _ _ HE) in HI]; lia. }
  unfold fl_read. replace (l ++ s ++ m ++ e ++ r) with (l ++ (s ++ m ++ e) ++ r) by (now rewrite <- !app_assoc). rewrite strip_trimmed by easy.
  rewrite (sign_take s neg (m ++ e)) by (try easy; rewrite Em; cbn [app]; lia).
  assert (HW : forall w, In w words -> str_eqb (lower_ascii (m ++ e)) w = false).
  { intros w HI. apply words_letters in HI as (HI & HN). destruct w as [|a w]; [easy|]. specialize (HI a (or_introl eq_refl)).
    rewrite Em. unfold lower_ascii. cbn [app map str_eqb]. destruct (N.leb_spec 65 c); [lia|]. cbn [andb]. destruct (N.eqb_spec c a); [lia|easy]. }
  assert (str_in (lower_ascii (m ++ e)) [py "inf"; py "infinity"] = false) as ->.
  { unfold str_in. cbn [existsb]. rewrite !HW by (cbn; auto). reflexivity. }
  rewrite HW by (cbn; auto). rewrite (number_complete _ _ _ _ _ HM HE). reflexivity.
Qed.
Lemma numeral_bounds t neg n d : numeral t neg n d -> 0 <= n /\ 0 < d.
Proof.
  intros (l & s & m & ds & k & e & x & r & _ & _ & _ & _ & _ & _ & -> & ->). split; [apply Z.mul_nonneg_nonneg; [lia|apply Z.pow_nonneg; lia]|apply Z.pow_pos_nonneg; lia].
Qed.
Lemma word_read w t neg : In w words -> word_of w t neg -> fl_read t = Ok (encode neg (if str_eqb w (py "nan") then DNan else DInf)).
Proof.
  intros HW (l & s & u & r & -> & HL & HR & HS & HU). pose proof (words_letters _ HW) as (HA & HN).
  assert (HNE : u <> []). { intros ->. inversion HU; subst. now apply HN. }
  assert (ET : trimmed (s ++ u)).
  { apply ends_trimmed; [easy|]. intros a HI. apply not_true_is_false. unfold is_space. intros HB.
    apply in_app_or in HI as [HI|HI]; [apply (sign_chars _ _ _ HS) in HI; lia|]. apply (spells_letter _ _ _ HW HU) in HI. lia. }
  unfold fl_read. replace (l ++ s ++ u ++ r) with (l ++ (s ++ u) ++ r) by (now rewrite <- !app_assoc). rewrite strip_trimmed by easy.
  rewrite (sign_take s neg u). 2: easy. 2: { destruct u as [|c u]; [easy|]. pose proof (spells_letter _ _ c HW HU (or_introl eq_refl)). lia. }
  apply (spells_lower w u HA) in HU. rewrite HU. destruct HW as [<-|[<-|[<-|[]]]]; reflexivity.
Qed.
Lemma read_text t P : float_text t P -> exists b, fl_read t = Ok b /\ P b.
Proof.
  intros [t' neg n d H|t' neg w HW H|t' neg H].
  - destruct (numeral_bounds _ _ _ _ H) as (Hn & Hd). eexists. split; [apply numeral_read; exact H|]. now apply encode_rounded.
  - assert (HI : In w words) by (destruct HW as [-> | ->]; cbn; auto). eexists. split; [apply (word_read w _ _ HI H)|].
    destruct HW as [-> | ->]; destruct neg; reflexivity.
  - eexists. split; [apply (word_read (py "nan") _ _ ltac:(cbn; auto) H)|]. destruct neg; reflexivity.
Qed.
Lemma read_inv t b : fl_read t = Ok b -> exists P, float_text t P.
Proof.
  unfold fl_read. destruct (strip_split t) as (l & r & ET & HL & HR). destruct (take_sign (strip_space t)) as [neg u] eqn:ES.
  apply take_sign_inv in ES as (g & EG & HG).
  assert (EW : t = l ++ g ++ u ++ r) by (rewrite ET, EG, <- !app_assoc; reflexivity).
  assert (W : forall w, In w words -> str_eqb (lower_ascii u) w = true -> word_of w t neg).
  { intros w HW HQ. apply str_eqb_eq in HQ. exists l, g, u, r. repeat (split; [easy|]). apply spells_lower; [now apply words_letters|easy]. }
  destruct (str_in (lower_ascii u) [py "inf"; py "infinity"]) eqn:EI.
  { intros _. unfold str_in in EI. cbn [existsb] in EI. destruct (str_eqb (lower_ascii u) (py "inf")) eqn:E1; [|destruct (str_eqb (lower_ascii u) (py "infinity")) eqn:E2; [|discriminate]].
    - eexists. eapply FT_inf; [left; reflexivity|]. apply W; [cbn; auto|exact E1].
    - eexists. eapply FT_inf; [right; reflexivity|]. apply W; [cbn; auto|exact E2]. }
  destruct (str_eqb (lower_ascii u) (py "nan")) eqn:EN.
  { intros _. eexists. eapply FT_nan. apply W; [cbn; auto|exact EN]. }
  destruct (read_number u) as [[n d]|] eqn:ER; [|discriminate]. intros _. apply number_sound in ER as (m & ds & k & e & x & -> & HM & HE & HQ).
  eexists. apply (FT_number t neg n d). injection HQ as -> ->. exists l, g, m, ds, k, e, x, r. rewrite EW, <- !app_assoc. auto 10.
Qed.
Lemma read_err t e : fl_read t = Err e -> e = ValueError /\ forall P, ~ float_text t P.
Proof.
  intros H. split; [|intros P HP; apply read_text in HP as (b & HB & _); congruence]. revert H. unfold fl_read. destruct (take_sign (strip_space t)) as [neg u].
  destruct (str_in _ _); [discriminate|]. destruct (str_eqb _ _); [discriminate|]. destruct (read_number u) as [[n d]|]; [discriminate|]. congruence.
Qed.
