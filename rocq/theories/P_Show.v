(** * Proofs: the texts of spans and entries (C64), parts *)
From Verif Require Import M_Base M_Codec M_Cal M_Time M_Span M_Dt M_Cmp M_Show.
From Verif Require Import S_Codec S_Dt S_Show.
From Verif Require Import P_Base P_Cal P_Codec P_Dt.
From Coq Require Import Lia ZifyBool ZifyNat ZifyN.
Open Scope Z_scope.

(** ** Texts that can be told apart *)
Definition ends (p : N -> bool) (x : list N) : Prop := exists c r, x = c :: r /\ p c = false.
Lemma span_inj p a : forall b x y, forallb p a = true -> forallb p b = true -> ends p x -> ends p y -> a ++ x = b ++ y -> a = b /\ x = y.
Proof.
  induction a as [|c a IH]; intros [|d b] x y HA HB X Y H; cbn [app] in H.
  - now split.
  - destruct X as (e & r & -> & HE). injection H as -> _. cbn in HB. rewrite HE in HB. discriminate.
  - destruct Y as (e & r & -> & HE). injection H as <- _. cbn in HA. rewrite HE in HA. discriminate.
  - injection H as <- H. cbn [forallb] in HA, HB. apply andb_true_iff in HA as [_ HA], HB as [_ HB]. destruct (IH b x y HA HB X Y H) as [-> ->]. now split.
Qed.
Fixpoint prefix (a b : list N) : bool :=
  match a, b with [], _ => true | x :: a', y :: b' => N.eqb x y && prefix a' b' | _, _ => false end.
Lemma clash a : forall b x y, prefix a b = false -> prefix b a = false -> a ++ x = b ++ y -> False.
Proof.
  induction a as [|c a IH]; intros [|d b] x y A B H; try discriminate. cbn [prefix] in A, B. injection H as -> H. rewrite N.eqb_refl in A, B. exact (IH b x y A B H).
Qed.
Lemma pref_app a b : prefix a (a ++ b) = true.
Proof. induction a as [|c a IH]; [reflexivity|]. cbn. now rewrite N.eqb_refl. Qed.
Ltac clash_in H := apply clash in H; [exact H|reflexivity|reflexivity].
Ltac fixed_char := unfold ends; eexists; eexists; split; [reflexivity|reflexivity].
Ltac peel H D := apply (span_inj is_digit) in H as [D H]; [|first [apply pad_digits|apply dec_digits]|first [apply pad_digits|apply dec_digits]|fixed_char|fixed_char].

(* [lia] without the equations between texts *)
Ltac qlia := repeat match goal with H : @eq (list N) _ _ |- _ => clear H end; lia.
Lemma padz_inj k n m : 0 <= n -> 0 <= m -> pad k (Z.to_N n) = pad k (Z.to_N m) -> n = m.
Proof. intros A B H. apply (f_equal undec) in H. rewrite !undec_pad in H. qlia. Qed.
Lemma decz_inj n m : 0 <= n -> 0 <= m -> dec (Z.to_N n) = dec (Z.to_N m) -> n = m.
Proof. intros A B H. apply dec_inj in H. qlia. Qed.

Definition past_frac (c : N) : bool := is_digit c || N.eqb c 46.
Lemma ends_digit x : ends past_frac x -> ends is_digit x.
Proof. intros (c & r & -> & H). exists c, r. split; [reflexivity|]. apply orb_false_iff in H. tauto. Qed.
Lemma frac_inj u v x y : 0 <= u -> 0 <= v -> ends past_frac x -> ends past_frac y -> frac_str u ++ x = frac_str v ++ y -> u = v /\ x = y.
Proof.
  intros U V X Y H. unfold frac_str in H. destruct (Z.eqb_spec u 0) as [->|NU], (Z.eqb_spec v 0) as [->|NV]; [now split| | |].
  - exfalso. destruct X as (c & r & -> & HC). injection H as -> _. discriminate.
  - exfalso. destruct Y as (c & r & -> & HC). injection H as <- _. discriminate.
  - rewrite <- !app_assoc in H. apply app_inv_head in H. apply (span_inj is_digit) in H as [D H]; [|apply pad_digits|apply pad_digits|now apply ends_digit|now apply ends_digit].
    split; [now apply (padz_inj 6)|exact H].
Qed.

(** What follows a value: a space or the closing bracket. *)
Definition stops (x : list N) : Prop := exists r, x = 32%N :: r \/ x = 62%N :: r.
Lemma stops_frac x : stops x -> ends past_frac x.
Proof. intros (r & [-> | ->]); fixed_char. Qed.
Lemma stops_digit x : stops x -> ends is_digit x.
Proof. intro S. now apply ends_digit, stops_frac. Qed.
(** Splitting a number of microseconds into a clock reading. *)
Lemma clock_split t : 0 <= t -> t = ((t / (3600 * US_SEC) * 60 + t / (60 * US_SEC) mod 60) * 60 + t / US_SEC mod 60) * US_SEC + t mod US_SEC /\
  0 <= t / (3600 * US_SEC) /\ 0 <= t / (60 * US_SEC) mod 60 < 60 /\ 0 <= t / US_SEC mod 60 < 60 /\ 0 <= t mod US_SEC < US_SEC /\ t mod (60 * US_SEC) = t / US_SEC mod 60 * US_SEC + t mod US_SEC.
Proof. intro T. unfold US_SEC. qlia. Qed.
Lemma offset_sign off : exists c r, offset_str off = c :: r /\ (c = 43 \/ c = 45)%N.
Proof. unfold offset_str. destruct (off <? 0); eexists; eexists; (split; [reflexivity|auto]). Qed.
Lemma offset_inj a b x y : stops x -> stops y -> offset_str a ++ x = offset_str b ++ y -> a = b /\ x = y.
Proof.
  intros X Y H. unfold offset_str in H. cbv zeta in H. rewrite <- !app_assoc in H.
  assert (SG : (a <? 0) = (b <? 0)) by (destruct (a <? 0), (b <? 0); [reflexivity|exfalso; clash_in H|exfalso; clash_in H|reflexivity]).
  rewrite SG in H. apply app_inv_head in H. pose proof (clock_split (Z.abs a) ltac:(qlia)) as (A1 & A2 & A3 & A4 & A5 & A6). pose proof (clock_split (Z.abs b) ltac:(qlia)) as (B1 & B2 & B3 & B4 & B5 & B6).
  set (ha := Z.abs a / (3600 * US_SEC)) in *. set (hb := Z.abs b / (3600 * US_SEC)) in *.
  set (ma := Z.abs a / (60 * US_SEC) mod 60) in *. set (mb := Z.abs b / (60 * US_SEC) mod 60) in *.
  set (sa := Z.abs a / US_SEC mod 60) in *. set (sb := Z.abs b / US_SEC mod 60) in *. set (ua := Z.abs a mod US_SEC) in *. set (ub := Z.abs b mod US_SEC) in *.
  rewrite A6, B6 in H. clearbody ha hb ma mb sa sb ua ub. unfold z2 in H. peel H DH. apply padz_inj in DH; [|qlia|qlia]. apply app_inv_head in H.
  assert (T : forall s u z, stops z -> ends is_digit ((if s * US_SEC + u =? 0 then [] else py ":" ++ pad 2 (Z.to_N s) ++ frac_str u) ++ z)).
  { intros s u z Z. destruct (s * US_SEC + u =? 0); [now apply stops_digit|fixed_char]. }
  apply (span_inj is_digit) in H as [DM H]; [|apply pad_digits|apply pad_digits|now apply T|now apply T]. apply padz_inj in DM; [|qlia|qlia]. subst hb mb.
  unfold US_SEC in *. destruct (Z.eqb_spec (sa * 1000000 + ua) 0) as [EA|NA], (Z.eqb_spec (sb * 1000000 + ub) 0) as [EB|NB]; cbn [app] in H.
  - subst y. split; [qlia|reflexivity].
  - exfalso. destruct X as (r & [-> | ->]); injection H as H; discriminate.
  - exfalso. destruct Y as (r & [-> | ->]); injection H as H; discriminate.
  - rewrite <- !app_assoc in H. apply app_inv_head in H.
    assert (F : forall u z, stops z -> ends is_digit (frac_str u ++ z)) by (intros u z Z; unfold frac_str; destruct (u =? 0); [now apply stops_digit|fixed_char]).
    apply (span_inj is_digit) in H as [DS H]; [|apply pad_digits|apply pad_digits|now apply F|now apply F]. apply padz_inj in DS; [|qlia|qlia]. subst sb.
    apply frac_inj in H as [-> H]; [|qlia|qlia|now apply stops_frac|now apply stops_frac]. split; [qlia|exact H].
Qed.
Lemma offset_opt_inj a b x y : stops x -> stops y ->
  match a with None => [] | Some o => offset_str o end ++ x = match b with None => [] | Some o => offset_str o end ++ y -> a = b /\ x = y.
Proof.
  intros X Y H. destruct a as [a|], b as [b|]; cbn [app] in H.
  - apply offset_inj in H as [-> H]; now try split.
  - exfalso. destruct (offset_sign a) as (c & r & E & C). rewrite E in H. destruct Y as (s & [-> | ->]); injection H as -> _; destruct C; discriminate.
  - exfalso. destruct (offset_sign b) as (c & r & E & C). rewrite E in H. destruct X as (s & [-> | ->]); injection H as <- _; destruct C; discriminate.
  - now split.
Qed.

Lemma fields_nonneg w : wall_ok w = true -> let f := fields_of w in
  (1 <= f_y f <= 9999 /\ 1 <= f_m f <= 12 /\ 1 <= f_d f <= 31) /\ (0 <= f_H f < 24 /\ 0 <= f_M f < 60 /\ 0 <= f_S f < 60 /\ 0 <= f_us f < 1000000).
Proof.
  intro W. cbv zeta. destruct (fields_of_valid w W) as [D T]. unfold valid_time in T. split; [|qlia]. unfold valid_date in D.
  pose proof (days_in_month_pos (f_y (fields_of w)) (f_m (fields_of w))) as M. lia.
Qed.
Section Codes.
Variable E : env.
Lemma dt_str_inj a b x y : wall_ok (wall a) = true -> wall_ok (wall b) = true -> stops x -> stops y -> dt_str E a ++ x = dt_str E b ++ y ->
  wall a = wall b /\ utcoffset E a = utcoffset E b /\ x = y.
Proof.
  intros WA WB X Y H. unfold dt_str in H. cbv zeta in H. rewrite <- (wall_of_fields (wall a)), <- (wall_of_fields (wall b)).
  pose proof (fields_nonneg _ WA) as FA. pose proof (fields_nonneg _ WB) as FB. cbv zeta in FA, FB. set (f := fields_of (wall a)) in *. set (g := fields_of (wall b)) in *.
  rewrite <- !app_assoc in H. unfold z2 in H. peel H D1. apply app_inv_head in H. peel H D2. apply app_inv_head in H. peel H D3. apply app_inv_head in H. peel H D4. apply app_inv_head in H. peel H D5. apply app_inv_head in H.
  assert (OE : forall o z, stops z -> ends past_frac (match o with None => [] | Some o => offset_str o end ++ z)).
  { intros [o|] z Z; [|now apply stops_frac]. destruct (offset_sign o) as (c & r & -> & [-> | ->]); fixed_char. }
  assert (F : forall u o z, stops z -> ends is_digit (frac_str u ++ match o with None => [] | Some o => offset_str o end ++ z)) by (intros u o z Z; unfold frac_str; destruct (u =? 0); [now apply ends_digit, OE|fixed_char]).
  apply (span_inj is_digit) in H as [D6 H]; [|apply pad_digits|apply pad_digits|now apply F|now apply F].
  apply padz_inj in D1, D2, D3, D4, D5, D6; try qlia. apply frac_inj in H as [D7 H]; [|qlia|qlia|now apply OE|now apply OE].
  apply offset_opt_inj in H as [D8 H]; [|assumption|assumption]. split; [|now split]. unfold wall_of. now rewrite D1, D2, D3, D4, D5, D6, D7.
Qed.
Lemma date_str_inj a b x y : wall_ok (wall a) = true -> wall_ok (wall b) = true -> stops x -> stops y -> date_str a ++ x = date_str b ++ y ->
  wall a / 86400000000 = wall b / 86400000000 /\ x = y.
Proof.
  intros WA WB X Y H. unfold date_str in H. cbv zeta in H.
  assert (DN : forall w, w / 86400000000 = ymd2ord (f_y (fields_of w)) (f_m (fields_of w)) (f_d (fields_of w)) - 1).
  { intro w. pose proof (ord2ymd_spec (w / US_DAY + 1)) as HS. unfold fields_of. destruct (ord2ymd (w / US_DAY + 1)) as [[y0 m0] d0] eqn:EO. cbn [f_y f_m f_d]. unfold US_DAY, US_SEC in HS. change (24 * 60 * 60 * 1000000) with 86400000000 in HS. cbn in HS. qlia. }
  rewrite !DN. pose proof (fields_nonneg _ WA) as FA. pose proof (fields_nonneg _ WB) as FB. cbv zeta in FA, FB. set (f := fields_of (wall a)) in *. set (g := fields_of (wall b)) in *.
  rewrite <- !app_assoc in H. unfold z2 in H. peel H D1. apply app_inv_head in H. peel H D2. apply app_inv_head in H.
  apply (span_inj is_digit) in H as [D3 H]; [|apply pad_digits|apply pad_digits|now apply stops_digit|now apply stops_digit].
  apply decz_inj in D1; [|qlia|qlia]. apply padz_inj in D2, D3; try qlia. rewrite D1, D2, D3. now split.
Qed.
End Codes.
Lemma td_str_inj a b x y : stops x -> stops y -> td_str a ++ x = td_str b ++ y -> a = b /\ x = y.
Proof.
  intros X Y H. unfold td_str in H. cbv zeta in H.
  assert (TA : 0 <= a mod US_DAY < US_DAY) by (apply Z.mod_pos_bound; reflexivity). assert (TB : 0 <= b mod US_DAY < US_DAY) by (apply Z.mod_pos_bound; reflexivity).
  pose proof (Z.div_mod a US_DAY ltac:(discriminate)) as QA. pose proof (Z.div_mod b US_DAY ltac:(discriminate)) as QB.
  set (da := a / US_DAY) in *. set (db := b / US_DAY) in *. set (ta := a mod US_DAY) in *. set (tb := b mod US_DAY) in *. clearbody da db ta tb.
  pose proof (clock_split ta ltac:(qlia)) as (A1 & A2 & A3 & A4 & A5 & A6). pose proof (clock_split tb ltac:(qlia)) as (B1 & B2 & B3 & B4 & B5 & B6). clear A6 B6.
  set (ha := ta / (3600 * US_SEC)) in *. set (hb := tb / (3600 * US_SEC)) in *.
  set (ma := ta / (60 * US_SEC) mod 60) in *. set (mb := tb / (60 * US_SEC) mod 60) in *.
  set (sa := ta / US_SEC mod 60) in *. set (sb := tb / US_SEC mod 60) in *. set (ua := ta mod US_SEC) in *. set (ub := tb mod US_SEC) in *. clearbody ha hb ma mb sa sb ua ub.
  assert (C : forall x y, stops x -> stops y -> (zdec ha ++ py ":" ++ z2 ma ++ py ":" ++ z2 sa ++ frac_str ua) ++ x = (zdec hb ++ py ":" ++ z2 mb ++ py ":" ++ z2 sb ++ frac_str ub) ++ y -> ta = tb /\ x = y).
  { clear x y X Y H. intros x y X Y H. rewrite <- !app_assoc in H. unfold z2, zdec in H. peel H D1. apply app_inv_head in H. peel H D2. apply app_inv_head in H.
    assert (F : forall u z, stops z -> ends is_digit (frac_str u ++ z)) by (intros u z Z; unfold frac_str; destruct (u =? 0); [now apply stops_digit|fixed_char]).
    apply (span_inj is_digit) in H as [D3 H]; [|apply pad_digits|apply pad_digits|now apply F|now apply F]. apply decz_inj in D1; [|qlia|qlia]. apply padz_inj in D2, D3; try qlia.
    apply frac_inj in H as [D4 H]; [|qlia|qlia|now apply stops_frac|now apply stops_frac]. split; [qlia|exact H]. }
  rewrite <- app_assoc in H. rewrite <- (app_assoc (if db =? 0 then _ else _)) in H.
  assert (NS : forall d, d <> 0 -> exists sg n, int_serialize d = sg ++ dec (Z.to_N n) /\ 0 < n /\ (sg = [] /\ d = n \/ sg = [45%N] /\ d = - n)).
  { intros d ND. unfold int_serialize. destruct (Z.ltb_spec d 0); [exists [45%N], (- d)|exists [], d].
    - split; [reflexivity|]. split; [qlia|]. right. split; [reflexivity|qlia].
    - split; [reflexivity|]. split; [qlia|]. left. now split. }
  assert (ZC : forall n r, exists c q, zdec n ++ r = c :: q /\ is_digit c = true).
  { intros n r. pose proof (dec_digits (Z.to_N n)) as DD. pose proof (dec_nonempty (Z.to_N n)) as DE. unfold zdec. destruct (dec (Z.to_N n)) as [|c q]; [now destruct DE|]. cbn in DD. apply andb_true_iff in DD. exists c, (q ++ r). cbn. tauto. }
  destruct (Z.eqb_spec da 0) as [-> | NA], (Z.eqb_spec db 0) as [-> | NB]; cbn [app] in H.
  - apply C in H as [TT H]; [|assumption|assumption]. split; [qlia|exact H].
  - exfalso. destruct (NS db NB) as (sg & n & ES & N0 & [[-> _]|[-> _]]); rewrite ES in H; rewrite <- !app_assoc in H; cbn [app] in H.
    + unfold zdec in H. apply (span_inj is_digit) in H as [_ H]; [clash_in H|apply dec_digits|apply dec_digits|fixed_char|fixed_char].
    + destruct (ZC ha (py ":" ++ z2 ma ++ py ":" ++ z2 sa ++ frac_str ua ++ x)) as (c & q & EZ & HC). rewrite EZ in H. injection H as -> _. discriminate.
  - exfalso. destruct (NS da NA) as (sg & n & ES & N0 & [[-> _]|[-> _]]); rewrite ES in H; rewrite <- !app_assoc in H; cbn [app] in H.
    + unfold zdec in H. apply (span_inj is_digit) in H as [_ H]; [clash_in H|apply dec_digits|apply dec_digits|fixed_char|fixed_char].
    + destruct (ZC hb (py ":" ++ z2 mb ++ py ":" ++ z2 sb ++ frac_str ub ++ y)) as (c & q & EZ & HC). rewrite EZ in H. injection H as <- _. discriminate.
  - destruct (NS da NA) as (sg & n & ES & N0 & SD), (NS db NB) as (sg' & n' & ES' & N0' & SD'). rewrite ES, ES' in H. rewrite <- !app_assoc in H.
    assert (SS : sg = sg').
    { destruct SD as [[-> _]|[-> _]], SD' as [[-> _]|[-> _]]; try reflexivity; exfalso; cbn [app] in H.
      - destruct (ZC n (py " day" ++ (if Z.abs da =? 1 then [] else py "s") ++ py ", " ++ zdec ha ++ py ":" ++ z2 ma ++ py ":" ++ z2 sa ++ frac_str ua ++ x)) as (c & q & EZ & HC). unfold zdec at 1 in EZ. rewrite EZ in H. injection H as -> _. discriminate.
      - destruct (ZC n' (py " day" ++ (if Z.abs db =? 1 then [] else py "s") ++ py ", " ++ zdec hb ++ py ":" ++ z2 mb ++ py ":" ++ z2 sb ++ frac_str ub ++ y)) as (c & q & EZ & HC). unfold zdec at 1 in EZ. rewrite EZ in H. injection H as <- _. discriminate. }
    subst sg'. apply app_inv_head in H. peel H DN. apply decz_inj in DN; [|qlia|qlia]. subst n'. assert (DD : da = db) by (destruct SD as [[-> ->]|[-> ->]], SD' as [[? ?]|[? ?]]; (qlia || discriminate)). subst db.
    apply app_inv_head in H. apply app_inv_head in H. apply app_inv_head in H. rewrite !app_assoc in H. rewrite <- !app_assoc in H.
    assert (H' : (zdec ha ++ py ":" ++ z2 ma ++ py ":" ++ z2 sa ++ frac_str ua) ++ x = (zdec hb ++ py ":" ++ z2 mb ++ py ":" ++ z2 sb ++ frac_str ub) ++ y) by (rewrite <- !app_assoc; exact H).
    apply C in H' as [TT HX]; [|assumption|assumption]. split; [qlia|exact HX].
Qed.
