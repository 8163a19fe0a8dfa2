(** * Proofs about DURATION, UTC-OFFSET, BOOLEAN, INTEGER and BINARY *)
From Verif Require Import M_Base P_Base M_Codec S_Codec.
From Coq Require Import Lia ZifyBool ZifyNat ZifyN.
Ltac Zify.zify_post_hook ::= Z.div_mod_to_equations.
Open Scope Z_scope.

(** ** Seconds of a duration *)
Lemma round_half_even_exact k b : 0 < b -> round_half_even (k * b) b = k.
Proof.
  intros H. unfold round_half_even. rewrite Z.div_mul, Z.mod_mul by lia.
  destruct (Z.ltb_spec (2 * 0) b); lia.
Qed.

Lemma int_total_seconds_whole s : 0 <= s < 2 ^ 53 -> int_total_seconds (s * US_SEC) = s.
Proof.
  intros H. unfold int_total_seconds. destruct (Z.ltb_spec (s * US_SEC) US_SEC) as [Hl|Hl].
  - unfold US_SEC in Hl. lia.
  - unfold float_exp. rewrite Z.div_mul by (unfold US_SEC; lia).
    assert (Hs : 1 <= s) by (unfold US_SEC in Hl; lia).
    assert (HL : 0 <= Z.log2 s <= 52).
    { split; [apply Z.log2_nonneg|]. apply Z.lt_succ_r. apply Z.log2_lt_pow2; [lia|].
      change (Z.succ 52) with 53. lia. }
    set (e := 52 - Z.log2 s). assert (He : 0 <= e) by (unfold e; lia).
    replace (s * US_SEC * 2 ^ e) with ((s * 2 ^ e) * US_SEC) by ring.
    rewrite round_half_even_exact by (unfold US_SEC; lia).
    apply Z.div_mul. apply Z.pow_nonzero; lia.
Qed.

Lemma int_total_seconds_floor n : 0 <= n < 2 ^ 34 * US_SEC -> int_total_seconds n = n / US_SEC.
Proof.
  intros H. unfold int_total_seconds. destruct (Z.ltb_spec n US_SEC) as [Hl|Hl].
  - symmetry. apply Z.div_small. lia.
  - set (q := n / US_SEC). unfold float_exp. fold q.
    assert (Hq : 1 <= q < 2 ^ 34).
    { unfold q. split.
      - apply Z.div_le_lower_bound; unfold US_SEC in *; lia.
      - apply Z.div_lt_upper_bound; unfold US_SEC in *; lia. }
    assert (HL : 0 <= Z.log2 q <= 33).
    { split; [apply Z.log2_nonneg|]. apply Z.lt_succ_r. apply Z.log2_lt_pow2; [lia|].
      change (Z.succ 33) with 34. lia. }
    set (e := 52 - Z.log2 q). assert (He : 19 <= e) by (unfold e; lia).
    set (p := 2 ^ e). assert (Hp : 2 ^ 19 <= p) by (apply Z.pow_le_mono_r; lia).
    change (2 ^ 19) with 524288 in Hp.
    set (r := n mod US_SEC).
    assert (Hn : n = q * US_SEC + r) by (unfold q, r; pose proof (Z.div_mod n US_SEC); unfold US_SEC in *; lia).
    assert (Hr : 0 <= r <= 999999) by (unfold r; pose proof (Z.mod_pos_bound n US_SEC); unfold US_SEC in *; lia).
    assert (HB : q * p <= round_half_even (n * p) US_SEC < (q + 1) * p).
    { unfold round_half_even. set (q' := n * p / US_SEC). set (r' := (n * p) mod US_SEC).
      assert (Hd : n * p = US_SEC * q' + r') by (apply Z.div_mod; unfold US_SEC; lia).
      assert (Hr' : 0 <= r' < US_SEC) by (apply Z.mod_pos_bound; unfold US_SEC; lia).
      assert (Hlo : q * p <= q') by (unfold US_SEC in *; nia).
      assert (Hhi : q' < (q + 1) * p) by (unfold US_SEC in *; nia).
      destruct (Z.ltb_spec (2 * r') US_SEC); [lia|].
      assert (q' + 1 < (q + 1) * p).
      { assert (q' + 1 <> (q + 1) * p); [|lia]. intros E.
        assert (E2 : q' = q * p + p - 1) by lia. rewrite E2, Hn in Hd. unfold US_SEC in *. nia. }
      destruct (US_SEC <? 2 * r'); [lia|]. destruct (Z.even q'); lia. }
    symmetry. apply (Z.div_unique _ _ q (round_half_even (n * p) US_SEC - q * p)); [left; lia|]. ring.
Qed.

(** ** Reading durations *)
Definition stop_at (r : str) : Prop := match r with [] => True | c :: _ => is_digit c = false end.

Lemma span_digits_app ds r : forallb is_digit ds = true -> stop_at r ->
  span_digits (ds ++ r) = (ds, r).
Proof.
  induction ds as [|c ds IH]; intros H Hr; cbn [app].
  - destruct r as [|c r]; [easy|]. cbn in *. now rewrite Hr.
  - cbn in H. apply andb_true_iff in H as [H1 H2]. cbn [span_digits]. rewrite H1.
    now rewrite IH.
Qed.
Lemma span_digits_spec s : forall ds r, span_digits s = (ds, r) ->
  s = ds ++ r /\ forallb is_digit ds = true /\ stop_at r.
Proof.
  induction s as [|c s IH]; intros ds r H; cbn in H.
  - injection H as <- <-. easy.
  - destruct (is_digit c) eqn:E.
    + destruct (span_digits s) as [d0 r0]. injection H as <- <-.
      destruct (IH _ _ eq_refl) as (-> & H1 & H2). cbn. now rewrite E.
    + injection H as <- <-. easy.
Qed.

Lemma unit_get_None c t : unit_get c t = None <-> ~ In c (map fst t).
Proof.
  induction t as [|[k v] t IH]; cbn; [easy|]. destruct (N.eqb_spec c k) as [->|Hn].
  - split; [easy|]. intros H. exfalso. apply H. now left.
  - destruct (unit_get c t) as [[w r]|].
    + split; [easy|]. intros H. exfalso. destruct IH as [_ IH]. 
      assert (@None (Z * list (N * Z)) = None) by easy. 
      assert (Some (w, r) = None) by (apply IH; tauto). easy.
    + split; [|easy]. intros _ [->|H]; [easy|]. now apply IH.
Qed.
Lemma unit_get_Some c t : forall v t', unit_get c t = Some (v, t') ->
  exists a b, t = a ++ (c, v) :: b /\ t' = a ++ b.
Proof.
  induction t as [|[k w] t IH]; intros v t' H; cbn in H; [easy|].
  destruct (N.eqb_spec c k) as [->|Hn].
  - injection H as <- <-. now exists [], t.
  - destruct (unit_get c t) as [[x r]|]; [|easy]. injection H as <- <-.
    destruct (IH _ _ eq_refl) as (a & b & -> & ->). now exists ((k, w) :: a), b.
Qed.

(** Tables that agree with [sec_of]. *)
Definition tables (D S : list (char * Z)) : Prop :=
  NoDup (map fst D ++ map fst S) /\
  (forall k v, In (k, v) D -> sec_of k = Some (v * 86400)) /\
  (forall k v, In (k, v) S -> sec_of k = Some v).
Definition avail (D S : list (char * Z)) (k : char) : Prop := In k (map fst D) \/ In k (map fst S).

Lemma tables0 : tables DAYS0 SECS0.
Proof.
  split; [|split].
  - cbn. repeat constructor; cbn; intuition discriminate.
  - intros k v [[= <- <-]|[[= <- <-]|[]]]; reflexivity.
  - intros k v [[= <- <-]|[[= <- <-]|[[= <- <-]|[]]]]; reflexivity.
Qed.
Lemma avail0 k : avail DAYS0 SECS0 k <-> exists v, sec_of k = Some v.
Proof.
  unfold avail, sec_of. cbn. split.
  - intros [[<-|[<-|[]]]|[<-|[<-|[<-|[]]]]]; eexists; reflexivity.
  - intros [v H].
    repeat match type of H with context [if N.eqb ?a ?b then _ else _] =>
      destruct (N.eqb_spec a b); [subst; tauto|] end. easy.
Qed.

Lemma tables_D a b c v S : tables (a ++ (c, v) :: b) S ->
  tables (a ++ b) S /\ (forall k, avail (a ++ b) S k <-> avail (a ++ (c, v) :: b) S k /\ k <> c) /\
  sec_of c = Some (v * 86400).
Proof.
  intros (H1 & H2 & H3). rewrite map_app in H1. cbn in H1. rewrite <- app_assoc in H1. cbn in H1.
  split; [|split].
  - split; [|split].
    + rewrite map_app, <- app_assoc. now apply NoDup_remove_1 in H1.
    + intros k w Hin. apply H2. apply in_app_or in Hin. apply in_or_app. cbn. tauto.
    + exact H3.
  - intros k. unfold avail. rewrite !map_app. cbn. rewrite !in_app_iff. cbn.
    apply NoDup_remove_2 in H1. rewrite !in_app_iff in H1. split.
    + intros H. split; [tauto|]. intros ->. tauto.
    + intros [H Hn]. intuition congruence.
  - apply H2. apply in_or_app. right. now left.
Qed.
Lemma tables_S a b c v D : tables D (a ++ (c, v) :: b) ->
  tables D (a ++ b) /\ (forall k, avail D (a ++ b) k <-> avail D (a ++ (c, v) :: b) k /\ k <> c) /\
  sec_of c = Some v.
Proof.
  intros (H1 & H2 & H3). rewrite map_app in H1. cbn in H1. rewrite app_assoc in H1.
  split; [|split].
  - split; [|split].
    + rewrite map_app, app_assoc. now apply NoDup_remove_1 in H1.
    + exact H2.
    + intros k w Hin. apply H3. apply in_app_or in Hin. apply in_or_app. cbn. tauto.
  - intros k. unfold avail. rewrite !map_app. cbn. rewrite !in_app_iff. cbn.
    apply NoDup_remove_2 in H1. rewrite !in_app_iff in H1. split.
    + intros H. split; [tauto|]. intros ->. tauto.
    + intros [H Hn]. intuition congruence.
  - apply H3. apply in_or_app. right. now left.
Qed.

Lemma number_digits ds v : number ds v -> ds <> [] /\ forallb is_digit ds = true /\ v = Z.of_N (undec ds).
Proof.
  intros (H1 & H2 & H3). split; [easy|]. split; [|easy]. apply forallb_forall.
  intros c Hc. apply is_digit_spec. now apply H2.
Qed.
Lemma digits_number ds : ds <> [] -> forallb is_digit ds = true -> number ds (Z.of_N (undec ds)).
Proof.
  intros H1 H2. split; [easy|]. split; [|easy]. intros c Hc. apply is_digit_spec.
  rewrite forallb_forall in H2. now apply H2.
Qed.

Lemma loop_complete parts : forall f tail D S d s,
  Forall part_ok parts -> NoDup (map p_unit parts) ->
  (forall p, In p parts -> avail D S (p_unit p)) -> tables D S ->
  (tail = [] \/ tail = [84%N]) -> (length parts < f)%nat ->
  exists d' s', duration_loop f (render_all parts ++ tail) D S d s = Ok (d', s') /\
    d' * 86400 + s' = d * 86400 + s + total_secs parts.
Proof.
  induction parts as [|p parts IH]; intros f tail D S d s Hok Hnd Hav Ht Htail Hf.
  - destruct f as [|f]; [lia|]. exists d, s. split; [|cbn; lia].
    destruct Htail as [->| ->]; reflexivity.
  - destruct f as [|f]; [lia|]. cbn in Hf.
    inversion Hok as [|? ? [[v Hnum] [k Hk]] Hok']; subst.
    inversion Hnd as [|? ? Hni Hnd']; subst.
    apply number_digits in Hnum as (Hne & Hdig & Hv).
    set (u := p_unit p) in *.
    assert (Hud : is_digit u = false).
    { unfold sec_of in Hk. unfold is_digit.
      repeat match type of Hk with context [if N.eqb ?a ?b then _ else _] =>
        destruct (N.eqb_spec a b) as [Heq|]; [rewrite Heq; reflexivity|] end. easy. }
    set (rest := render_all parts ++ tail).
    assert (E1 : render_all (p :: parts) ++ tail =
      (if p_t p then [84%N] else []) ++ p_digits p ++ u :: rest).
    { unfold render_all. cbn [map concat]. unfold render at 1. rewrite <- !app_assoc. reflexivity. }
    rewrite E1.
    assert (E2 : duration_loop (Datatypes.S f) ((if p_t p then [84%N] else []) ++ p_digits p ++ u :: rest) D S d s =
      match unit_get u D with
      | Some (k, D') => duration_loop f rest D' S (d + Z.of_N (undec (p_digits p)) * k) s
      | None => match unit_get u S with
                | Some (k, S') => duration_loop f rest D S' d (s + Z.of_N (undec (p_digits p)) * k)
                | None => Err ValueError end end).
    { cbn [duration_loop]. destruct (p_digits p) as [|c ds] eqn:Ed; [easy|].
      assert (Hc : is_digit c = true) by (cbn in Hdig; now apply andb_true_iff in Hdig).
      assert (HcT : N.eqb c 84 = false) by (apply is_digit_spec in Hc; lia).
      assert (Hs : (let s1 := if p_t p then (c :: ds) ++ u :: rest else (c :: ds) ++ u :: rest in s1) = (c :: ds) ++ u :: rest)
        by now destruct (p_t p).
      assert (Hgo : forall X, X = (c :: ds) ++ u :: rest ->
        match X with
        | [] => Ok (d, s)
        | _ :: _ =>
          let '(ds0, r) := span_digits X in
          match r with
          | [] => Err IndexError
          | u0 :: r' =>
              match ds0 with
              | [] => Err ValueError
              | _ :: _ =>
                  let val := Z.of_N (undec ds0) in
                  match unit_get u0 D with
                  | Some (k0, DAYS') => duration_loop f r' DAYS' S (d + val * k0) s
                  | None =>
                      match unit_get u0 S with
                      | Some (k0, SECS') => duration_loop f r' D SECS' d (s + val * k0)
                      | None => Err ValueError
                      end
                  end
              end
          end
        end = match unit_get u D with
      | Some (k, D') => duration_loop f rest D' S (d + Z.of_N (undec (c :: ds)) * k) s
      | None => match unit_get u S with
                | Some (k, S') => duration_loop f rest D S' d (s + Z.of_N (undec (c :: ds)) * k)
                | None => Err ValueError end end).
      { intros X ->. rewrite (span_digits_app (c :: ds) (u :: rest)) by easy. reflexivity. }
      destruct (p_t p); cbn [app].
      - change (N.eqb 84 84) with true. cbn iota. exact (Hgo _ eq_refl).
      - rewrite HcT. exact (Hgo _ eq_refl). }
    rewrite E2.
    assert (Hps : part_secs p = Z.of_N (undec (p_digits p)) * k).
    { unfold part_secs. fold u. now rewrite Hk. }
    destruct (unit_get u D) as [[w D']|] eqn:EU.
    + apply unit_get_Some in EU as (a & b & -> & ->).
      destruct (tables_D _ _ _ _ _ Ht) as (Ht' & Hav' & Hsec). rewrite Hk in Hsec. injection Hsec as ->.
      destruct (IH f tail (a ++ b) S (d + Z.of_N (undec (p_digits p)) * w) s) as (d' & s' & E & HS); auto; try lia.
      { intros q Hq. apply Hav'. split; [apply Hav; now right|]. intros He. apply Hni. rewrite <- He. now apply in_map. }
      exists d', s'. split; [exact E|]. cbn [total_secs fold_right] in *. unfold total_secs in HS. lia.
    + apply unit_get_None in EU. assert (Hin := Hav p (or_introl eq_refl)). fold u in Hin.
      destruct Hin as [Hin|Hin]; [easy|].
      destruct (unit_get u S) as [[w S']|] eqn:EU2.
      * apply unit_get_Some in EU2 as (a & b & -> & ->).
        destruct (tables_S _ _ _ _ _ Ht) as (Ht' & Hav' & Hsec). rewrite Hk in Hsec. injection Hsec as ->.
        destruct (IH f tail D (a ++ b) d (s + Z.of_N (undec (p_digits p)) * w)) as (d' & s' & E & HS); auto; try lia.
        { intros q Hq. apply Hav'. split; [apply Hav; now right|]. intros He. apply Hni. rewrite <- He. now apply in_map. }
        exists d', s'. split; [exact E|]. cbn [total_secs fold_right] in *. unfold total_secs in HS. lia.
      * now apply unit_get_None in EU2.
Qed.

Lemma loop_sound f : forall s0 D S d s,
  tables D S -> (length s0 < f)%nat ->
  match duration_loop f s0 D S d s with
  | Ok (d', s') => exists parts tail, s0 = render_all parts ++ tail /\ (tail = [] \/ tail = [84%N]) /\
      Forall part_ok parts /\ NoDup (map p_unit parts) /\ (forall p, In p parts -> avail D S (p_unit p)) /\
      d' * 86400 + s' = d * 86400 + s + total_secs parts
  | Err e => e = ValueError \/ e = IndexError
  end.
Proof.
  induction f as [|f IH]; intros s0 D S d s Ht Hf; [lia|].
  cbn [duration_loop]. destruct s0 as [|c s0].
  { exists [], []. split; [easy|]. split; [now left|]. split; [constructor|]. split; [constructor|]. split; [easy|]. cbn; lia. }
  set (s1 := if N.eqb c 84 then s0 else c :: s0).
  set (t := N.eqb c 84).
  assert (E0 : c :: s0 = (if t then [84%N] else []) ++ s1 /\ (length s1 <= Datatypes.S (length s0))%nat).
  { unfold s1, t. destruct (N.eqb_spec c 84); [subst; split; [easy|lia]|split; [easy|cbn; lia]]. }
  destruct E0 as [E0 HL]. cbn in Hf.
  destruct s1 as [|c1 s1'] eqn:Es1.
  { exists [], [84%N]. assert (c :: s0 = [84%N]) as ->.
    { clear - E0. destruct t; [exact E0|discriminate E0]. }
    split; [easy|]. split; [now right|]. split; [constructor|]. split; [constructor|]. split; [easy|]. cbn; lia. }
  destruct (span_digits (c1 :: s1')) as [ds r] eqn:ESp.
  apply span_digits_spec in ESp as (E1 & Hdig & Hstop).
  destruct r as [|u r']; [now right|].
  destruct ds as [|d0 ds]; [now left|].
  set (dd := d0 :: ds) in *.
  assert (Hlen : (length r' < f)%nat).
  { rewrite E1 in HL. rewrite app_length in HL. cbn in HL. lia. }
  assert (HX : c :: s0 = render (mk_part t dd u) ++ r').
  { rewrite E0, E1. unfold render. cbn [p_t p_digits p_unit]. rewrite <- !app_assoc. reflexivity. }
  destruct (unit_get u D) as [[w D']|] eqn:EU.
  - apply unit_get_Some in EU as (a & b & -> & ->).
    destruct (tables_D _ _ _ _ _ Ht) as (Ht' & Hav' & Hsec).
    specialize (IH r' (a ++ b) S (d + Z.of_N (undec dd) * w) s Ht' Hlen).
    destruct (duration_loop f r' (a ++ b) S _ s) as [[d' s']|e]; [|exact IH].
    destruct IH as (parts & tail & -> & Htl & Hok & Hnd & Hav & HS).
    exists (mk_part t dd u :: parts), tail. split.
    { rewrite HX. unfold render_all. cbn [map concat]. now rewrite <- app_assoc. }
    split; [easy|]. split.
    { constructor; [|easy]. split; [|eexists; exact Hsec]. eexists. now apply digits_number. }
    split.
    { cbn. constructor; [|easy]. intros Hin. apply in_map_iff in Hin as (q & Hq & Hin).
      apply Hav in Hin. apply Hav' in Hin. destruct Hin as [_ Hn]. now apply Hn. }
    split.
    { intros p [<-|Hp]; [|now apply Hav', Hav]. left. rewrite map_app, in_app_iff. right. now left. }
    cbn [total_secs fold_right]. unfold part_secs at 1. cbn [p_unit p_digits]. rewrite Hsec.
    unfold total_secs in HS. lia.
  - destruct (unit_get u S) as [[w S']|] eqn:EU2; [|now left].
    apply unit_get_Some in EU2 as (a & b & -> & ->).
    destruct (tables_S _ _ _ _ _ Ht) as (Ht' & Hav' & Hsec).
    specialize (IH r' D (a ++ b) d (s + Z.of_N (undec dd) * w) Ht' Hlen).
    destruct (duration_loop f r' D (a ++ b) d _) as [[d' s']|e]; [|exact IH].
    destruct IH as (parts & tail & -> & Htl & Hok & Hnd & Hav & HS).
    exists (mk_part t dd u :: parts), tail. split.
    { rewrite HX. unfold render_all. cbn [map concat]. now rewrite <- app_assoc. }
    split; [easy|]. split.
    { constructor; [|easy]. split; [|eexists; exact Hsec]. eexists. now apply digits_number. }
    split.
    { cbn. constructor; [|easy]. intros Hin. apply in_map_iff in Hin as (q & Hq & Hin).
      apply Hav in Hin. apply Hav' in Hin. destruct Hin as [_ Hn]. now apply Hn. }
    split.
    { intros p [<-|Hp]; [|now apply Hav', Hav]. right. rewrite map_app, in_app_iff. right. now left. }
    cbn [total_secs fold_right]. unfold part_secs at 1. cbn [p_unit p_digits]. rewrite Hsec.
    unfold total_secs in HS. lia.
Qed.

(** [duration_parse] as a function of sign and body. *)
Definition dur_body (sign : Z) (s2 : str) : res Z :=
  do (days, secs) <- duration_loop (S (length s2)) s2 DAYS0 SECS0 0 0;
  timedelta ((sign * days * 86400 + sign * secs) * US_SEC).

Lemma render_len ps : Forall part_ok ps -> (length ps <= length (render_all ps))%nat /\
  (ps <> [] -> (length ps < length (render_all ps))%nat).
Proof.
  unfold render_all. induction 1 as [|p ps [[v (Hne & _)] _] HF IH]; cbn [map concat length]; [split; [lia|easy]|].
  assert (2 <= length (render p))%nat.
  { unfold render. rewrite !app_length. destruct (p_digits p); [easy|]. cbn [length]. lia. }
  rewrite !app_length. split; [|intros _]; lia.
Qed.

Lemma accepted_parse s secs : Accepted s secs ->
  duration_parse s = timedelta (secs * US_SEC).
Proof.
  intros (sign & parts & tail & Hsign & Htail & Hok & Hnd & ->).
  set (body := render_all parts ++ tail).
  assert (HB : forall k, dur_body k body = timedelta (k * total_secs parts * US_SEC)).
  { intros k. unfold dur_body.
    destruct (loop_complete parts (S (length body)) tail DAYS0 SECS0 0 0) as (d & s & E & HS); auto.
    - intros p Hp. apply avail0. rewrite Forall_forall in Hok. now apply Hok.
    - apply tables0.
    - unfold body. rewrite app_length. destruct (render_len parts Hok) as [H1 H2]. lia.
    - fold body in E. rewrite E. cbn [bind]. f_equal. lia. }
  destruct Hsign as [[[->| ->] ->]|[-> ->]]; cbn [app].
  - change (dur_body 1 body = timedelta (total_secs parts * US_SEC)). rewrite HB; f_equal; lia.
  - change (dur_body 1 body = timedelta (total_secs parts * US_SEC)). rewrite HB; f_equal; lia.
  - change (dur_body (-1) body = timedelta (- total_secs parts * US_SEC)). rewrite HB; f_equal; lia.
Qed.

Lemma parse_accepted s us : duration_parse s = Ok us ->
  exists secs, Accepted s secs /\ us = secs * US_SEC.
Proof.
  intros H. unfold duration_parse in H. destruct s as [|c s]; [easy|].
  assert (HB : forall k body, dur_body k body = Ok us -> k = 1 \/ k = -1 ->
    exists parts tail, body = render_all parts ++ tail /\ (tail = [] \/ tail = [84%N]) /\
      Forall part_ok parts /\ NoDup (map p_unit parts) /\ us = k * total_secs parts * US_SEC).
  { clear. intros k body H Hk. unfold dur_body in H.
    pose proof (loop_sound (S (length body)) body DAYS0 SECS0 0 0 tables0 (Nat.lt_succ_diag_r _)) as HS.
    destruct (duration_loop (S (length body)) body DAYS0 SECS0 0 0) as [[d s]|e]; [|easy].
    destruct HS as (parts & tail & E & Ht & Hok & Hnd & _ & HS). exists parts, tail.
    repeat (split; [assumption|]). cbn [bind] in H. unfold timedelta in H.
    destruct (_ && _) in H; [|easy]. injection H as <-. f_equal. lia. }
  assert (HX : exists sign k body, c :: s = sign ++ 80%N :: body /\ dur_body k body = Ok us /\
    ((sign = [] \/ sign = py "+") /\ k = 1 \/ sign = py "-" /\ k = -1)).
  { destruct (N.eqb_spec c c_dash) as [->|Hd].
    - cbv iota beta in H. destruct s as [|p body]; [easy|]. destruct (N.eqb_spec p 80) as [->|]; [|easy].
      exists (py "-"), (-1), body. split; [easy|]. split; [exact H|]. now right.
    - destruct (N.eqb_spec c c_plus) as [->|Hp].
      + cbv iota beta in H. destruct s as [|p body]; [easy|]. destruct (N.eqb_spec p 80) as [->|]; [|easy].
        exists (py "+"), 1, body. split; [easy|]. split; [exact H|]. left. split; [now right|easy].
      + cbv iota beta in H. destruct (N.eqb_spec c 80) as [->|]; [|easy].
        exists [], 1, s. split; [easy|]. split; [exact H|]. left. split; [now left|easy]. }
  destruct HX as (sign & k & body & E & Hb & Hk).
  destruct (HB k body Hb) as (parts & tail & Ebody & Ht & Hok & Hnd & Hus); [tauto|].
  exists (k * total_secs parts). split; [|easy]. exists sign, parts, tail.
  split; [destruct Hk as [[Hs ->]|[Hs ->]]; [left|right]; (split; [easy|lia])|].
  split; [easy|]. split; [easy|]. split; [easy|]. rewrite E, Ebody. reflexivity.
Qed.

(** Exact behaviour of the parser. *)
Lemma duration_parse_exact s us : duration_parse s = Ok us <->
  exists secs, Accepted s secs /\ us = secs * US_SEC /\ TD_MIN <= us <= TD_MAX.
Proof.
  split.
  - intros H. destruct (parse_accepted _ _ H) as (secs & HA & Hus). exists secs. split; [easy|].
    split; [easy|]. apply accepted_parse in HA. rewrite HA in H. unfold timedelta in H.
    destruct (Z.leb_spec TD_MIN (secs * US_SEC)), (Z.leb_spec (secs * US_SEC) TD_MAX); try easy. lia.
  - intros (secs & HA & -> & Hr). rewrite (accepted_parse _ _ HA). unfold timedelta.
    destruct (Z.leb_spec TD_MIN (secs * US_SEC)), (Z.leb_spec (secs * US_SEC) TD_MAX); try easy; lia.
Qed.

Lemma duration_parse_overflow s : duration_parse s = Err OverflowError <->
  exists secs, Accepted s secs /\ ~ TD_MIN <= secs * US_SEC <= TD_MAX.
Proof.
  split.
  - intros H.
    assert (HB : exists sign k body, s = sign ++ 80%N :: body /\ dur_body k body = Err OverflowError /\
      ((sign = [] \/ sign = py "+") /\ k = 1 \/ sign = py "-" /\ k = -1)).
    { unfold duration_parse in H. destruct s as [|c s]; [easy|].
      destruct (N.eqb_spec c c_dash) as [->|Hd].
      - cbv iota beta in H. destruct s as [|p body]; [easy|]. destruct (N.eqb_spec p 80) as [->|]; [|easy].
        exists (py "-"), (-1), body. split; [easy|]. split; [exact H|]. now right.
      - destruct (N.eqb_spec c c_plus) as [->|Hp].
        + cbv iota beta in H. destruct s as [|p body]; [easy|]. destruct (N.eqb_spec p 80) as [->|]; [|easy].
          exists (py "+"), 1, body. split; [easy|]. split; [exact H|]. left. split; [now right|easy].
        + cbv iota beta in H. destruct (N.eqb_spec c 80) as [->|]; [|easy].
          exists [], 1, s. split; [easy|]. split; [exact H|]. left. split; [now left|easy]. }
    destruct HB as (sign & k & body & E & Hb & Hk). unfold dur_body in Hb.
    pose proof (loop_sound (S (length body)) body DAYS0 SECS0 0 0 tables0 (Nat.lt_succ_diag_r _)) as HS.
    destruct (duration_loop (S (length body)) body DAYS0 SECS0 0 0) as [[d s0]|e].
    + destruct HS as (parts & tail & Ebody & Ht & Hok & Hnd & _ & HS).
      exists (k * total_secs parts). split.
      * exists sign, parts, tail.
        split; [destruct Hk as [[Hs ->]|[Hs ->]]; [left|right]; (split; [easy|lia])|].
        split; [easy|]. split; [easy|]. split; [easy|]. rewrite E, Ebody. reflexivity.
      * cbn [bind] in Hb. unfold timedelta in Hb.
        replace (k * d * 86400 + k * s0) with (k * total_secs parts) in Hb by lia.
        intros HR. destruct (Z.leb_spec TD_MIN (k * total_secs parts * US_SEC)),
          (Z.leb_spec (k * total_secs parts * US_SEC) TD_MAX); try easy; lia.
    + cbn in Hb. injection Hb as ->. destruct HS; easy.
  - intros (secs & HA & Hr). rewrite (accepted_parse _ _ HA). unfold timedelta.
    destruct (Z.leb_spec TD_MIN (secs * US_SEC)), (Z.leb_spec (secs * US_SEC) TD_MAX); try easy; lia.
Qed.

Lemma duration_parse_errors s e : duration_parse s = Err e ->
  e = ValueError \/ e = IndexError \/ e = OverflowError.
Proof.
  intros H.
  assert (HB : forall k body, dur_body k body = Err e -> e = ValueError \/ e = IndexError \/ e = OverflowError).
  { clear. intros k body H. unfold dur_body in H.
    pose proof (loop_sound (S (length body)) body DAYS0 SECS0 0 0 tables0 (Nat.lt_succ_diag_r _)) as HS.
    destruct (duration_loop (S (length body)) body DAYS0 SECS0 0 0) as [[d s]|e0].
    - cbn in H. unfold timedelta in H. destruct (_ && _) in H; [easy|]. injection H as <-. tauto.
    - cbn in H. injection H as <-. tauto. }
  unfold duration_parse in H. destruct s as [|c s]; [injection H as <-; tauto|].
  destruct (N.eqb c c_dash); [|destruct (N.eqb c c_plus)]; cbv iota beta in H.
  - destruct s as [|p body]; [injection H as <-; tauto|]. destruct (N.eqb p 80); [|injection H as <-; tauto].
    exact (HB _ _ H).
  - destruct s as [|p body]; [injection H as <-; tauto|]. destruct (N.eqb p 80); [|injection H as <-; tauto].
    exact (HB _ _ H).
  - destruct (N.eqb c 80); [|injection H as <-; tauto]. exact (HB _ _ H).
Qed.

(** The RFC grammar is accepted with its value. *)
Definition Body (t : bool) (s : str) (v : Z) (units : list char) : Prop :=
  exists parts, s = render_all parts /\ Forall part_ok parts /\
    map p_unit parts = units /\ v = total_secs parts /\
    (t = true -> match parts with p :: _ => p_t p = true | [] => False end).

Lemma body_one (t : bool) ds v u k : number ds v -> sec_of u = Some k ->
  Forall part_ok [mk_part t ds u] /\ total_secs [mk_part t ds u] = k * v /\
  render_all [mk_part t ds u] = (if t then [84%N] else []) ++ ds ++ [u].
Proof.
  intros Hn Hk. split; [|split].
  - constructor; [|constructor]. split; [now exists v|now exists k].
  - cbn. unfold part_secs. cbn [p_unit p_digits]. rewrite Hk. destruct Hn as (_ & _ & ->). lia.
  - unfold render_all, render. cbn [map concat p_t p_digits p_unit]. now rewrite app_nil_r.
Qed.

Lemma render_all_cons p ps : render_all (p :: ps) = render p ++ render_all ps.
Proof. reflexivity. Qed.
Lemma total_cons p ps : total_secs (p :: ps) = part_secs p + total_secs ps.
Proof. reflexivity. Qed.

Inductive TBody (t : bool) (s : str) (v : Z) (us : list char) : Prop :=
  TB parts : (if t then [84%N] else []) ++ s = render_all parts -> Forall part_ok parts ->
    map p_unit parts = us -> v = total_secs parts -> TBody t s v us.

Lemma tb_one t ds v u k : number ds v -> sec_of u = Some k -> TBody t (ds ++ [u]) (k * v) [u].
Proof.
  intros Hn Hk. destruct (body_one t ds v u k Hn Hk) as (H1 & H2 & H3).
  apply (TB _ _ _ _ [mk_part t ds u]); try easy.
Qed.
Lemma tb_cons t ds v u k s w us : number ds v -> sec_of u = Some k -> TBody false s w us ->
  TBody t (ds ++ [u] ++ s) (k * v + w) (u :: us).
Proof.
  intros Hn Hk [parts E Hok Hu Hw]. apply (TB _ _ _ _ (mk_part t ds u :: parts)).
  - rewrite render_all_cons. unfold render. cbn [p_t p_digits p_unit]. cbn [app] in E. rewrite <- E.
    now rewrite <- !app_assoc.
  - constructor; [|easy]. split; [now exists v|now exists k].
  - cbn. now rewrite Hu.
  - rewrite total_cons, Hw. unfold part_secs. cbn [p_unit p_digits]. rewrite Hk.
    destruct Hn as (_ & _ & ->). lia.
Qed.

Lemma dursec_tb t s v : DurSecond s v -> TBody t s v [83%N].
Proof. intros [ds w Hn]. replace w with (1 * w) by lia. now apply tb_one. Qed.
Lemma durmin_tb t s v : DurMinute s v -> TBody t s v [77%N] \/ TBody t s v [77%N; 83%N].
Proof.
  intros [ds w Hn|ds w s' w' Hn Hs]; [left; now apply tb_one|right].
  apply (tb_cons t ds w 77%N 60 s' w'); try easy. now apply dursec_tb.
Qed.
Lemma durhour_tb t s v : DurHour s v -> exists us, TBody t s v us /\ incl us [72%N;77%N;83%N] /\ NoDup us.
Proof.
  intros [ds w Hn|ds w s' w' Hn Hs].
  - exists [72%N]. split; [now apply tb_one|]. split; [intros x [<-|[]]; cbn; tauto|]. repeat constructor. easy.
  - destruct (durmin_tb false _ _ Hs) as [H|H]; eexists; (split; [apply (tb_cons t ds w 72%N 3600 s' w'); [easy|easy|exact H]|]).
    + split; [intros x [<-|[<-|[]]]; cbn; tauto|]. repeat constructor; cbn; intuition discriminate.
    + split; [intros x [<-|[<-|[<-|[]]]]; cbn; tauto|]. repeat constructor; cbn; intuition discriminate.
Qed.
Lemma durtime_tb s v : DurTime s v -> exists us, TBody false s v us /\ incl us [72%N;77%N;83%N] /\ NoDup us.
Proof.
  assert (HT : forall s v us, TBody true s v us -> TBody false (py "T" ++ s) v us).
  { intros s0 v0 us [parts E Hok Hu Hw]. apply (TB _ _ _ _ parts); auto. }
  intros [s0 v0 H|s0 v0 H|s0 v0 H].
  - destruct (durhour_tb true _ _ H) as (us & H1 & H2). exists us. split; [now apply HT|easy].
  - destruct (durmin_tb true _ _ H) as [H1|H1]; apply HT in H1; eexists; (split; [exact H1|]).
    + split; [intros x [<-|[]]; cbn; tauto|]. repeat constructor; easy.
    + split; [intros x [<-|[<-|[]]]; cbn; tauto|]. repeat constructor; cbn; intuition discriminate.
  - exists [83%N]. split; [apply HT; now apply dursec_tb|].
    split; [intros x [<-|[]]; cbn; tauto|]. repeat constructor; easy.
Qed.
Lemma durbody_tb s v : DurBody s v -> exists us, TBody false s v us /\ NoDup us.
Proof.
  intros [ds w Hn|ds w s' w' Hn Hs|s' w' Hs|ds w Hn].
  - exists [68%N]. split; [now apply tb_one|]. repeat constructor; easy.
  - destruct (durtime_tb _ _ Hs) as (us & H1 & H2 & H3). exists (68%N :: us).
    split; [apply (tb_cons false ds w 68%N 86400 s' w'); easy|]. constructor; [|easy].
    intros Hin. apply H2 in Hin. cbn in Hin. intuition discriminate.
  - destruct (durtime_tb _ _ Hs) as (us & H1 & H2 & H3). now exists us.
  - exists [87%N]. split; [now apply tb_one|]. repeat constructor; easy.
Qed.

Lemma durvalue_accepted s v : DurValue s v -> Accepted s v.
Proof.
  intros [s0 v0 H|s0 v0 H|s0 v0 H]; apply durbody_tb in H as (us & [parts E Hok Hu Hv] & Hnd); cbn [app] in E.
  - exists [], parts, []. split; [left; split; [now left|easy]|]. split; [now left|].
    split; [easy|]. split; [now rewrite Hu|]. now rewrite app_nil_r, <- E.
  - exists (py "+"), parts, []. split; [left; split; [now right|easy]|]. split; [now left|].
    split; [easy|]. split; [now rewrite Hu|]. now rewrite app_nil_r, <- E.
  - exists (py "-"), parts, []. split; [right; split; [easy|now rewrite Hv]|]. split; [now left|].
    split; [easy|]. split; [now rewrite Hu|]. now rewrite app_nil_r, <- E.
Qed.

(** ** Writing durations *)
Lemma zdec_number n : 0 <= n -> number (zdec n) n.
Proof.
  intros H. unfold zdec. split; [apply dec_nonempty|]. split.
  - intros c Hc. apply is_digit_spec. pose proof (dec_digits (Z.to_N n)) as HD.
    rewrite forallb_forall in HD. now apply HD.
  - rewrite undec_dec. lia.
Qed.

Definition ser_body (total : Z) : str :=
  let days := total / 86400 in
  let seconds := total mod 86400 in
  let res := (if days =? 0 then [] else zdec days ++ py "D") in
  let res :=
    if seconds =? 0 then res
    else
      let res := res ++ py "T" in
      let h := seconds / 3600 in
      let res := if h =? 0 then res else res ++ zdec h ++ py "H" in
      let seconds := if h =? 0 then seconds else seconds mod 3600 in
      let m := seconds / 60 in
      let res := if m =? 0 then res else res ++ zdec m ++ py "M" in
      let seconds := if m =? 0 then seconds else seconds mod 60 in
      if seconds =? 0 then res else res ++ zdec seconds ++ py "S" in
  match res with [] => py "T0S" | _ => res end.
Lemma duration_serialize_body us : duration_serialize us =
  (if 0 <=? us then py "P" else py "-P") ++ ser_body (int_total_seconds (Z.abs us)).
Proof. unfold duration_serialize, ser_body. now destruct (0 <=? us). Qed.

Lemma nonempty_match {A} (x d : list A) : x <> [] -> match x with [] => d | _ => x end = x.
Proof. now destruct x. Qed.

Definition opt_part (t : bool) (n : Z) (u : char) : list part :=
  if n =? 0 then [] else [mk_part t (zdec n) u].
Definition ser_parts (total : Z) : list part :=
  let d := total / 86400 in let r := total mod 86400 in
  let h := r / 3600 in let m := r mod 3600 / 60 in let s := r mod 60 in
  if total =? 0 then [mk_part true (zdec 0) 83%N]
  else opt_part false d 68%N ++ opt_part true h 72%N ++ opt_part (h =? 0) m 77%N
       ++ opt_part ((h =? 0) && (m =? 0)) s 83%N.

Lemma ser_body_parts total : 0 <= total -> ser_body total = render_all (ser_parts total).
Proof.
  intros H. unfold ser_body, ser_parts.
  destruct (Z.eqb_spec total 0) as [->|Hn]; [vm_compute; reflexivity|].
  set (d := total / 86400). set (r := total mod 86400). 
  assert (Hd : total = 86400 * d + r /\ 0 <= r < 86400 /\ 0 <= d) by (unfold d, r; lia).
  clearbody d r. destruct Hd as (Ht & Hr & Hd0).
  cbv zeta.
  assert (Hh : (if r / 3600 =? 0 then r else r mod 3600) = r mod 3600).
  { destruct (Z.eqb_spec (r / 3600) 0); lia. }
  rewrite Hh.
  assert (Hm : (if r mod 3600 / 60 =? 0 then r mod 3600 else (r mod 3600) mod 60) = r mod 60).
  { destruct (Z.eqb_spec (r mod 3600 / 60) 0); lia. }
  rewrite Hm.
  assert (H60 : r = 3600 * (r / 3600) + 60 * (r mod 3600 / 60) + r mod 60) by lia.
  set (h := r / 3600) in *. set (m := r mod 3600 / 60) in *. set (s := r mod 60) in *.
  assert (Hpos : 0 <= h /\ 0 <= m /\ 0 <= s) by (unfold h, m, s; lia).
  clearbody h m s. clear Hh Hm.
  assert (Hz : forall z, zdec z <> []) by (intros z; apply dec_nonempty).
  pose proof (Hz d) as Zd. pose proof (Hz h) as Zh. pose proof (Hz m) as Zm. pose proof (Hz s) as Zs.
  unfold opt_part, render_all.
  destruct (Z.eqb_spec d 0), (Z.eqb_spec r 0), (Z.eqb_spec h 0), (Z.eqb_spec m 0), (Z.eqb_spec s 0); try lia;
    unfold render; cbn [app map concat p_t p_digits p_unit andb]; repeat rewrite <- app_assoc; cbn [app];
    try (destruct (zdec d); [easy|]; reflexivity); try reflexivity.
Qed.

Lemma ser_parts_ok total : 0 <= total ->
  Forall part_ok (ser_parts total) /\ NoDup (map p_unit (ser_parts total)) /\
  total_secs (ser_parts total) = total.
Proof.
  intros H. unfold ser_parts.
  destruct (Z.eqb_spec total 0) as [->|Hn].
  { split; [|split].
    - constructor; [|constructor]. split; [exists 0; now apply zdec_number|now exists 1].
    - repeat constructor. easy.
    - reflexivity. }
  set (d := total / 86400). set (r := total mod 86400).
  assert (Hd : total = 86400 * d + r /\ 0 <= r < 86400 /\ 0 <= d) by (unfold d, r; lia).
  clearbody d r. destruct Hd as (Ht & Hr & Hd0). cbv zeta.
  assert (H60 : r = 3600 * (r / 3600) + 60 * (r mod 3600 / 60) + r mod 60) by lia.
  set (h := r / 3600) in *. set (m := r mod 3600 / 60) in *. set (s := r mod 60) in *.
  assert (Hpos : 0 <= h /\ 0 <= m /\ 0 <= s) by (unfold h, m, s; lia).
  clearbody h m s. unfold opt_part.
  assert (Hok : forall t n u k, 0 <= n -> sec_of u = Some k -> part_ok (mk_part t (zdec n) u)).
  { intros t n u k Hn0 Hk. split; [exists n; now apply zdec_number|now exists k]. }
  assert (Hps : forall t n u k, 0 <= n -> sec_of u = Some k -> part_secs (mk_part t (zdec n) u) = n * k).
  { intros t n u k Hn0 Hk. unfold part_secs. cbn [p_unit p_digits]. rewrite Hk.
    destruct (zdec_number n Hn0) as (_ & _ & <-). easy. }
  split; [|split].
  - destruct (d =? 0), (h =? 0), (m =? 0), (s =? 0); cbn [app andb];
      repeat constructor; cbn [p_digits p_unit]; try (eexists; apply zdec_number; lia); try (eexists; reflexivity).
  - destruct (d =? 0), (h =? 0), (m =? 0), (s =? 0); cbn [app andb map p_unit];
      repeat constructor; cbn; intuition discriminate.
  - destruct (Z.eqb_spec d 0), (Z.eqb_spec h 0), (Z.eqb_spec m 0), (Z.eqb_spec s 0); cbn [app andb];
      rewrite ?total_cons; rewrite ?(Hps _ _ 68%N 86400), ?(Hps _ _ 72%N 3600), ?(Hps _ _ 77%N 60), ?(Hps _ _ 83%N 1) by easy;
      cbn [total_secs fold_right]; lia.
Qed.

Lemma serialize_accepted us : Accepted (duration_serialize us)
  (if 0 <=? us then int_total_seconds (Z.abs us) else - int_total_seconds (Z.abs us)).
Proof.
  rewrite duration_serialize_body.
  set (t := int_total_seconds (Z.abs us)).
  assert (Ht : 0 <= t).
  { unfold t, int_total_seconds. destruct (Z.abs us <? US_SEC) eqn:E; [lia|].
    assert (HD : forall a b, 0 <= a -> 0 <= b -> 0 <= a / b).
    { intros a b Ha Hb. destruct (Z.eq_dec b 0) as [->|Hb0]; [now rewrite Zdiv_0_r|]. apply Z.div_pos; lia. }
    apply HD.
    - assert (HP : 0 <= 2 ^ float_exp (Z.abs us)) by (apply Z.pow_nonneg; lia).
      unfold round_half_even. assert (HQ : 0 <= Z.abs us * 2 ^ float_exp (Z.abs us) / US_SEC).
      { apply Z.div_pos; [nia|unfold US_SEC; lia]. }
      cbv zeta. revert HQ. generalize (Z.abs us * 2 ^ float_exp (Z.abs us) / US_SEC). intros q HQ.
      repeat match goal with |- context [if ?b then _ else _] => destruct b end; lia.
    - apply Z.pow_nonneg; lia. }
  destruct (ser_parts_ok t Ht) as (H1 & H2 & H3).
  destruct (0 <=? us).
  - exists [], (ser_parts t), []. split; [left; split; [now left|now rewrite H3]|]. split; [now left|].
    split; [easy|]. split; [easy|]. now rewrite ser_body_parts, app_nil_r.
  - exists (py "-"), (ser_parts t), []. split; [right; split; [easy|now rewrite H3]|]. split; [now left|].
    split; [easy|]. split; [easy|]. now rewrite ser_body_parts, app_nil_r.
Qed.

Lemma duration_roundtrip_gen us : TD_MIN <= us <= TD_MAX ->
  Z.abs us < 2 ^ 34 * US_SEC \/ us mod US_SEC = 0 ->
  duration_parse (duration_serialize us) = Ok (Z.quot us US_SEC * US_SEC).
Proof.
  intros Hr Hc. apply duration_parse_exact.
  assert (Hi : int_total_seconds (Z.abs us) = Z.abs us / US_SEC).
  { destruct Hc as [Hc|Hc]; [apply int_total_seconds_floor; lia|].
    assert (E : Z.abs us = (Z.abs us / US_SEC) * US_SEC) by (unfold US_SEC in *; lia).
    rewrite E at 1. apply int_total_seconds_whole. unfold TD_MIN, TD_MAX, US_DAY, US_SEC in *. lia. }
  eexists. split; [apply serialize_accepted|]. rewrite Hi. unfold US_SEC, TD_MIN, TD_MAX, US_DAY, US_SEC in *.
  split; destruct (Z.leb_spec 0 us); lia.
Qed.

(** ** UTC-OFFSET *)
Lemma two_digits_pad n : 0 <= n < 100 -> two_digits (pad 2 (Z.to_N n)) n.
Proof.
  intros H. split; [apply pad_length; cbn; lia|]. split.
  - intros E. pose proof (pad_length 1 (Z.to_N n)) as HP. rewrite E in HP. cbn in HP. lia.
  - split; [|rewrite undec_pad; lia]. intros c Hc. apply is_digit_spec.
    pose proof (pad_digits 2 (Z.to_N n)) as HD. rewrite forallb_forall in HD. now apply HD.
Qed.

Lemma two_digits_inv s v : two_digits s v ->
  exists a b, s = [a; b] /\ is_digit a = true /\ is_digit b = true /\ v = Z.of_N (undec [a; b]).
Proof.
  intros (HL & H1 & H2 & H3). destruct s as [|a [|b [|]]]; try easy. exists a, b. split; [easy|].
  split; [apply is_digit_spec, H2; now left|]. split; [apply is_digit_spec, H2; right; now left|easy].
Qed.

Lemma is_digit_not_sign a : is_digit a = true -> N.eqb a c_plus = false /\ N.eqb a c_dash = false.
Proof. intros H. apply is_digit_spec in H. unfold c_plus, c_dash. split; lia. Qed.

Definition off_body (k : Z) (digits : str) : res Z :=
  if forallb is_digit digits then
    let num a b := Z.of_N (undec (slice digits a b)) in
    match length digits with
    | 4%nat => Ok (k * (num 0%nat 2%nat * 3600 + num 2%nat 4%nat * 60) * US_SEC)
    | 6%nat => Ok (k * (num 0%nat 2%nat * 3600 + num 2%nat 4%nat * 60 + num 4%nat 6%nat) * US_SEC)
    | _ => Err ValueError
    end
  else Err ValueError.
Lemma off_body_eq sign k a digits :
  (sign = py "+" \/ sign = []) /\ k = 1 \/ sign = py "-" /\ k = -1 -> is_digit a = true ->
  utcoffset_parse (sign ++ a :: digits) = off_body k (a :: digits).
Proof.
  intros Hs Ha. destruct (is_digit_not_sign a Ha) as [E1 E2].
  destruct Hs as [[[->| ->] ->]|[-> ->]]; unfold utcoffset_parse.
  - reflexivity.
  - cbn [app]. rewrite E1, E2. reflexivity.
  - reflexivity.
Qed.

Lemma offset_parse_value s v : OffsetValue s v -> utcoffset_parse s = Ok (v * US_SEC).
Proof.
  intros [sign k hh h mm m Hs Hh Hm|sign k hh h mm m ss x Hs Hh Hm Hx];
  apply two_digits_inv in Hh as (a & b & -> & Da & Db & ->);
  apply two_digits_inv in Hm as (c & d & -> & Dc & Dd & ->).
  - change ([a; b] ++ [c; d]) with (a :: [b; c; d]). rewrite (off_body_eq sign k) by easy.
    unfold off_body. cbn [forallb]. rewrite Da, Db, Dc, Dd. cbn [andb length]. cbv zeta.
    unfold slice. cbn [firstn skipn]. f_equal. ring.
  - apply two_digits_inv in Hx as (e & f & -> & De & Df & ->).
    change ([a; b] ++ [c; d] ++ [e; f]) with (a :: [b; c; d; e; f]). rewrite (off_body_eq sign k) by easy.
    unfold off_body. cbn [forallb]. rewrite Da, Db, Dc, Dd, De, Df. cbn [andb length]. cbv zeta.
    unfold slice. cbn [firstn skipn]. f_equal. ring.
Qed.

Lemma offset_value_of_parse s us : utcoffset_parse s = Ok us ->
  exists v, OffsetValue s v /\ us = v * US_SEC.
Proof.
  unfold utcoffset_parse.
  assert (HB : forall sign k digits, (sign = py "+" \/ sign = []) /\ k = 1 \/ sign = py "-" /\ k = -1 ->
   (if forallb is_digit digits then
    let num a b := Z.of_N (undec (slice digits a b)) in
    match length digits with
    | 4%nat => Ok (k * (num 0%nat 2%nat * 3600 + num 2%nat 4%nat * 60) * US_SEC)
    | 6%nat => Ok (k * (num 0%nat 2%nat * 3600 + num 2%nat 4%nat * 60 + num 4%nat 6%nat) * US_SEC)
    | _ => Err ValueError
    end
    else Err ValueError) = Ok us -> exists v, OffsetValue (sign ++ digits) v /\ us = v * US_SEC).
  { intros sign k digits Hs H. destruct (forallb is_digit digits) eqn:Hd; [|easy]. cbv zeta in H.
    assert (T2 : forall a b, is_digit a = true -> is_digit b = true -> two_digits [a; b] (Z.of_N (undec [a; b]))).
    { intros a b Ha Hb. split; [easy|]. apply digits_number; [easy|]. cbn. now rewrite Ha, Hb. }
    destruct digits as [|a [|b [|c [|d [|e [|f [|]]]]]]]; try discriminate H;
      cbn [length forallb slice skipn firstn] in H, Hd; injection H as <-;
      repeat (apply andb_true_iff in Hd as [? Hd]).
    - eexists. split; [eapply (OV sign k [a;b] _ [c;d]); [exact Hs|now apply T2|now apply T2]|].
      unfold slice. cbn [skipn firstn]. ring.
    - eexists. split; [eapply (OVs sign k [a;b] _ [c;d] _ [e;f]); [exact Hs|now apply T2|now apply T2|now apply T2]|].
      unfold slice. cbn [skipn firstn]. ring. }
  destruct s as [|c s].
  - intros H. easy.
  - destruct (N.eqb_spec c c_plus) as [->|].
    + intros H. apply (HB (py "+") 1 s) in H; [exact H|tauto].
    + destruct (N.eqb_spec c c_dash) as [->|].
      * intros H. apply (HB (py "-") (-1) s) in H; [exact H|tauto].
      * intros H. apply (HB [] 1 (c :: s)) in H; [exact H|tauto].
Qed.

Lemma offset_parse_exact s us : utcoffset_parse s = Ok us <-> exists v, OffsetValue s v /\ us = v * US_SEC.
Proof.
  split; [apply offset_value_of_parse|]. intros (v & H & ->). now apply offset_parse_value.
Qed.
Lemma offset_parse_error s e : utcoffset_parse s = Err e -> e = ValueError.
Proof.
  unfold utcoffset_parse.
  destruct (match s with [] => _ | _ :: _ => _ end) as [k digits].
  destruct (forallb is_digit digits); [|congruence].
  destruct (length digits) as [|[|[|[|[|[|[|]]]]]]]; congruence.
Qed.

Lemma offset_serialize_value us : Z.abs us < 360000 * US_SEC ->
  OffsetValue (utcoffset_serialize us) (Z.quot us US_SEC).
Proof.
  intros H. unfold utcoffset_serialize.
  set (n := Z.abs us) in *. assert (Hn : 0 <= n) by (unfold n; lia).
  set (h := n / (3600 * US_SEC)). set (n1 := n mod (3600 * US_SEC)).
  set (m := n1 / (60 * US_SEC)). set (n2 := n1 mod (60 * US_SEC)).
  assert (Hh : n = 3600 * US_SEC * h + n1 /\ 0 <= n1 < 3600 * US_SEC) by (unfold h, n1, US_SEC; lia).
  assert (Hm : n1 = 60 * US_SEC * m + n2 /\ 0 <= n2 < 60 * US_SEC) by (unfold m, n2, US_SEC; lia).
  clearbody h n1 m n2.
  assert (Rh : 0 <= h < 100) by (unfold US_SEC in *; lia).
  assert (Rm : 0 <= m < 60) by (unfold US_SEC in *; lia).
  set (k := if us <? 0 then -1 else 1).
  assert (Hk : us = k * n) by (unfold k, n; destruct (Z.ltb_spec us 0); lia).
  assert (Hsign : ((if us <? 0 then py "-" else py "+") = py "+" \/ (if us <? 0 then py "-" else py "+") = []) /\ k = 1 \/
    (if us <? 0 then py "-" else py "+") = py "-" /\ k = -1).
  { unfold k. destruct (us <? 0); tauto. }
  set (sign := if us <? 0 then py "-" else py "+") in *. clearbody sign n.
  destruct (Z.eqb_spec n2 0) as [E0|E0].
  - rewrite app_nil_r. replace (Z.quot us US_SEC) with (k * (3600 * h + 60 * m)).
    + apply OV; [exact Hsign|apply two_digits_pad; lia|apply two_digits_pad; lia].
    + unfold US_SEC in *. assert (k = 1 \/ k = -1) by tauto. nia.
  - set (s := n2 / US_SEC). assert (Hs : n2 = US_SEC * s + n2 mod US_SEC /\ 0 <= n2 mod US_SEC < US_SEC) by (unfold s, US_SEC; lia).
    replace (Z.quot us US_SEC) with (k * (3600 * h + 60 * m + s)).
    + apply OVs; [exact Hsign|apply two_digits_pad; lia|apply two_digits_pad; lia|].
      apply two_digits_pad. unfold US_SEC in *. lia.
    + unfold US_SEC in *. destruct Hsign as [[_ ->]|[_ ->]]; lia.
Qed.

Lemma offset_roundtrip us : Z.abs us < 360000 * US_SEC ->
  utcoffset_parse (utcoffset_serialize us) = Ok (Z.quot us US_SEC * US_SEC).
Proof. intros H. apply offset_parse_value. now apply offset_serialize_value. Qed.

Lemma dec_length_lower k n : (10 ^ N.of_nat k <= n)%N -> (k < length (dec n))%nat.
Proof.
  intros H. pose proof (undec_bound _ (dec_digits n)) as HB. rewrite undec_dec in HB.
  assert (10 ^ N.of_nat k < 10 ^ N.of_nat (length (dec n)))%N by lia.
  apply N.pow_lt_mono_r_iff in H0; lia.
Qed.

Lemma offset_value_bound s v : OffsetValue s v -> Z.abs v < 366061.
Proof.
  assert (HA : forall s v, two_digits s v -> 0 <= v < 100).
  { intros s0 v0 Hs. apply two_digits_inv in Hs as (a & b & _ & Ha & Hb & E).
    apply is_digit_spec in Ha, Hb. unfold undec in E. cbn [fold_left] in E. lia. }
  intros Hv.
  inversion Hv as [sign k hh h mm m Hs Hh Hm E1 E2|sign k hh h mm m ss x Hs Hh Hm Hx E1 E2];
    apply HA in Hh; apply HA in Hm; try apply HA in Hx; destruct Hs as [[_ ->]|[_ ->]]; lia.
Qed.

Lemma offset_value_len s v : OffsetValue s v ->
  match s with c :: _ => is_digit c = false -> length s = 5%nat \/ length s = 7%nat | [] => False end.
Proof.
  intros [sign k hh h0 mm m0 Hs Hh0 Hm0|sign k hh h0 mm m0 ss x Hs Hh0 Hm0 Hx].
  - apply two_digits_inv in Hh0 as (a & b & -> & Ha & Hb & _).
    apply two_digits_inv in Hm0 as (c & d & -> & Hc & Hd & _).
    destruct Hs as [[[->| ->] _]|[-> _]]; cbn [app length py map]; intros; try congruence; left; reflexivity.
  - apply two_digits_inv in Hh0 as (a & b & -> & Ha & Hb & _).
    apply two_digits_inv in Hm0 as (c & d & -> & Hc & Hd & _). apply two_digits_inv in Hx as (e & f & -> & He & Hf & _).
    destruct Hs as [[[->| ->] _]|[-> _]]; cbn [app length py map]; intros; try congruence; right; reflexivity.
Qed.

Lemma offset_serialize_len us : 100 <= Z.abs us / (3600 * US_SEC) < 1000 ->
  exists c r, utcoffset_serialize us = c :: r /\ is_digit c = false /\ (length r = 5%nat \/ length r = 7%nat).
Proof.
  intros H. unfold utcoffset_serialize. cbv zeta.
  set (n := Z.abs us) in *. clearbody n.
  set (h := n / (3600 * US_SEC)) in *. clearbody h.
  set (n1 := n mod (3600 * US_SEC)).
  assert (Hn1 : 0 <= n1 < 3600 * US_SEC) by (apply Z.mod_pos_bound; reflexivity). clearbody n1.
  set (m := n1 / (60 * US_SEC)).
  assert (Hm : 0 <= m < 60) by (unfold m, US_SEC in *; lia). clearbody m.
  set (n2 := n1 mod (60 * US_SEC)).
  assert (Hn2 : 0 <= n2 / US_SEC < 60).
  { assert (0 <= n2 < 60 * US_SEC) by (apply Z.mod_pos_bound; reflexivity). unfold US_SEC in *. lia. }
  set (s := n2 / US_SEC) in *. clearbody n2 s.
  assert (L1 : (2 < length (dec (Z.to_N h)))%nat).
  { apply dec_length_lower. change (10 ^ N.of_nat 2)%N with 100%N. lia. }
  assert (L2 : (length (dec (Z.to_N h)) <= 3)%nat).
  { apply dec_length. change (10 ^ N.of_nat 3)%N with 1000%N. lia. }
  assert (HL : length (pad 2 (Z.to_N h)) = 3%nat).
  { unfold pad. cbv zeta. rewrite app_length, repeat_length. lia. }
  assert (HM : length (pad 2 (Z.to_N m)) = 2%nat).
  { apply pad_length. change (10 ^ N.of_nat 2)%N with 100%N. lia. }
  assert (HS : length (pad 2 (Z.to_N s)) = 2%nat).
  { apply pad_length. change (10 ^ N.of_nat 2)%N with 100%N. lia. }
  revert HL HM HS. generalize (pad 2 (Z.to_N h)) (pad 2 (Z.to_N m)) (pad 2 (Z.to_N s)). intros a b c HL HM HS.
  exists (if us <? 0 then 45%N else 43%N), (a ++ b ++ (if n2 =? 0 then [] else c)).
  split; [destruct (us <? 0); reflexivity|]. split; [destruct (us <? 0); reflexivity|].
  rewrite !app_length, HL, HM. destruct (n2 =? 0); [left; reflexivity|right; now rewrite HS].
Qed.

Lemma offset_100h us : 360000 * US_SEC <= Z.abs us -> forall v,
  utcoffset_parse (utcoffset_serialize us) = Ok v -> v <> us.
Proof.
  intros H v Hp E. subst v.
  apply offset_value_of_parse in Hp as (w & Hv & Hw).
  pose proof (offset_value_bound _ _ Hv) as HB. apply offset_value_len in Hv.
  destruct (offset_serialize_len us) as (c & r & E & Hc & HL).
  { unfold US_SEC in *. lia. }
  rewrite E in Hv. cbn [length] in Hv. specialize (Hv Hc). lia.
Qed.

(** ** BOOLEAN *)
Lemma bool_roundtrip b : bool_parse (bool_serialize b) = Ok b.
Proof. now destruct b. Qed.

Lemma upper_lower a b : upper_char a = upper_char b <-> lower_char a = lower_char b.
Proof.
  unfold upper_char, lower_char.
  destruct (97 <=? a)%N eqn:?, (a <=? 122)%N eqn:?, (97 <=? b)%N eqn:?, (b <=? 122)%N eqn:?,
    (65 <=? a)%N eqn:?, (a <=? 90)%N eqn:?, (65 <=? b)%N eqn:?, (b <=? 90)%N eqn:?; cbn [andb]; lia.
Qed.
Lemma same_letters_upper a : forall b, same_letters a b <-> upper a = upper b.
Proof.
  unfold same_letters, upper. induction a as [|x a IH]; intros [|y b]; cbn; split; intros H; try easy.
  - injection H as H1 H2. f_equal; [now apply upper_lower|now apply IH].
  - injection H as H1 H2. f_equal; [now apply upper_lower|now apply IH].
Qed.

Lemma words_upper b w : In w (if b : bool then true_words else false_words) -> upper w = w.
Proof.
  assert (H : forallb (fun w => str_eqb (upper w) w) (true_words ++ false_words) = true) by (vm_compute; reflexivity).
  rewrite forallb_forall in H. intros Hw. apply str_eqb_eq, H. apply in_or_app. destruct b; tauto.
Qed.

Lemma str_in_In x l : str_in x l = true <-> In x l.
Proof.
  unfold str_in. rewrite existsb_exists. split.
  - intros (y & Hy & E). apply str_eqb_eq in E. now subst.
  - intros H. exists x. split; [easy|]. apply str_eqb_refl.
Qed.

Lemma bool_parse_words s : bool_parse s =
  if str_in (upper s) true_words then Ok true
  else if str_in (upper s) false_words then Ok false else Err ValueError.
Proof.
  unfold bool_parse.
  destruct (str_eqb s (py "TRUE")) eqn:E1; [apply str_eqb_eq in E1; rewrite E1; reflexivity|].
  destruct (str_eqb s (py "FALSE")) eqn:E2; [apply str_eqb_eq in E2; rewrite E2; reflexivity|].
  clear. unfold str_in, true_words, false_words. cbn [existsb]. generalize (upper s). intros U.
  destruct (str_eqb U (py "TRUE")) eqn:E1; [reflexivity|].
  destruct (str_eqb U (py "FALSE")) eqn:E2; [apply str_eqb_eq in E2; rewrite E2; reflexivity|].
  rewrite !orb_false_r, !orb_false_l.
  destruct (str_eqb U (py "T")), (str_eqb U (py "Y")), (str_eqb U (py "YES")), (str_eqb U (py "ON")), (str_eqb U (py "1"));
    try reflexivity.
  destruct (str_eqb U (py "F")), (str_eqb U (py "N")), (str_eqb U (py "NO")), (str_eqb U (py "OFF")), (str_eqb U (py "0"));
    reflexivity.
Qed.

Lemma words_disjoint w : In w true_words -> In w false_words -> False.
Proof.
  assert (H : forallb (fun w => negb (str_in w false_words)) true_words = true) by (vm_compute; reflexivity).
  rewrite forallb_forall in H. intros H1 H2. specialize (H _ H1). apply str_in_In in H2. now rewrite H2 in H.
Qed.

Lemma bool_parse_exact s b : bool_parse s = Ok b <->
  exists w, In w (if b then true_words else false_words) /\ same_letters s w.
Proof.
  transitivity (In (upper s) (if b then true_words else false_words)).
  - rewrite bool_parse_words. destruct (str_in (upper s) true_words) eqn:E1.
    + apply str_in_In in E1. destruct b; split; try easy. intros H. exfalso. eapply words_disjoint; eassumption.
    + assert (N1 : ~ In (upper s) true_words) by (rewrite <- str_in_In; now rewrite E1).
      destruct (str_in (upper s) false_words) eqn:E2.
      * apply str_in_In in E2. destruct b; split; try easy.
      * assert (N2 : ~ In (upper s) false_words) by (rewrite <- str_in_In; now rewrite E2).
        destruct b; split; easy.
  - split.
    + intros H. exists (upper s). split; [exact H|]. apply same_letters_upper. symmetry. eapply words_upper, H.
    + intros (w & Hw & Hs). apply same_letters_upper in Hs. rewrite Hs, (words_upper _ _ Hw). exact Hw.
Qed.
Lemma bool_parse_error s e : bool_parse s = Err e -> e = ValueError.
Proof.
  unfold bool_parse. repeat match goal with |- context [if ?x then _ else _] => destruct x end; congruence.
Qed.

(** ** INTEGER *)
Lemma lstrip_id s : match s with c :: _ => is_space c = false | [] => True end -> lstrip_space s = s.
Proof. destruct s; [easy|]. cbn. now intros ->. Qed.
Lemma strip_id s : (forall c, In c s -> is_space c = false) -> strip_space s = s.
Proof.
  intros H. unfold strip_space. rewrite (lstrip_id s).
  - rewrite (lstrip_id (rev s)); [apply rev_involutive|].
    destruct (rev s) as [|c r] eqn:E; [easy|]. apply H. apply in_rev. rewrite E. now left.
  - destruct s; [easy|]. apply H. now left.
Qed.
Lemma int_digits_digits ds : forall prev, forallb is_digit ds = true -> ds <> [] \/ prev = true ->
  int_digits prev ds = Some ds.
Proof.
  induction ds as [|c ds IH]; intros prev H HP; cbn.
  - destruct HP as [H0| ->]; easy.
  - cbn in H. apply andb_true_iff in H as [H1 H2]. rewrite H1, IH; auto.
Qed.
Lemma intlit_parse s v : IntLit s v -> int_parse s = Ok v.
Proof.
  assert (HD : forall ds, forallb is_digit ds = true -> forall c, In c ds -> is_space c = false).
  { intros ds H c Hc. rewrite forallb_forall in H. specialize (H c Hc). apply is_digit_spec in H.
    unfold is_space. lia. }
  intros [ds w Hn|ds w Hn|ds w Hn]; destruct (number_digits _ _ Hn) as (H1 & H2 & ->); unfold int_parse.
  - rewrite strip_id by now apply HD. destruct ds as [|c ds]; [easy|].
    assert (Hc : is_digit c = true) by (cbn in H2; now apply andb_true_iff in H2).
    destruct (is_digit_not_sign c Hc) as [E1 E2]. rewrite E2, E1.
    rewrite int_digits_digits by (auto; left; easy). f_equal; lia.
  - rewrite strip_id by (intros c [<-|Hc]; [reflexivity|now apply (HD ds)]).
    change (py "+" ++ ds) with (c_plus :: ds). cbv iota beta.
    change (N.eqb c_plus c_dash) with false. change (N.eqb c_plus c_plus) with true. cbv iota beta.
    rewrite int_digits_digits by auto. f_equal; lia.
  - rewrite strip_id by (intros c [<-|Hc]; [reflexivity|now apply (HD ds)]).
    change (py "-" ++ ds) with (c_dash :: ds). cbv iota beta.
    change (N.eqb c_dash c_dash) with true. cbv iota beta.
    rewrite int_digits_digits by auto. f_equal; lia.
Qed.
Lemma int_serialize_lit n : IntLit (int_serialize n) n.
Proof.
  assert (HN : forall k, 0 <= k -> number (dec (Z.to_N k)) k) by (intros k Hk; now apply zdec_number).
  unfold int_serialize. destruct (Z.ltb_spec n 0).
  - replace n with (- - n) at 2 by lia. apply (IL_minus (dec (Z.to_N (- n)))). apply HN. lia.
  - apply IL_plain. apply HN. lia.
Qed.
Lemma int_roundtrip n : int_parse (int_serialize n) = Ok n.
Proof. apply intlit_parse, int_serialize_lit. Qed.

Lemma int_parse_error s e : int_parse s = Err e -> e = ValueError.
Proof.
  unfold int_parse. destruct (match strip_space s with [] => _ | _ => _ end) as [k d].
  destruct (int_digits false d); congruence.
Qed.

(** ** BINARY *)
Open Scope N_scope.
Lemma seq_all n (P : N -> bool) : forallb P (map N.of_nat (seq 0 n)) = true ->
  forall v, v < N.of_nat n -> P v = true.
Proof.
  intros H v Hv. rewrite forallb_forall in H. apply H. apply in_map_iff. exists (N.to_nat v).
  split; [lia|]. apply in_seq. lia.
Qed.

Lemma b64_inv v : v < 64 -> b64_val (b64_char v) = Some v /\ (b64_char v =? c_pad) = false /\
  nth_error alphabet (N.to_nat v) = Some (b64_char v) /\ b64_char v < 128.
Proof.
  intros H.
  pose (P := fun v => match b64_val (b64_char v) with Some w => w =? v | None => false end &&
    negb (b64_char v =? c_pad) &&
    (match nth_error alphabet (N.to_nat v) with Some c => c =? b64_char v | None => false end) && (b64_char v <? 128)).
  assert (HP : P v = true).
  { apply (seq_all 64 P); [vm_compute; reflexivity|lia]. }
  unfold P in HP. apply andb_true_iff in HP as [HP H4]. apply andb_true_iff in HP as [HP H3].
  apply andb_true_iff in HP as [H1 H2]. split; [|split; [|split]].
  - destruct (b64_val (b64_char v)); [|easy]. f_equal. lia.
  - now apply negb_true_iff.
  - destruct (nth_error _ _); [|easy]. f_equal. lia.
  - lia.
Qed.

Lemma list3_ind {A} (P : list A -> Prop) : P [] -> (forall a, P [a]) -> (forall a b, P [a; b]) ->
  (forall a b c l, P l -> P (a :: b :: c :: l)) -> forall l, P l.
Proof.
  intros H0 H1 H2 H3. fix IH 1. intros [|a [|b [|c l]]]; [exact H0|apply H1|apply H2|]. apply H3, IH.
Qed.

Lemma b64_loop_char v s q l p : v < 64 -> b64_loop (b64_char v :: s) q l p =
  if q =? 0 then b64_loop s 1 v 0
  else if q =? 1 then do r <- b64_loop s 2 (v mod 16) 0; Ok ((l * 4 + v / 16) mod 256 :: r)
  else if q =? 2 then do r <- b64_loop s 3 (v mod 4) 0; Ok ((l * 16 + v / 4) mod 256 :: r)
  else do r <- b64_loop s 0 0 0; Ok ((l * 64 + v) mod 256 :: r).
Proof. intros H. destruct (b64_inv v H) as (A & B & _). cbn [b64_loop]. now rewrite B, A. Qed.

Lemma binary_loop bs : Forall byte bs -> b64_loop (binary_serialize bs) 0 0 0 = Ok bs.
Proof.
  unfold byte. induction bs as [|a|a b|a b c bs IH] using list3_ind; intros HF.
  - reflexivity.
  - inversion HF as [|? ? Ha _]; subst. cbn [binary_serialize].
    rewrite !b64_loop_char by lia. cbn [N.eqb Pos.eqb].
    replace (b64_loop [c_pad; c_pad] _ _ _) with (@Ok (list N) []) by reflexivity. cbn [bind].
    f_equal. f_equal. lia.
  - inversion HF as [|? ? Ha HF']; inversion HF' as [|? ? Hb _]; subst. cbn [binary_serialize].
    rewrite !b64_loop_char by lia. cbn [N.eqb Pos.eqb].
    replace (b64_loop [c_pad] _ _ _) with (@Ok (list N) []) by reflexivity. cbn [bind].
    f_equal. f_equal; [lia|]. f_equal. lia.
  - inversion HF as [|? ? Ha HF']; inversion HF' as [|? ? Hb HF'']; inversion HF'' as [|? ? Hc HF3]; subst.
    cbn [binary_serialize]. rewrite !b64_loop_char by lia. cbn [N.eqb Pos.eqb]. rewrite (IH HF3). cbn [bind].
    f_equal. f_equal; [lia|]. f_equal; [lia|]. f_equal. lia.
Qed.

Lemma binary_base64 bs : Forall byte bs -> Base64 bs (binary_serialize bs).
Proof.
  assert (HS : forall v, v < 64 -> sextet v (b64_char v)).
  { intros v Hv. split; [easy|]. now apply b64_inv. }
  unfold byte. induction bs as [|a|a b|a b c bs IH] using list3_ind; intros HF.
  - constructor.
  - inversion HF as [|? ? Ha _]; subst. cbn [binary_serialize]. constructor; apply HS; lia.
  - inversion HF as [|? ? Ha HF']; inversion HF' as [|? ? Hb _]; subst. constructor; apply HS; lia.
  - inversion HF as [|? ? Ha HF']; inversion HF' as [|? ? Hb HF'']; inversion HF'' as [|? ? Hc HF3]; subst.
    constructor; try (apply HS; lia). now apply IH.
Qed.

Lemma sextet_in v c : sextet v c -> In c alphabet.
Proof. intros [_ H]. now apply nth_error_In in H. Qed.
Lemma alphabet_ascii c : In c alphabet -> c < 128.
Proof.
  assert (H : forallb (fun c => c <? 128) alphabet = true) by (vm_compute; reflexivity).
  rewrite forallb_forall in H. intros Hc. specialize (H c Hc). lia.
Qed.

Lemma base64_shape bs s : Base64 bs s -> exists body p, s = body ++ repeat 61 p /\ (p <= 2)%nat /\
  (forall c, In c body -> In c alphabet) /\ length s = (4 * ((length bs + 2) / 3))%nat.
Proof.
  induction 1 as [|a c1 c2 H1 H2|a b c1 c2 c3 H1 H2 H3|a b c c1 c2 c3 c4 bs s H1 H2 H3 H4 HB IH].
  - exists [], 0%nat. cbn. repeat split; try easy; lia.
  - exists [c1; c2], 2%nat. split; [easy|]. split; [lia|]. split; [|reflexivity].
    intros c [<-|[<-|[]]]; eapply sextet_in; eassumption.
  - exists [c1; c2; c3], 1%nat. split; [easy|]. split; [lia|]. split; [|reflexivity].
    intros c [<-|[<-|[<-|[]]]]; eapply sextet_in; eassumption.
  - destruct IH as (body & p & -> & Hp & Hb & HL). exists (c1 :: c2 :: c3 :: c4 :: body), p.
    split; [easy|]. split; [easy|]. split.
    + intros x [<-|[<-|[<-|[<-|Hx]]]]; try (eapply sextet_in; eassumption). now apply Hb.
    + cbn [length] in *. rewrite HL.
      replace (S (S (S (length bs))) + 2)%nat with (length bs + 2 + 1 * 3)%nat by lia.
      rewrite Nat.div_add by lia. lia.
Qed.

Lemma base64_unique bs s : Base64 bs s -> forall s', Base64 bs s' -> s = s'.
Proof.
  assert (HU : forall v c c', sextet v c -> sextet v c' -> c = c').
  { intros v c c' [_ H] [_ H']. congruence. }
  induction 1; intros s' Hs'; inversion Hs'; subst; try easy;
    repeat (f_equal; try (eapply HU; eassumption)).
  now apply IHBase64.
Qed.

Lemma binary_serialize_exact bs s : Forall byte bs -> (Base64 bs s <-> s = binary_serialize bs).
Proof.
  intros H. split; [|intros ->; now apply binary_base64]. intros HB. eapply base64_unique; [exact HB|].
  now apply binary_base64.
Qed.

Lemma binary_roundtrip bs : Forall byte bs -> binary_parse (binary_serialize bs) = Ok bs.
Proof.
  intros H. unfold binary_parse. replace (forallb _ _) with true; [now apply binary_loop|].
  symmetry. apply forallb_forall. intros c Hc.
  destruct (base64_shape _ _ (binary_base64 bs H)) as (body & p & E & _ & Hb & _).
  rewrite E in Hc. apply in_app_or in Hc as [Hc|Hc].
  - apply Hb, alphabet_ascii in Hc. lia.
  - apply repeat_spec in Hc. subst. reflexivity.
Qed.

(** Characters outside the alphabet and the padding sign are ignored. *)

Lemma b64_val_alphabet c v : b64_val c = Some v -> existsb (N.eqb c) alphabet = true.
Proof.
  intros H. assert (Hv : v < 64 /\ b64_char v = c).
  { unfold b64_val in H. unfold b64_char.
    destruct ((65 <=? c) && (c <=? 90)) eqn:E1; [injection H as <-; destruct (_ <? 26) eqn:E; lia|].
    destruct ((97 <=? c) && (c <=? 122)) eqn:E2.
    { injection H as <-. destruct (c - 71 <? 26) eqn:Ea; [lia|]. destruct (c - 71 <? 52) eqn:Eb; lia. }
    destruct ((48 <=? c) && (c <=? 57)) eqn:E3.
    { injection H as <-. destruct (c + 4 <? 26) eqn:Ea; [lia|]. destruct (c + 4 <? 52) eqn:Eb; [lia|].
      destruct (c + 4 <? 62) eqn:Ec; lia. }
    destruct (c =? 43) eqn:E4; [injection H as <-; cbn; lia|].
    destruct (c =? 47) eqn:E5; [injection H as <-; cbn; lia|]. easy. }
  destruct Hv as [Hv <-]. apply existsb_exists. exists (b64_char v). split; [|apply N.eqb_refl].
  destruct (b64_inv v Hv) as (_ & _ & HN & _). now apply nth_error_In in HN.
Qed.

Lemma b64_loop_filter s : forall q l p, b64_loop (filter relevant s) q l p = b64_loop s q l p.
Proof.
  induction s as [|c s IH]; intros q l p; [reflexivity|]. cbn [filter]. unfold relevant at 1.
  change 61 with c_pad. destruct (c =? c_pad) eqn:Ep; cbn [orb].
  - cbn [b64_loop]. rewrite Ep. rewrite !IH. reflexivity.
  - destruct (existsb (N.eqb c) alphabet) eqn:Ea.
    + cbn [b64_loop]. rewrite Ep. destruct (b64_val c); rewrite !IH; reflexivity.
    + cbn [b64_loop]. rewrite Ep. destruct (b64_val c) eqn:Ev; [|apply IH].
      apply b64_val_alphabet in Ev. congruence.
Qed.

Lemma binary_parse_ignores bs s : Forall byte bs -> (forall c, In c s -> c < 128) ->
  filter relevant s = binary_serialize bs -> binary_parse s = Ok bs.
Proof.
  intros H Hs E. unfold binary_parse. replace (forallb _ _) with true.
  - rewrite <- b64_loop_filter, E. now apply binary_loop.
  - symmetry. apply forallb_forall. intros c Hc. apply Hs in Hc. lia.
Qed.

Lemma b64_loop_bytes s : forall q l p bs, b64_loop s q l p = Ok bs -> Forall byte bs.
Proof.
  assert (HB : forall x, byte (x mod 256)) by (intros x; apply N.mod_lt; lia).
  induction s as [|c s IH]; intros q l p bs H; cbn [b64_loop] in H.
  - destruct (q =? 0); [injection H as <-; constructor|easy].
  - destruct (c =? c_pad).
    + destruct (2 <=? q); [|now apply IH in H]. destruct (4 <=? _); [injection H as <-; constructor|now apply IH in H].
    + destruct (b64_val c) as [v|]; [|now apply IH in H].
      destruct (q =? 0); [now apply IH in H|].
      destruct (q =? 1); [|destruct (q =? 2)].
      all: destruct (b64_loop s _ _ _) eqn:E in H; [|easy]; cbn [bind] in H; injection H as <-;
        constructor; [apply HB|now apply IH in E].
Qed.
Lemma b64_loop_error s : forall q l p e, b64_loop s q l p = Err e -> e = ValueError.
Proof.
  induction s as [|c s IH]; intros q l p e H; cbn [b64_loop] in H.
  - destruct (q =? 0); congruence.
  - destruct (c =? c_pad).
    + destruct (2 <=? q); [|now apply IH in H]. destruct (4 <=? _); [easy|now apply IH in H].
    + destruct (b64_val c) as [v|]; [|now apply IH in H].
      destruct (q =? 0); [now apply IH in H|].
      destruct (q =? 1); [|destruct (q =? 2)].
      all: destruct (b64_loop s _ _ _) eqn:E in H; [easy|]; cbn [bind] in H; injection H as <-; now apply IH in E.
Qed.
Lemma binary_parse_total s : match binary_parse s with Ok bs => Forall byte bs | Err e => e = ValueError end.
Proof.
  unfold binary_parse. destruct (forallb _ s); [|easy]. destruct (b64_loop s 0 0 0) eqn:E.
  - eapply b64_loop_bytes, E.
  - eapply b64_loop_error, E.
Qed.

(** ** Is the written DURATION in the RFC grammar? *)
Open Scope Z_scope.
Lemma number_no_letter ds v c : number ds v -> (57 < c)%N -> ~ In c ds.
Proof. intros (_ & H & _) Hc Hin. apply H in Hin. lia. Qed.

Lemma durvalue_HSM s v : DurValue s v -> In 72%N s -> In 83%N s -> In 77%N s.
Proof.
  assert (HS : forall s v, DurSecond s v -> ~ In 72%N s).
  { intros s0 v0 [ds w Hn] Hi. apply in_app_or in Hi as [Hi|Hi].
    - now apply (number_no_letter ds w 72%N) in Hi.
    - destruct Hi as [|[]]; discriminate. }
  assert (HM : forall s v, DurMinute s v -> In 77%N s).
  { intros s0 v0 [ds w Hn|ds w s' w' Hn Hs]; apply in_or_app; right; now left. }
  assert (HH : forall s v, DurHour s v -> In 83%N s -> In 77%N s).
  { intros s0 v0 [ds w Hn|ds w s' w' Hn Hs] Hi.
    - apply in_app_or in Hi as [Hi|Hi]; [now apply (number_no_letter ds w 83%N) in Hi|].
      destruct Hi as [|[]]; discriminate.
    - apply in_or_app. right. right. now apply (HM _ w'). }
  assert (HT : forall s v, DurTime s v -> In 72%N s -> In 83%N s -> In 77%N s).
  { intros s0 v0 [s' w Hx|s' w Hx|s' w Hx] H1 H2; right;
      (destruct H1 as [H1|H1]; [discriminate|]); (destruct H2 as [H2|H2]; [discriminate|]).
    - eapply HH; eassumption.
    - eapply HM; eassumption.
    - now apply (HS _ _ Hx) in H1. }
  assert (HB : forall s v, DurBody s v -> In 72%N s -> In 83%N s -> In 77%N s).
  { intros s0 v0 [ds w Hn|ds w s' w' Hn Hs|s' w' Hs|ds w Hn] H1 H2.
    - apply in_app_or in H1 as [H1|[H1|[]]]; [|discriminate]. now apply (number_no_letter ds w 72%N) in H1.
    - apply in_or_app. right. right.
      apply in_app_or in H1 as [H1|[H1|H1]]; [now apply (number_no_letter ds w 72%N) in H1|discriminate|].
      apply in_app_or in H2 as [H2|[H2|H2]]; [now apply (number_no_letter ds w 83%N) in H2|discriminate|].
      eapply HT; eassumption.
    - eapply HT; eassumption.
    - apply in_app_or in H1 as [H1|[H1|[]]]; [|discriminate]. now apply (number_no_letter ds w 72%N) in H1. }
  intros [s0 v0 H|s0 v0 H|s0 v0 H] H1 H2.
  - destruct H1 as [H1|H1]; [discriminate|]. destruct H2 as [H2|H2]; [discriminate|]. right. eapply HB; eassumption.
  - destruct H1 as [H1|[H1|H1]]; try discriminate. destruct H2 as [H2|[H2|H2]]; try discriminate. right. right. eapply HB; eassumption.
  - destruct H1 as [H1|[H1|H1]]; try discriminate. destruct H2 as [H2|[H2|H2]]; try discriminate. right. right. eapply HB; eassumption.
Qed.

Lemma ser_body_rfc total : 0 <= total ->
  (let r := total mod 86400 in r / 3600 = 0 \/ r mod 3600 / 60 <> 0 \/ r mod 60 = 0) ->
  DurBody (ser_body total) total.
Proof.
  intros H Hc. unfold ser_body.
  destruct (Z.eq_dec total 0) as [->|Hn].
  { apply DB_time. apply DT_s. apply (DS (py "0") 0). split; [easy|]. split; [|reflexivity].
    intros c [<-|[]]. cbn. lia. }
  cbv zeta in *. 
  set (d := total / 86400) in *. set (r := total mod 86400) in *.
  assert (Hd : total = 86400 * d + r /\ 0 <= r < 86400 /\ 0 <= d) by (unfold d, r; lia).
  clearbody d r. destruct Hd as (Ht & Hr & Hd0).
  assert (Hh : (if r / 3600 =? 0 then r else r mod 3600) = r mod 3600).
  { destruct (Z.eqb_spec (r / 3600) 0); lia. }
  rewrite Hh.
  assert (Hm : (if r mod 3600 / 60 =? 0 then r mod 3600 else (r mod 3600) mod 60) = r mod 60).
  { destruct (Z.eqb_spec (r mod 3600 / 60) 0); lia. }
  rewrite Hm.
  assert (H60 : r = 3600 * (r / 3600) + 60 * (r mod 3600 / 60) + r mod 60) by lia.
  set (h := r / 3600) in *. set (m := r mod 3600 / 60) in *. set (s := r mod 60) in *.
  assert (Hpos : 0 <= h /\ 0 <= m /\ 0 <= s) by (unfold h, m, s; lia).
  clearbody h m s. clear Hh Hm.
  assert (Nd := zdec_number d Hd0). assert (Nh := zdec_number h ltac:(lia)).
  assert (Nm := zdec_number m ltac:(lia)). assert (Ns := zdec_number s ltac:(lia)).
  assert (Zd : zdec d <> []) by apply Nd.
  assert (HT : r <> 0 -> DurTime (py "T" ++ (if h =? 0 then [] else zdec h ++ py "H") ++
    (if m =? 0 then [] else zdec m ++ py "M") ++ (if s =? 0 then [] else zdec s ++ py "S")) r).
  { intros Hr0. destruct (Z.eqb_spec h 0) as [Eh|Eh], (Z.eqb_spec m 0) as [Em|Em], (Z.eqb_spec s 0) as [Es|Es];
      cbn [app]; rewrite ?app_nil_r; try lia.
    - apply DT_s. replace r with s by lia. now constructor.
    - apply DT_m. replace r with (60 * m) by lia. now constructor.
    - apply DT_m. replace r with (60 * m + s) by lia. rewrite <- app_assoc. apply DM2; [easy|now constructor].
    - apply DT_h. replace r with (3600 * h) by lia. now constructor.
    - apply DT_h. replace r with (3600 * h + 60 * m) by lia. rewrite <- app_assoc. apply DH2; [easy|now constructor].
    - apply DT_h. replace r with (3600 * h + (60 * m + s)) by lia. rewrite <- !app_assoc. apply DH2; [easy|].
      apply DM2; [easy|now constructor]. }
  replace (match _ with [] => py "T0S" | _ :: _ => _ end) with
   ((if d =? 0 then [] else zdec d ++ py "D") ++ if r =? 0 then [] else py "T" ++ (if h =? 0 then [] else zdec h ++ py "H") ++
    (if m =? 0 then [] else zdec m ++ py "M") ++ (if s =? 0 then [] else zdec s ++ py "S")).
  - destruct (Z.eqb_spec d 0) as [Ed|Ed], (Z.eqb_spec r 0) as [Er|Er]; try lia.
    + cbn [app]. replace total with r by lia. apply DB_time, HT. lia.
    + rewrite app_nil_r. replace total with (86400 * d) by lia. now constructor.
    + rewrite <- app_assoc. rewrite Ht. apply DB_daytime; [easy|]. now apply HT.
  - destruct (Z.eqb_spec d 0), (Z.eqb_spec r 0), (Z.eqb_spec h 0), (Z.eqb_spec m 0), (Z.eqb_spec s 0); try lia;
    cbn [app]; rewrite ?app_nil_r; repeat rewrite <- app_assoc; cbn [app]; rewrite ?app_nil_r;
    try (destruct (zdec d); [easy|]; reflexivity); try reflexivity.
Qed.

Lemma serialize_rfc us :
  (let r := (Z.abs us / US_SEC) mod 86400 in r / 3600 = 0 \/ r mod 3600 / 60 <> 0 \/ r mod 60 = 0) ->
  Z.abs us < 2 ^ 34 * US_SEC \/ us mod US_SEC = 0 -> TD_MIN <= us <= TD_MAX ->
  DurValue (duration_serialize us) (Z.quot us US_SEC).
Proof.
  intros Hg Hc Hr. rewrite duration_serialize_body.
  assert (Hi : int_total_seconds (Z.abs us) = Z.abs us / US_SEC).
  { destruct Hc as [Hc|Hc]; [apply int_total_seconds_floor; lia|].
    assert (E : Z.abs us = (Z.abs us / US_SEC) * US_SEC) by (unfold US_SEC in *; lia).
    rewrite E at 1. apply int_total_seconds_whole. unfold TD_MIN, TD_MAX, US_DAY, US_SEC in *. lia. }
  rewrite Hi. assert (HB : DurBody (ser_body (Z.abs us / US_SEC)) (Z.abs us / US_SEC)).
  { apply ser_body_rfc; [|exact Hg]. unfold US_SEC; lia. }
  destruct (Z.leb_spec 0 us).
  - replace (Z.quot us US_SEC) with (Z.abs us / US_SEC) by (unfold US_SEC; lia). now constructor.
  - replace (Z.quot us US_SEC) with (- (Z.abs us / US_SEC)) by (unfold US_SEC; lia). now constructor.
Qed.
