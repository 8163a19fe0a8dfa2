(** * Proofs: exactly which texts are read as base64 *)
From Verif Require Import M_Base P_Base M_Codec S_Codec P_Codec.
From Coq Require Import Lia ZifyBool ZifyNat ZifyN.
Ltac Zify.zify_post_hook ::= Z.div_mod_to_equations.
Open Scope N_scope.

Lemma sextet_val v c : sextet v c <-> b64_val c = Some v.
Proof.
  assert (HC : forall w, w < 64 -> sextet w (b64_char w)) by (intros w Hw; split; [easy|now apply b64_inv]).
  split.
  - intros [H1 H2]. destruct (b64_inv v H1) as (A & _ & B & _). rewrite B in H2. injection H2 as <-. exact A.
  - intros H. unfold b64_val in H.
    assert (K : v < 64 /\ c = b64_char v).
    { unfold b64_char.
      destruct ((65 <=? c) && (c <=? 90)) eqn:E1; [injection H as <-; destruct (N.ltb_spec (c - 65) 26); lia|].
      destruct ((97 <=? c) && (c <=? 122)) eqn:E2; [injection H as <-; destruct (N.ltb_spec (c - 71) 26), (N.ltb_spec (c - 71) 52); lia|].
      destruct ((48 <=? c) && (c <=? 57)) eqn:E3; [injection H as <-; destruct (N.ltb_spec (c + 4) 26), (N.ltb_spec (c + 4) 52), (N.ltb_spec (c + 4) 62); lia|].
      destruct (N.eqb_spec c 43) as [->|]; [injection H as <-; easy|]. destruct (N.eqb_spec c 47) as [->|]; [injection H as <-; easy|discriminate]. }
    destruct K as [K1 ->]. now apply HC.
Qed.
Lemma val_bound c v : b64_val c = Some v -> v < 64.
Proof. intros H. apply sextet_val in H. exact (proj1 H). Qed.
Lemma relevant_iff c : relevant c = true <-> c = 61 \/ exists v, b64_val c = Some v.
Proof.
  unfold relevant. rewrite orb_true_iff, N.eqb_eq. split; intros [H|H]; try (now left); right.
  - apply existsb_exists in H. destruct H as (x & H1 & H2). apply N.eqb_eq in H2. subst x. apply In_nth_error in H1. destruct H1 as [i Hi].
    exists (N.of_nat i). apply sextet_val. split; [|now rewrite Nat2N.id].
    assert (i < length alphabet)%nat by (apply nth_error_Some; congruence). change (length alphabet) with 64%nat in H. lia.
  - destruct H as [v Hv]. now apply b64_val_alphabet in Hv.
Qed.

Definition nx (q : N) : N := if q =? 0 then 1 else if q =? 1 then 2 else if q =? 2 then 3 else 0.
(** The data characters up to the end mark. *)
Fixpoint sel (q p : N) (t : list N) : option (list N) :=
  match t with
  | [] => if q =? 0 then Some [] else None
  | c :: t' =>
      if c =? 61 then
        if 2 <=? q then if 4 <=? q + (p + 1) then Some [] else sel q (p + 1) t' else sel q p t'
      else option_map (cons c) (sel (nx q) 0 t')
  end.
Fixpoint dec64 (q l : N) (d : list N) : list N :=
  match d with
  | [] => []
  | c :: d' =>
      match b64_val c with
      | None => []
      | Some v =>
          if q =? 0 then dec64 1 v d'
          else if q =? 1 then (l * 4 + v / 16) mod 256 :: dec64 2 (v mod 16) d'
          else if q =? 2 then (l * 16 + v / 4) mod 256 :: dec64 3 (v mod 4) d'
          else (l * 64 + v) mod 256 :: dec64 0 0 d'
      end
  end.
Lemma loop_sel : forall t q l p, (forall c, In c t -> relevant c = true) ->
  b64_loop t q l p = match sel q p t with Some d => Ok (dec64 q l d) | None => Err ValueError end.
Proof.
  induction t as [|c t IH]; intros q l p HR; cbn [b64_loop sel].
  - now destruct (q =? 0).
  - assert (HR' : forall c, In c t -> relevant c = true) by (intros x Hx; apply HR; now right).
    change c_pad with 61. destruct (N.eqb_spec c 61) as [->|NE].
    + destruct (2 <=? q); [destruct (4 <=? q + (p + 1)); [reflexivity|]|]; now apply IH.
    + destruct (proj1 (relevant_iff c) (HR c (or_introl eq_refl))) as [->|[v Hv]]; [easy|]. rewrite Hv. unfold nx.
      destruct (q =? 0) eqn:Q0; [|destruct (q =? 1) eqn:Q1; [|destruct (q =? 2) eqn:Q2]]; rewrite IH by exact HR';
        match goal with |- context [sel ?a ?b ?d] => destruct (sel a b d) as [e|] end; cbn [option_map bind dec64]; try reflexivity;
        rewrite Hv, Q0; try rewrite Q1; try rewrite Q2; reflexivity.
Qed.

Lemma data_app a b : b64_data (a ++ b) = b64_data a ++ b64_data b.
Proof. apply filter_app. Qed.
Lemma data_pad u : b64_data (u ++ [61]) = b64_data u.
Proof. rewrite data_app. apply app_nil_r. Qed.
Lemma data_char u c : c <> 61 -> b64_data (u ++ [c]) = b64_data u ++ [c].
Proof. intros H. rewrite data_app. cbn. destruct (N.eqb_spec c 61); easy. Qed.
Lemma app_last {A} (a b : list A) x y : a ++ [x] = b ++ [y] -> a = b /\ x = y.
Proof. apply app_inj_tail. Qed.
Lemma mark_char u c : c <> 61 -> ~ b64_mark (u ++ [c]).
Proof.
  intros H [(v & E & _)|(v & E & _)].
  - change (py "==") with ([61] ++ [61]) in E. rewrite app_assoc in E. apply app_last in E. tauto.
  - apply app_last in E. tauto.
Qed.
Lemma mark_pad u : b64_mark (u ++ [61]) <-> (length (b64_data u) mod 4 = 3)%nat \/ (length (b64_data u) mod 4 = 2)%nat /\ exists v, u = v ++ [61].
Proof.
  unfold b64_mark. split.
  - intros [(v & E & HL)|(v & E & HL)].
    + change (py "==") with ([61] ++ [61]) in E. rewrite app_assoc in E. apply app_last in E. destruct E as [-> _]. right.
      rewrite data_pad. split; [easy|now exists v].
    + apply app_last in E. destruct E as [-> _]. now left.
  - intros [H|[H [v ->]]]; [right; now exists u|left]. exists v. rewrite <- app_assoc. rewrite data_pad in H. easy.
Qed.
Lemma mark_nil : ~ b64_mark [].
Proof. intros [(v & E & _)|(v & E & _)]; symmetry in E; apply app_eq_nil in E; destruct E as [_ E]; discriminate E. Qed.

Definition st (u : list N) (q p : N) : Prop :=
  q < 4 /\ (length (b64_data u) mod 4 = N.to_nat q)%nat /\ (q = 2 -> (1 <= p <-> exists v, u = v ++ [61])).
Definition clear_of (u : list N) : Prop := forall v w, u = v ++ w -> ~ b64_mark v.
Lemma clear_snoc u c : clear_of u -> ~ b64_mark (u ++ [c]) -> clear_of (u ++ [c]).
Proof.
  intros H HM v w E. destruct w as [|x w] using rev_ind; [rewrite app_nil_r in E; now subst v|]. clear IHw.
  rewrite app_assoc in E. apply app_last in E. destruct E as [E _]. exact (H v w E).
Qed.
Lemma sel_spec : forall t u q p d, st u q p -> clear_of u ->
  sel q p t = Some d <-> exists x y, t = x ++ y /\
    (b64_mark (u ++ x) \/ y = [] /\ (length (b64_data (u ++ x)) mod 4 = 0)%nat) /\
    (forall v w, u ++ x = v ++ w -> w <> [] -> ~ b64_mark v) /\ b64_data x = d.
Proof.
  induction t as [|c t IH]; intros u q p d HS HC; assert (HS' := HS); destruct HS' as (S1 & S2 & S3).
  - cbn [sel]. split.
    + destruct (N.eqb_spec q 0) as [->|]; [|discriminate]. intros [= <-]. exists [], []. rewrite (app_nil_r u). split; [easy|].
      split; [right; split; [easy|exact S2]|]. split; [intros v w E _; exact (HC v w E)|easy].
    + intros (x & y & E & HM & _ & <-). symmetry in E. apply app_eq_nil in E. destruct E as [-> ->]. rewrite app_nil_r in HM.
      destruct HM as [HM|[_ HM]]; [exfalso; apply (HC u []); [now rewrite app_nil_r|exact HM]|].
      destruct (N.eqb_spec q 0); [easy|]. lia.
  - cbn [sel].
    (* the text read is not empty, unless the end is reached *)
    assert (NE : forall x y, c :: t = x ++ y -> b64_mark (u ++ x) \/ y = [] /\ (length (b64_data (u ++ x)) mod 4 = 0)%nat ->
      exists x', x = c :: x' /\ t = x' ++ y).
    { intros x y E HM. destruct x as [|c' x]; [|injection E as <- ->; now exists x]. rewrite app_nil_r in HM.
      destruct HM as [HM|[-> _]]; [|discriminate E]. exfalso. apply (HC u []); [now rewrite app_nil_r|exact HM]. }
    (* going on after [c] without a mark *)
    assert (GO : forall q' p', ~ b64_mark (u ++ [c]) -> st (u ++ [c]) q' p' -> forall d',
      sel q' p' t = Some d' <-> exists x y, c :: t = x ++ y /\
      (b64_mark (u ++ x) \/ y = [] /\ (length (b64_data (u ++ x)) mod 4 = 0)%nat) /\
      (forall v w, u ++ x = v ++ w -> w <> [] -> ~ b64_mark v) /\ exists x', x = c :: x' /\ b64_data x' = d').
    { intros q' p' HM HS' d'. rewrite (IH (u ++ [c]) q' p' d' HS' (clear_snoc u c HC HM)). split.
      - intros (x & y & -> & H1 & H2 & H3). exists (c :: x), y. rewrite <- app_assoc in H1, H2. split; [easy|]. split; [exact H1|].
        split; [exact H2|now exists x].
      - intros (x & y & E & H1 & H2 & x' & -> & H3). injection E as ->. exists x', y. rewrite <- app_assoc. easy. }
    destruct (N.eqb_spec c 61) as [->|NC].
    + assert (D61 : forall x, b64_data (61 :: x) = b64_data x) by reflexivity.
      assert (PAD : forall q' p', ~ b64_mark (u ++ [61]) -> st (u ++ [61]) q' p' -> sel q' p' t = Some d <-> exists x y, 61 :: t = x ++ y /\
        (b64_mark (u ++ x) \/ y = [] /\ (length (b64_data (u ++ x)) mod 4 = 0)%nat) /\
        (forall v w, u ++ x = v ++ w -> w <> [] -> ~ b64_mark v) /\ b64_data x = d).
      { intros q' p' HM HS'. rewrite (GO q' p' HM HS' d). split.
        - intros (x & y & E & H1 & H2 & x' & -> & H3). exists (61 :: x'), y. easy.
        - intros (x & y & E & H1 & H2 & H3). destruct (NE x y E H1) as (x' & -> & _). exists (61 :: x'), y.
          split; [easy|]. split; [easy|]. split; [easy|]. now exists x'. }
      assert (DONE : b64_mark (u ++ [61]) -> Some [] = Some d <-> exists x y, 61 :: t = x ++ y /\
        (b64_mark (u ++ x) \/ y = [] /\ (length (b64_data (u ++ x)) mod 4 = 0)%nat) /\
        (forall v w, u ++ x = v ++ w -> w <> [] -> ~ b64_mark v) /\ b64_data x = d).
      { intros HM. split.
        - intros [= <-]. exists [61], t. split; [easy|]. split; [now left|]. split; [|easy].
          intros v w E HW. destruct w as [|z w] using rev_ind; [easy|]. clear IHw HW. rewrite app_assoc in E. apply app_last in E.
          destruct E as [E _]. exact (HC v w E).
        - intros (x & y & E & H1 & H2 & H3). destruct (NE x y E H1) as (x' & -> & _).
          destruct x' as [|z x']; [cbn in H3; now rewrite <- H3|]. exfalso.
          apply (H2 (u ++ [61]) (z :: x')); [now rewrite <- app_assoc|easy|exact HM]. }
      destruct (N.leb_spec 2 q) as [HQ|HQ].
      * destruct (N.leb_spec 4 (q + (p + 1))) as [HP|HP].
        -- apply DONE. apply mark_pad. destruct (N.eq_dec q 2) as [->|]; [right|left; lia].
           split; [lia|]. apply S3; [easy|lia].
        -- assert (q = 2) as -> by lia. assert (p = 0) as -> by lia. apply PAD.
           ++ rewrite mark_pad. intros [H|[_ H]]; [lia|]. apply S3 in H; lia.
           ++ split; [lia|]. rewrite data_pad. split; [exact S2|]. intros _. split; [intros _; now exists u|lia].
      * apply PAD.
        -- rewrite mark_pad. lia.
        -- split; [easy|]. rewrite data_pad. split; [exact S2|lia].
    + assert (DC : forall x, b64_data (c :: x) = c :: b64_data x) by (intros x; cbn; destruct (N.eqb_spec c 61); easy).
      assert (HM := mark_char u c NC).
      assert (HN : st (u ++ [c]) (nx q) 0).
      { unfold nx. split; [|split].
        - destruct (q =? 0), (q =? 1), (q =? 2); lia.
        - rewrite data_char by easy. rewrite app_length. cbn [length].
          destruct (N.eqb_spec q 0), (N.eqb_spec q 1), (N.eqb_spec q 2); lia.
        - intros _. split; [lia|]. intros (v & E). apply app_last in E. easy. }
      pose proof (GO (nx q) 0 HM HN) as G. split.
      * intros H. destruct (sel (nx q) 0 t) as [d'|] eqn:ES; [|discriminate]. injection H as <-.
        destruct (proj1 (G d') eq_refl) as (x & y & E & H1 & H2 & x' & -> & <-). exists (c :: x'), y. rewrite DC. easy.
      * intros (x & y & E & H1 & H2 & H3). destruct (NE x y E H1) as (x' & -> & _). rewrite DC in H3. subst d.
        rewrite (proj2 (G (b64_data x'))); [reflexivity|]. exists (c :: x'), y. split; [easy|]. split; [easy|]. split; [easy|]. now exists x'.
Qed.

Lemma list4_ind {A} (P : list A -> Prop) : P [] -> (forall a, P [a]) -> (forall a b, P [a; b]) -> (forall a b c, P [a; b; c]) ->
  (forall a b c d l, P l -> P (a :: b :: c :: d :: l)) -> forall l, P l.
Proof.
  intros H0 H1 H2 H3 H4. fix IH 1. intros [|a [|b [|c [|d l]]]]; [exact H0|apply H1|apply H2|apply H3|]. apply H4, IH.
Qed.
Lemma bytes_spec : forall d, (forall c, In c d -> exists v, b64_val c = Some v) -> (length d mod 4 <> 1)%nat ->
  forall bs, b64_bytes d bs <-> dec64 0 0 d = bs.
Proof.
  induction d as [|a|a b|a b c|a b c e d IH] using list4_ind; intros HV HL bs.
  - split; [intros H; now inversion H|intros <-; constructor].
  - now elim HL.
  - destruct (HV a) as [v1 V1]; [cbn; tauto|]. destruct (HV b) as [v2 V2]; [cbn; tauto|].
    pose proof (val_bound _ _ V1). pose proof (val_bound _ _ V2). cbn [dec64]. rewrite V1, V2. cbn [N.eqb Pos.eqb].
    replace ((v1 * 4 + v2 / 16) mod 256) with (v1 * 4 + v2 / 16) by lia. split.
    + intros HB. inversion HB as [|? ? w1 w2 W1 W2| |]; subst. apply sextet_val in W1, W2. congruence.
    + intros <-. constructor; now apply sextet_val.
  - destruct (HV a) as [v1 V1]; [cbn; tauto|]. destruct (HV b) as [v2 V2]; [cbn; tauto|]. destruct (HV c) as [v3 V3]; [cbn; tauto|].
    pose proof (val_bound _ _ V1). pose proof (val_bound _ _ V2). pose proof (val_bound _ _ V3). cbn [dec64]. rewrite V1, V2, V3. cbn [N.eqb Pos.eqb].
    replace ((v1 * 4 + v2 / 16) mod 256) with (v1 * 4 + v2 / 16) by lia.
    replace ((v2 mod 16 * 16 + v3 / 4) mod 256) with (v2 mod 16 * 16 + v3 / 4) by lia. split.
    + intros HB. inversion HB as [| |? ? ? w1 w2 w3 W1 W2 W3|]; subst. apply sextet_val in W1, W2, W3. congruence.
    + intros <-. constructor; now apply sextet_val.
  - destruct (HV a) as [v1 V1]; [cbn; tauto|]. destruct (HV b) as [v2 V2]; [cbn; tauto|]. destruct (HV c) as [v3 V3]; [cbn; tauto|].
    destruct (HV e) as [v4 V4]; [cbn; tauto|].
    pose proof (val_bound _ _ V1). pose proof (val_bound _ _ V2). pose proof (val_bound _ _ V3). pose proof (val_bound _ _ V4).
    cbn [dec64]. rewrite V1, V2, V3, V4. cbn [N.eqb Pos.eqb].
    replace ((v1 * 4 + v2 / 16) mod 256) with (v1 * 4 + v2 / 16) by lia.
    replace ((v2 mod 16 * 16 + v3 / 4) mod 256) with (v2 mod 16 * 16 + v3 / 4) by lia.
    replace ((v3 mod 4 * 64 + v4) mod 256) with (v3 mod 4 * 64 + v4) by lia.
    assert (HV' : forall x, In x d -> exists v, b64_val x = Some v) by (intros x Hx; apply HV; cbn; tauto).
    assert (HL' : (length d mod 4 <> 1)%nat) by (cbn [length] in HL; lia).
    specialize (IH HV' HL'). split.
    + intros HB. inversion HB as [| | |? ? ? ? w1 w2 w3 w4 ? ? W1 W2 W3 W4 HB']; subst. apply sextet_val in W1, W2, W3, W4. apply IH in HB'. congruence.
    + intros <-. constructor; try now apply sextet_val. now apply IH.
Qed.

Lemma binary_exact s bs : binary_parse s = Ok bs <-> b64_reads s bs.
Proof.
  unfold binary_parse.
  assert (HA : forallb (fun c => c <? 128) s = true <-> forall c, In c s -> c < 128).
  { rewrite forallb_forall. split; intros H c Hc; specialize (H c Hc); lia. }
  assert (HR : forall c, In c (filter relevant s) -> relevant c = true) by (intros c Hc; now apply filter_In in Hc).
  assert (S0 : st [] 0 0) by (split; [lia|split; [reflexivity|lia]]).
  assert (C0 : clear_of []).
  { intros v w E. symmetry in E. apply app_eq_nil in E. destruct E as [-> _]. exact mark_nil. }
  assert (DV : forall x y, filter relevant s = x ++ y -> forall c, In c (b64_data x) -> exists v, b64_val c = Some v).
  { intros x y E c Hc. apply filter_In in Hc. destruct Hc as [H1 H2]. assert (HI : In c (filter relevant s)) by (rewrite E; apply in_app_iff; now left).
    apply HR in HI. apply relevant_iff in HI. destruct HI as [->|HI]; [discriminate H2|exact HI]. }
  assert (DL : forall x y, b64_mark x \/ y = @nil N /\ (length (b64_data x) mod 4 = 0)%nat -> (length (b64_data x) mod 4 <> 1)%nat).
  { intros x y [[(u & -> & H)|(u & -> & H)]|[_ H]]; [| |lia]; rewrite data_app;
    [change (b64_data (py "==")) with (@nil N)|change (b64_data (py "=")) with (@nil N)]; rewrite app_nil_r; lia. }
  destruct (forallb (fun c => c <? 128) s) eqn:EA.
  - rewrite <- b64_loop_filter, loop_sel by exact HR. split.
    + destruct (sel 0 0 (filter relevant s)) as [d|] eqn:ES; [|discriminate]. intros [= <-].
      apply (sel_spec _ [] 0 0 d S0 C0) in ES. destruct ES as (x & y & E & H1 & H2 & <-). cbn [app] in H1, H2.
      apply (BR s x y); try assumption; [now apply HA|]. apply bytes_spec; [exact (DV x y E)|exact (DL x y H1)|reflexivity].
    + intros [x y bs' _ E H1 H2 H3].
      assert (ES : sel 0 0 (filter relevant s) = Some (b64_data x)).
      { apply (sel_spec _ [] 0 0 _ S0 C0). exists x, y. easy. }
      rewrite ES. f_equal. apply bytes_spec in H3; [exact H3|exact (DV x y E)|exact (DL x y H1)].
  - split; [discriminate|]. intros [x y bs' H _ _ _ _]. apply HA in H. congruence.
Qed.
