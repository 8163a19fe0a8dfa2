(** * Proofs: exactly which texts are read as integers and as base64 *)
From Verif Require Import M_Base P_Base M_Codec S_Codec P_Codec.
From Coq Require Import Lia ZifyBool ZifyNat ZifyN.
Open Scope Z_scope.

Lemma is_space_blank c : is_space c = true <-> blank c.
Proof. unfold is_space, blank. cbn. lia. Qed.
Lemma lstrip_split s : exists pre, Forall blank pre /\ s = pre ++ lstrip_space s /\
  match lstrip_space s with c :: _ => is_space c = false | [] => True end.
Proof.
  induction s as [|c s IH]; [now exists []|]. cbn [lstrip_space]. destruct (is_space c) eqn:E.
  - destruct IH as (pre & H1 & H2 & H3). exists (c :: pre). split; [constructor; [now apply is_space_blank|easy]|].
    split; [cbn; now rewrite <- H2|easy].
  - now exists [].
Qed.
Lemma strip_split s : exists pre post, Forall blank pre /\ Forall blank post /\ s = pre ++ strip_space s ++ post.
Proof.
  unfold strip_space. destruct (lstrip_split s) as (pre & H1 & H2 & _).
  destruct (lstrip_split (rev (lstrip_space s))) as (post & H3 & H4 & _).
  exists pre, (rev post). split; [easy|]. split; [apply Forall_rev; easy|].
  rewrite H2 at 1. f_equal. rewrite <- (rev_involutive (lstrip_space s)) at 1. rewrite H4 at 1. now rewrite rev_app_distr.
Qed.
Lemma lstrip_blanks pre : Forall blank pre -> forall s, lstrip_space (pre ++ s) = lstrip_space s.
Proof. induction 1 as [|c pre H H' IH]; intros s; [easy|]. cbn. apply is_space_blank in H. now rewrite H. Qed.
Lemma strip_core pre s post : Forall blank pre -> Forall blank post -> s <> [] ->
  (forall c, In c s -> is_space c = false) -> strip_space (pre ++ s ++ post) = s.
Proof.
  intros H1 H2 HN HS. unfold strip_space. rewrite lstrip_blanks by easy. rewrite (lstrip_id (s ++ post)).
  2:{ destruct s as [|c s]; [easy|]. apply HS. now left. }
  rewrite rev_app_distr, lstrip_blanks by now apply Forall_rev.
  rewrite lstrip_id; [apply rev_involutive|]. destruct (rev s) as [|c r] eqn:E; [easy|]. apply HS. apply in_rev. rewrite E. now left.
Qed.

Definition digs (d : list N) : Prop := d <> [] /\ forall c, In c d -> (48 <= c <= 57)%N.
Lemma digit_iff c : is_digit c = true <-> (48 <= c <= 57)%N.
Proof. apply is_digit_spec. Qed.
(** continuing a group (prev) or starting one *)
Lemma int_digits_inv : forall s prev ds, int_digits prev s = Some ds ->
  exists g gs, s = underscored g gs /\ ds = g ++ concat gs /\ (forall c, In c g -> (48 <= c <= 57)%N) /\ (prev = false -> g <> []) /\ forall d, In d gs -> digs d.
Proof.
  induction s as [|c s IH]; intros prev ds H; cbn [int_digits] in H.
  - destruct prev; [|discriminate]. injection H as <-. exists [], []. repeat split; easy.
  - destruct (is_digit c) eqn:ED.
    + destruct (int_digits true s) as [d|] eqn:EI; [|discriminate]. injection H as <-.
      destruct (IH true d EI) as (g & gs & -> & -> & H1 & _ & H2). exists (c :: g), gs. split; [now destruct gs|]. split; [easy|].
      split; [intros x [<-|Hx]; [now apply digit_iff|now apply H1]|]. split; [easy|exact H2].
    + destruct (N.eqb_spec c 95) as [->|]; [|discriminate]. cbn [andb] in H. destruct prev; [|discriminate].
      destruct (IH false ds H) as (g & gs & -> & -> & H1 & H2 & H3). exists [], (g :: gs). split; [reflexivity|]. split; [reflexivity|].
      split; [easy|]. split; [easy|]. intros d [<-|Hd]; [split; [now apply H2|exact H1]|now apply H3].
Qed.
Lemma int_digits_app g : forall s prev, (forall c, In c g -> (48 <= c <= 57)%N) -> g <> [] ->
  int_digits prev (g ++ s) = option_map (fun d => g ++ d) (int_digits true s).
Proof.
  induction g as [|c g IH]; intros s prev H HN; [easy|]. cbn [app int_digits].
  rewrite (proj2 (digit_iff c)) by (apply H; now left). destruct g as [|c' g].
  - cbn [app]. now destruct (int_digits true s).
  - rewrite IH; [|intros x Hx; apply H; now right|easy]. now destruct (int_digits true s).
Qed.
Lemma int_digits_groups : forall gs g, (forall d, In d (g :: gs) -> digs d) -> int_digits false (underscored g gs) = Some (g ++ concat gs).
Proof.
  induction gs as [|h gs IH]; intros g H; cbn [underscored concat].
  - destruct (H g) as [H1 H2]; [now left|]. rewrite <- (app_nil_r g) at 1. rewrite int_digits_app by easy. cbn. now rewrite app_nil_r.
  - destruct (H g) as [H1 H2]; [now left|]. rewrite int_digits_app by easy.
    change (int_digits true (py "_" ++ underscored h gs)) with (int_digits false (underscored h gs)).
    rewrite IH; [reflexivity|]. intros d Hd. apply H. now right.
Qed.
Lemma underscored_chars : forall gs g c, (forall d, In d (g :: gs) -> digs d) -> In c (underscored g gs) -> (48 <= c <= 57)%N \/ c = 95%N.
Proof.
  induction gs as [|h gs IH]; intros g c H HI; cbn [underscored] in HI.
  - left. apply (proj2 (H g (or_introl eq_refl)) c HI).
  - apply in_app_iff in HI. destruct HI as [HI|HI]; [left; apply (proj2 (H g (or_introl eq_refl)) c HI)|].
    apply in_app_iff in HI. destruct HI as [[<-|[]]|HI]; [now right|]. apply (IH h c); [|easy]. intros d Hd. apply H. now right.
Qed.
Lemma underscored_first gs g : (forall d, In d (g :: gs) -> digs d) -> exists c r, underscored g gs = c :: r /\ (48 <= c <= 57)%N.
Proof.
  intros H. destruct (H g) as [H1 H2]; [now left|]. destruct g as [|c g]; [easy|].
  exists c. destruct gs; eexists; (split; [reflexivity|apply H2; now left]).
Qed.
Lemma int_exact s v : int_parse s = Ok v <-> IntText s v.
Proof.
  split.
  - unfold int_parse. destruct (strip_split s) as (pre & post & H1 & H2 & ES).
    assert (K : forall sign k r, strip_space s = sign ++ r -> (sign = py "+" \/ sign = []) /\ k = 1 \/ sign = py "-" /\ k = -1 ->
      match int_digits false r with Some d => Ok (k * Z.of_N (undec d)) | None => Err ValueError end = Ok v -> IntText s v).
    { intros sign k r HS HK H. destruct (int_digits false r) as [d|] eqn:EI; [|discriminate]. injection H as <-.
      destruct (int_digits_inv r false d EI) as (g & gs & -> & -> & G1 & G2 & G3). rewrite ES, HS, <- app_assoc.
      constructor; try assumption; [intros x [<-|Hx]; [split; [now apply G2|exact G1]|now apply G3]|].
      unfold number. split; [|split; [|reflexivity]].
      - specialize (G2 eq_refl). destruct g; easy.
      - intros c Hc. apply in_app_iff in Hc. destruct Hc as [Hc|Hc]; [now apply G1|].
        apply in_concat in Hc. destruct Hc as (x & X1 & X2). exact (proj2 (G3 x X1) c X2). }
    destruct (strip_space s) as [|c r] eqn:EQ.
    + intros H. apply (K [] 1 []); [easy|left; tauto|exact H].
    + destruct (N.eqb_spec c c_dash) as [->|N1].
      * intros H. apply (K (py "-") (-1) r); [easy|tauto|exact H].
      * destruct (N.eqb_spec c c_plus) as [->|N2]; intros H.
        -- apply (K (py "+") 1 r); [easy|tauto|exact H].
        -- apply (K [] 1 (c :: r)); [easy|left; tauto|exact H].
  - intros [pre sign k g gs post w H1 H2 HK HG (N1 & N2 & ->)].
    destruct (underscored_first gs g HG) as (c0 & r0 & E0 & D0).
    assert (SG : forall c, In c sign -> c = c_plus \/ c = c_dash).
    { intros c Hc. destruct HK as [[[-> | ->] _]|[-> _]]; cbn in Hc; unfold c_plus, c_dash; intuition. }
    assert (ST : strip_space (pre ++ sign ++ underscored g gs ++ post) = sign ++ underscored g gs).
    { rewrite (app_assoc sign). apply strip_core; try assumption.
      - intros H. apply app_eq_nil in H. destruct H as [_ H]. rewrite E0 in H. discriminate H.
      - intros c Hc. apply in_app_iff in Hc. destruct Hc as [Hc|Hc].
        + destruct (SG c Hc) as [-> | ->]; reflexivity.
        + destruct (underscored_chars gs g c HG Hc) as [H| ->]; [|reflexivity]. unfold is_space. lia. }
    unfold int_parse. rewrite ST. destruct HK as [[[-> | ->] ->]|[-> ->]].
    + change (py "+" ++ underscored g gs) with (c_plus :: underscored g gs). cbv iota beta.
      change (N.eqb c_plus c_dash) with false. change (N.eqb c_plus c_plus) with true. cbv iota beta.
      now rewrite int_digits_groups.
    + cbn [app]. rewrite E0. cbv iota beta. destruct (N.eqb_spec c0 c_dash) as [->|]; [unfold c_dash in D0; lia|].
      destruct (N.eqb_spec c0 c_plus) as [->|]; [unfold c_plus in D0; lia|]. rewrite <- E0. now rewrite int_digits_groups.
    + change (py "-" ++ underscored g gs) with (c_dash :: underscored g gs). cbv iota beta.
      change (N.eqb c_dash c_dash) with true. cbv iota beta. now rewrite int_digits_groups.
Qed.
