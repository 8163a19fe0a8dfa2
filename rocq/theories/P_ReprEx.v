(** * Examples and consequences for FLOAT values *)
From Verif Require Import M_Base P_Base M_Codec S_Codec P_Codec M_Float S_Float P_Float P_Float2 P_Float3 P_Float4 P_Float5 P_Float6 M_Repr S_Repr P_Repr P_Repr2 P_Repr3 P_Repr4.
From Coq Require Import Lia ZifyBool ZifyNat ZifyN.
Open Scope Z_scope.

Lemma parse_cases t : (exists P b, float_text t P /\ float_parse t = Ok b /\ P b) \/ ((forall P, ~ float_text t P) /\ float_parse t = Err ValueError).
Proof.
  unfold float_parse. destruct (fl_read t) as [b|e] eqn:ER.
  - left. destruct (read_inv t b ER) as (P & HP). destruct (read_text t P HP) as (b' & E' & HB). rewrite ER in E'. injection E' as <-. eauto.
  - right. destruct (read_err t e ER) as (-> & H). auto.
Qed.
Lemma repr_inj a b : bits a -> bits b -> ~ not_a_number a -> ~ not_a_number b -> fl_repr a = fl_repr b -> a = b.
Proof. intros HA HB NA NB Q. pose proof (repr_read a HA NA) as H. rewrite Q, (repr_read b HB NB) in H. now injection H. Qed.
Lemma nan_changed : exists b, bits b /\ float_parse (float_serialize b) <> Ok b.
Proof. exists 18446744073709551615%N. split; [now vm_compute|]. intros H. vm_compute in H. discriminate H. Qed.
Lemma zero_stands : stands (2 ^ 63) true 0 0.
Proof. split; [|now vm_compute]. split; [now vm_compute|]. split; [lia|now left]. Qed.
Lemma stands_bits b neg m E : stands b neg m E -> bits b.
Proof.
  intros ((Hm & HE & _) & HB). unfold bits. change (2 ^ 53) with 9007199254740992 in *. change (2 ^ 52) with 4503599627370496 in *. change (2 ^ 63) with 9223372036854775808 in *. change (2 ^ 64)%N with 18446744073709551616%N.
  destruct (m <? 4503599627370496), neg; lia.
Qed.
Lemma read_bits t b : fl_read t = Ok b -> bits b.
Proof.
  intros H. destruct (read_inv t b H) as (P & HP). revert H. destruct HP as [t neg n d HT|t neg w HW HT|t neg HT]; intros H.
  - destruct (numeral_bounds _ _ _ _ HT) as (Hn & Hd). rewrite (numeral_read _ _ _ _ HT) in H. assert (HQ : encode neg (double_of n d) = b) by congruence. clear H. pose proof (encode_rounded neg n d Hn Hd) as [(_ & m & E & HS & _)|(_ & HI)]; rewrite HQ in *.
    + exact (stands_bits _ _ _ _ HS).
    + unfold bits, infinite in *. destruct neg; vm_compute in HI; destruct b; try discriminate HI; injection HI as ->; reflexivity.
  - assert (HI : In w words) by (destruct HW as [-> | ->]; cbn; auto). rewrite (word_read w _ _ HI HT) in H. destruct HW as [-> | ->]; destruct neg; vm_compute in H; injection H as <-; reflexivity.
  - rewrite (word_read (py "nan") _ _ ltac:(cbn; auto) HT) in H. destruct neg; vm_compute in H; injection H as <-; reflexivity.
Qed.
Lemma parse_again t b : float_parse t = Ok b -> ~ not_a_number b -> float_parse (float_serialize b) = Ok b.
Proof. intros H HN. apply repr_read; [|easy]. exact (read_bits t b H). Qed.
