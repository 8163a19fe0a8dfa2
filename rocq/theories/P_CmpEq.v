(** * Proofs: equality of datetimes, spans and entries *)
From Verif Require Import M_Base P_Base M_Codec M_Cal M_Time M_Span S_Span M_Cmp S_Cmp P_Cmp.
From Coq Require Import Lia ZifyBool.
Open Scope Z_scope.

Lemma same_tz_spec a b : same_tz (dtz a) (dtz b) = true <-> same_zone a b.
Proof.
  unfold same_tz, same_zone. destruct (dtz a) as [[n|o|]|], (dtz b) as [[m|o'|]|]; split; intros H; try discriminate H; try easy;
    try (destruct H as [[H1 H2]|(k & H1 & H2)]; congruence).
  - right. apply N.eqb_eq in H. subst m. now exists n.
  - destruct H as [[H1 H2]|(k & H1 & H2)]; [congruence|]. injection H1 as ->. injection H2 as ->. apply N.eqb_refl.
  - now left.
Qed.
Lemma fold_spec E a : dtz a <> None -> fold_matters E a = false <-> unambiguous E a.
Proof.
  unfold fold_matters, unambiguous. intros H. destruct (dtz a) as [z|]; [|congruence].
  rewrite negb_false_iff. apply Z.eqb_eq.
Qed.
Lemma dt_eqb_spec E a b : dt_eqb E a b = true <-> same_time E a b.
Proof.
  unfold dt_eqb, same_time. pose proof (same_tz_spec a b) as HS. destruct (same_tz (dtz a) (dtz b)).
  - assert (same_zone a b) by now apply HS. rewrite Z.eqb_eq. tauto.
  - assert (~ same_zone a b) by (intros H; apply HS in H; discriminate).
    unfold naive. pose proof (fold_spec E a) as FA. pose proof (fold_spec E b) as FB. unfold moment.
    destruct (dtz a) as [za|] eqn:EA, (dtz b) as [zb|] eqn:EB; cbn [orb]; try (split; [discriminate|]; intros [H'|H']; [tauto|];
      destruct H' as (_ & H1 & H2 & _); congruence).
    rewrite !andb_true_iff, !negb_true_iff, Z.eqb_eq, FA, FB by congruence.
    assert (Some za <> None) by discriminate. assert (Some zb <> None) by discriminate. tauto.
Qed.
Lemma opt_dt_eqb_spec E a b : opt_dt_eqb E a b = true <-> same_opt (same_time E) a b.
Proof.
  unfold opt_dt_eqb. destruct a as [a|], b as [b|]; try (split; [discriminate|]; intros H; now inversion H).
  - rewrite dt_eqb_spec. split; [now constructor|]. intros H. now inversion H.
  - split; [constructor|reflexivity].
Qed.
Lemma opt_z_eqb_spec a b : opt_z_eqb a b = true <-> a = b.
Proof.
  destruct a as [a|], b as [b|]; cbn; try (split; discriminate); [|easy].
  rewrite Z.eqb_eq. split; [now intros ->|now intros [= ->]].
Qed.
Lemma opt_str_eqb_spec a b : opt_str_eqb a b = true <-> a = b.
Proof.
  destruct a as [a|], b as [b|]; cbn; try (split; discriminate); [|easy].
  rewrite str_eqb_eq. split; [now intros ->|now intros [= ->]].
Qed.
Lemma span_eqb_spec E s t : span_eqb E s t = true <-> same_span E s t.
Proof.
  unfold span_eqb. rewrite !andb_true_iff, !opt_dt_eqb_spec, opt_z_eqb_spec.
  assert (HK : kind_same (ts_kind s) (ts_kind t) = true <-> ts_kind s = ts_kind t)
    by (destruct (ts_kind s), (ts_kind t); split; try discriminate; reflexivity).
  assert (HP : prec_eqb (ts_prec s) (ts_prec t) = true <-> ts_prec s = ts_prec t)
    by (destruct (ts_prec s), (ts_prec t); split; try discriminate; try reflexivity;
        [intros H; f_equal; now apply N.eqb_eq|intros [= ->]; apply N.eqb_refl]).
  rewrite HK, HP. split; [intros [[[[H1 H2] H3] H4] H5]; now constructor|intros [H1 H2 H3 H4 H5]; tauto].
Qed.
Lemma entry_eqb_spec E x y : entry_eqb E x y = true <->
  same_span E (en_span x) (en_span y) /\ en_summary x = en_summary y /\ en_rest x = en_rest y.
Proof. unfold entry_eqb. rewrite !andb_true_iff, span_eqb_spec, opt_str_eqb_spec, N.eqb_eq. tauto. Qed.

(** ** [includes] of an instant, where the span has no begin or end, or is a todo's *)
Lemma required_instant E s sb se d : good_local E -> ends E s sb se -> convertible E d ->
  includes_dt E s d = Err ValueError <-> sb = None \/ se = None.
Proof.
  intros GL HS HD. destruct (tuple_ends E s sb se GL HS) as (sb' & se' & TS & -> & ->).
  destruct (norm_ok E GL d HD) as (d' & N1 & _). unfold includes_dt. rewrite TS. cbn [bind]. rewrite N1. cbn [bind tp_1 tp_2].
  rewrite <- !is_none_iff. unfold guard.
  destruct (is_none sb') eqn:E1, (is_none se') eqn:E2; cbn [orb bind]; try (split; [auto|reflexivity]).
  split; [|intros [X|X]; discriminate X]. intros H. exfalso. revert H. apply within_not_value; [apply begin_not_value| |apply end_not_value].
  discriminate.
Qed.
Lemma todo_instant E s b e d : good_local E -> ts_kind s = KTodo -> ts_begin s = Some b -> eff_end E s = Ok (Some e) ->
  convertible E b -> convertible E e -> convertible E d -> includes_dt E s d = Err AttributeError.
Proof.
  intros GL K HB HE CB CE CD. destruct (norm_ok E GL b CB) as (b' & B1 & _), (norm_ok E GL e CE) as (e' & E1 & _), (norm_ok E GL d CD) as (d' & D1 & _).
  unfold includes_dt, span_tuple. rewrite HB. cbn [or_default opt_res]. rewrite B1. cbn [rmap bind]. rewrite HE. cbn [or_default opt_res bind].
  rewrite E1. cbn [rmap bind]. rewrite K, D1. reflexivity.
Qed.
