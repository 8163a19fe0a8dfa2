(** * Proofs for the scopes *)
From Verif Require Import M_Base M_Codec M_Cal M_Time M_Scope S_Scope.
From Coq Require Import Lia.
Open Scope Z_scope.

Lemma width_restored p s s' o : exec p s s' o -> width_scoped p -> g_width s' = g_width s.
Proof.
  induction 1; cbn [width_scoped]; intros HS; try easy; try tauto.
  - rewrite IHexec2 by tauto. apply IHexec1. tauto.
  - rewrite IHexec2 by tauto. apply IHexec1. tauto.
  - rewrite IHexec2 by easy. now apply IHexec1.
Qed.
Lemma data_restored p s s' o : exec p s s' o -> data_scoped p -> g_uid s' = g_uid s /\ g_stamp s' = g_stamp s.
Proof.
  induction 1; cbn [data_scoped]; intros HS; try easy; try tauto.
  - destruct IHexec1 as [A B]; [tauto|]. rewrite <- A, <- B. apply IHexec2. tauto.
  - destruct IHexec1 as [A B]; [tauto|]. rewrite <- A, <- B. apply IHexec2. tauto.
  - destruct IHexec1 as [A B]; [easy|]. rewrite <- A, <- B. now apply IHexec2.
Qed.
(** Inside a scope the width is the one asked for. *)
Lemma asked_ok w n : new_width w = Ok n -> asked w n.
Proof.
  destruct w as [|w|]; cbn; intro E; [injection E as <-; constructor| |discriminate]. injection E as <-.
  destruct (Z.eqb_spec w 0) as [->|]; [now constructor|]. cbn [orb]. destruct (Z.leb_spec w 0); [now constructor|now constructor].
Qed.
Lemma wrap_inside w p s s' o : exec (PWrap w p) s s' o ->
  (w = WBad /\ o = Raised TypeError /\ s' = s) \/
  (exists n s1, asked w n /\ exec p (mk_gs n (g_uid s) (g_stamp s)) s1 o /\ g_width s' = g_width s /\
     g_uid s' = g_uid s1 /\ g_stamp s' = g_stamp s1).
Proof.
  inversion 1 as [| | | | | | | | | | | | | | | |? e ? ? E|? n ? ? ? ? E HX|]; subst.
  - left. destruct w; cbn in E; try discriminate. now injection E as <-.
  - right. apply asked_ok in E. exists n. eauto 10.
Qed.
Lemma det_inside u d p s s' o : exec (PDet u d p) s s' o ->
  exists s1, exec p (mk_gs (g_width s) (Some u) (Some d)) s1 o /\ g_width s' = g_width s1 /\
    g_uid s' = g_uid s /\ g_stamp s' = g_stamp s.
Proof. inversion 1; subst. eauto 10. Qed.

(** ** Threads *)
Definition one_step (vs : Z * list Z) (e : event) : Z * list Z :=
  match e with
  | Enter w => (w, fst vs :: snd vs)
  | Exit => match snd vs with [] => vs | o :: r => (o, r) end
  end.
Lemma balanced_one l : balanced l -> forall v st, fold_left one_step l (v, st) = (v, st).
Proof.
  induction 1 as [|w l l' H1 IH1 H2 IH2]; intros v st; [reflexivity|].
  cbn [fold_left one_step fst snd]. rewrite fold_left_app, IH1. cbn [fold_left one_step snd]. apply IH2.
Qed.
Lemma own_is_one t tr : forall s,
  (ow_val (ow_run s tr) t, ow_old (ow_run s tr) t) = fold_left one_step (of_thread t tr) (ow_val s t, ow_old s t).
Proof.
  induction tr as [|[u e] tr IH]; intros s; [reflexivity|].
  cbn [ow_run fold_left]. fold (ow_run (ow_step s (u, e)) tr). rewrite IH. unfold of_thread. cbn [filter fst].
  destruct (Bool.eqb_spec u t) as [->|Hn].
  - cbn [map snd fold_left]. f_equal. destruct e; cbn [ow_step one_step fst snd].
    + unfold put. cbn [ow_val ow_old]. now rewrite !Bool.eqb_reflx.
    + destruct (ow_old s t) as [|o r] eqn:E; [now rewrite E|]. unfold put. cbn [ow_val ow_old]. now rewrite !Bool.eqb_reflx.
  - f_equal. assert (HE : Bool.eqb t u = false) by (destruct t, u; easy).
    destruct e; cbn [ow_step]; [unfold put; cbn [ow_val ow_old]; now rewrite HE|].
    destruct (ow_old s u) as [|o r]; [reflexivity|]. unfold put. cbn [ow_val ow_old]. now rewrite HE.
Qed.
Lemma own_restored tr t s : balanced (of_thread t tr) -> ow_val (ow_run s tr) t = ow_val s t.
Proof.
  intros H. pose proof (own_is_one t tr s) as E. rewrite (balanced_one _ H) in E. now injection E.
Qed.
Lemma nested_restored tr : nested tr -> forall s,
  sh_width (sh_run s tr) = sh_width s /\ forall u, sh_old (sh_run s tr) u = sh_old s u.
Proof.
  induction 1 as [|t w l l' H1 IH1 H2 IH2]; intros s; [easy|].
  unfold sh_run. cbn [fold_left]. rewrite fold_left_app. cbn [fold_left].
  fold (sh_run (sh_step s (t, Enter w)) l). set (s1 := sh_step s (t, Enter w)).
  destruct (IH1 s1) as [W1 O1]. set (s2 := sh_run s1 l) in *.
  assert (HO : sh_old s2 t = sh_width s :: sh_old s t).
  { rewrite O1. subst s1. cbn. unfold put. now rewrite Bool.eqb_reflx. }
  assert (HS : sh_step s2 (t, Exit) = mk_sh (sh_width s) (put (sh_old s2) t (sh_old s t))).
  { cbn [sh_step]. now rewrite HO. }
  rewrite HS. set (s3 := mk_sh _ _) in *. fold (sh_run s3 l').
  destruct (IH2 s3) as [W2 O2]. rewrite W2. split; [reflexivity|].
  intros u. rewrite O2. subst s3. cbn [sh_old]. unfold put.
  destruct (Bool.eqb_spec u t) as [->|Hn]; [reflexivity|]. rewrite O1. subst s1. cbn. unfold put.
  destruct (Bool.eqb_spec u t); [easy|reflexivity].
Qed.
