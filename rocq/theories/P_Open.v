From Verif Require Import M_Base P_Base M_Line S_Line M_Fold S_Fold M_Tree S_Tree P_Tree C_Tree M_Open S_Open.
From Coq Require Import Lia.

Lemma gen_err ls x its : contentlines_to_containers (ls, Some x) = (its, None) -> False.
Proof.
  unfold contentlines_to_containers. cbn [fst snd].
  generalize (S (length ls)) as f. intro f. revert ls its.
  induction f as [|f IH]; intros ls its E; [discriminate E|].
  destruct ls as [|l ls']; [discriminate E|]. cbn [to_containers] in E.
  destruct (str_eqb (cl_name l) (py "BEGIN")).
  - destruct (to_container (S (length ls')) (cl_value l) [] ls' (Some x)) as [[it r]|]; [|discriminate E].
    unfold gcons in E. destruct (to_containers f r (Some x)) as [a [e|]] eqn:G; cbn in E; [discriminate E|].
    eapply IH; eauto.
  - unfold gcons in E. destruct (to_containers f ls' (Some x)) as [a [e|]] eqn:G; cbn in E; [discriminate E|].
    eapply IH; eauto.
Qed.

Lemma string_exact txt its : string_to_containers txt = (its, None) <->
  exists ls, text_lines txt ls /\ Forest ls its.
Proof.
  unfold string_to_containers, lines_to_containers, text_lines.
  destruct (lines_to_contentlines (unfold_lines (string_to_lines txt))) as [ls [x|]] eqn:E.
  - split; [intro H; apply gen_err in H; easy|]. intros (l & H & _). discriminate H.
  - rewrite C11_exact. split; [eauto|]. intros (l & [= <-] & F). exact F.
Qed.

Section Open.
Variable C : Type.
Variable populate : str -> list item -> res C.
Variable fresh : C.

Lemma stream_ok g c : import_stream populate g = Ok c <->
  exists n its, g = ([ICont n its], None) /\ populate n its = Ok c.
Proof.
  split.
  - destruct g as [[|[l|n its] rest] e]; cbn; try (destruct e; discriminate); try discriminate.
    destruct (populate n its) eqn:P; [|discriminate]. cbn.
    destruct rest; [|discriminate]. destruct e; [discriminate|]. intros [= <-]. eauto.
  - intros (n & its & -> & P). cbn. now rewrite P.
Qed.

Lemma open_ok txt c : Calendar populate fresh (FromStr txt) = Ok c <->
  exists n its, holds txt [(n, its)] /\ populate n its = Ok c.
Proof.
  cbn [Calendar]. rewrite stream_ok. split; intros (n & its & H & P); exists n, its; split; auto.
  - apply string_exact in H. exact H.
  - apply string_exact. exact H.
Qed.
Lemma open_zero txt : holds txt [] -> Calendar populate fresh (FromStr txt) = Err ValueError.
Proof. intro H. apply string_exact in H. cbn [Calendar]. now rewrite H. Qed.
Lemma open_several txt n its c d cs : holds txt ((n, its) :: d :: cs) -> populate n its = Ok c ->
  Calendar populate fresh (FromStr txt) = Err ValueError.
Proof. intros H P. apply string_exact in H. cbn [Calendar]. rewrite H. cbn. now rewrite P. Qed.

(** Several calendars followed by an error, or preceded by a stray line. *)
Lemma open_several_lazy txt n its c it rest e :
  string_to_containers txt = (ICont n its :: it :: rest, e) -> populate n its = Ok c ->
  Calendar populate fresh (FromStr txt) = Err ValueError.
Proof. intros H P. cbn [Calendar]. rewrite H. cbn. now rewrite P. Qed.
Lemma open_stray txt l rest e : string_to_containers txt = (ILine l :: rest, e) ->
  Calendar populate fresh (FromStr txt) = Err ValueError.
Proof. intros H. cbn [Calendar]. now rewrite H. Qed.
Lemma open_bad_first txt n its rest e x : string_to_containers txt = (ICont n its :: rest, e) ->
  populate n its = Err x -> Calendar populate fresh (FromStr txt) = Err x.
Proof. intros H P. cbn [Calendar]. rewrite H. cbn. now rewrite P. Qed.
Lemma open_bad_text txt its x : string_to_containers txt = (its, Some x) ->
  its = [] \/ (exists n i c, its = [ICont n i] /\ populate n i = Ok c) ->
  Calendar populate fresh (FromStr txt) = Err x.
Proof. intros H [-> | (n & i & c & -> & P)]; cbn [Calendar]; rewrite H; cbn; [reflexivity|]. now rewrite P. Qed.

Lemma multiple_ok its e cs : multiple populate fresh its e = Ok cs <->
  e = None /\ Forall2 (fun it c => exists n i, it = ICont n i /\ populate n i = Ok c) its cs.
Proof.
  revert cs; induction its as [|it its IH]; intro cs; cbn.
  - destruct e as [x|]; split; [discriminate|intros [HE _]; discriminate|intros [= <-]; auto|intros [_ F]; now inversion F].
  - destruct it as [l|n i]; cbn.
    + split; [discriminate|]. intros [_ F]. inversion F as [|? ? ? ? HP]. destruct HP as (n & i & HH & _). discriminate.
    + destruct (populate n i) eqn:P; cbn.
      * destruct (multiple populate fresh its e) as [r|] eqn:R; cbn.
        -- split.
           ++ intros [= <-]. destruct (IH r) as [IH1 _]. destruct (IH1 eq_refl) as [-> F]. split; [reflexivity|].
              constructor; eauto.
           ++ intros [-> F]. inversion F as [|it0 c0 its0 l' HP F']; subst. destruct HP as (n' & i' & [= <- <-] & P').
              destruct (IH l') as [_ IH2]. rewrite P in P'. injection P' as <-.
              assert (HR : Ok r = Ok l') by (apply IH2; auto). now injection HR as <-.
        -- split; [discriminate|]. intros [-> F]. inversion F as [|it0 c0 its0 l' HP F']; subst. destruct HP as (n' & i' & [= <- <-] & P').
           destruct (IH l') as [_ IH2]. discriminate IH2. auto.
      * split; [discriminate|]. intros [_ F]. inversion F as [|it0 c0 its0 l' HP F']; subst. destruct HP as (n' & i' & [= <- <-] & P'). congruence.
Qed.
Lemma parse_multiple_ok txt cs : parse_multiple populate fresh txt = Ok cs <->
  exists conts, holds txt conts /\ Forall2 (fun k c => populate (fst k) (snd k) = Ok c) conts cs.
Proof.
  unfold parse_multiple. rewrite multiple_ok. split.
  - destruct (string_to_containers txt) as [its e] eqn:E. cbn. intros [-> F].
    assert (X : exists conts, its = map (fun c => ICont (fst c) (snd c)) conts /\
                Forall2 (fun k c => populate (fst k) (snd k) = Ok c) conts cs).
    { clear E. induction F as [|it c its cs (n & i & -> & P) F (conts & -> & IH)]; [exists []; now split|].
      exists ((n, i) :: conts). split; [reflexivity|]. now constructor. }
    destruct X as (conts & -> & F'). exists conts. split; [|exact F']. apply string_exact in E. exact E.
  - intros (conts & H & F). apply string_exact in H. rewrite H. cbn. split; [reflexivity|].
    clear H. induction F as [|[n i] c ks cs P F IH]; cbn; constructor; [exists n, i; now split|exact IH].
Qed.
End Open.

Lemma one_ok {A} (g : gen A) a : one g = Ok a <-> g = ([a], None).
Proof.
  destruct g as [[|x [|y r]] [e|]]; cbn; split; try discriminate; now intros [= ->].
Qed.
Lemma one_err {A} (g : gen A) x : one g = Err x <->
  (exists l, fst g = l /\ (2 <= length l)%nat /\ x = ValueError) \/
  (fst g = [] /\ snd g = None /\ x = ValueError) \/
  ((length (fst g) <= 1)%nat /\ snd g = Some x).
Proof.
  destruct g as [[|a [|b r]] [e|]]; cbn; split; intro H.
  all: try (injection H as <-).
  all: try (right; right; split; [lia|reflexivity]).
  all: try (left; eexists; repeat split; cbn; lia).
  all: try (right; left; repeat split; reflexivity).
  all: try discriminate.
  all: destruct H as [(l & <- & H & ->)|[(H & H2 & ->)|(H & H2)]]; cbn in *; try congruence; try lia; try discriminate.
Qed.
