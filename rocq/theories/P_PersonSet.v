(** * Proofs: assigning and reading an attribute of a person *)
From Verif Require Import M_Base M_Text M_Line M_Codec M_Cal M_Time M_Span M_Dt M_Tree M_Comp M_Person S_Codec S_Line S_Person S_PersonSet.
From Verif Require Import P_Base P_Codec P_Person.
From Coq Require Import Lia.

Section PersonSet.
Variable X : ext.

Lemma bool_parse_err s e : bool_parse s = Err e -> e = ValueError /\ forall w, In w (true_words ++ false_words) -> ~ same_letters s w.
Proof.
  intros H. split; [now apply (bool_parse_error s)|]. intros w I S. apply in_app_or in I as [I|I].
  - assert (bool_parse s = Ok true) by (apply bool_parse_exact; now exists w). congruence.
  - assert (bool_parse s = Ok false) by (apply bool_parse_exact; now exists w). congruence.
Qed.
Lemma kept_exists c v : modelled_one c v -> kept_as X c v (pserialize X c v).
Proof.
  intros M. destruct c; cbn [modelled_one] in M.
  - destruct v; try easy. constructor.
  - destruct v; try easy; cbn [pserialize]; try constructor; eauto.
  - destruct v as [|s|u| |b|l]; cbn [pserialize truthy bool_serialize].
    + apply KA_empty. now left.
    + unfold bool_serialize_str. destruct (bool_parse s) as [b|e] eqn:EB; cbn [rmap bind].
      * apply bool_parse_exact in EB as (w & I & S). destruct b; [now apply (KA_true X s w)|now apply (KA_false X s w)].
      * apply bool_parse_err in EB as [-> N]. now apply KA_no_word.
    + apply KA_full. eauto.
    + apply KA_full. auto.
    + destruct b; [apply KA_full|apply KA_empty]; auto.
    + destruct l as [|x l]; [apply KA_empty; auto|apply KA_full; eauto 6].
Qed.
Lemma same_words s w w' : In w true_words -> In w' false_words -> same_letters s w -> same_letters s w' -> False.
Proof.
  intros I I' S S'. assert (bool_parse s = Ok true) by (apply bool_parse_exact; now exists w).
  assert (bool_parse s = Ok false) by (apply bool_parse_exact; now exists w'). congruence.
Qed.
Lemma kept_one c v r r' : kept_as X c v r -> kept_as X c v r' -> r = r'.
Proof.
  assert (W : forall s w, (forall w, In w (true_words ++ false_words) -> ~ same_letters s w) -> In w true_words \/ In w false_words -> same_letters s w -> False).
  { intros s w N I. apply N, in_or_app. exact I. }
  intros H H'. inversion H; subst; inversion H'; subst; try reflexivity;
  repeat match goal with
  | A : _ \/ _ |- _ => destruct A; try discriminate
  | A : exists x, _ |- _ => destruct A; try discriminate
  end; try reflexivity; try congruence; exfalso; eauto using same_words.
Qed.
Lemma all_kept_exists c l : Forall (modelled_one c) l -> all_kept X c l (pserialize_all X c l).
Proof.
  induction 1 as [|v l M _ IH]; cbn [pserialize_all]; [constructor|]. pose proof (kept_exists c v M) as K.
  destruct (pserialize X c v) as [s|e]; cbn [bind]; [|now constructor].
  destruct (pserialize_all X c l) as [ss|e]; cbn [bind]; [now constructor|now apply (AK_later X c v s)].
Qed.
Lemma all_kept_one c l r : all_kept X c l r -> forall r', all_kept X c l r' -> r = r'.
Proof.
  induction 1 as [|v vs e K|v s vs e K A IH|v s vs ss K A IH]; intros r' H'; inversion H'; subst; try reflexivity;
  repeat match goal with A : kept_as X ?c ?v _, B : kept_as X ?c ?v _ |- _ => pose proof (kept_one _ _ _ _ A B) as Q; clear B end; try congruence;
  match goal with B : all_kept X c vs _ |- _ => now specialize (IH _ B); congruence end.
Qed.
Lemma put_exists a v : modelled a v -> put_into X a v (do l <- (if pp_multi a then do vs <- iterate v; pserialize_all X (pp_conv a) vs
           else rmap (fun s => [s]) (pserialize X (pp_conv a) v)); Ok l).
Proof.
  intros M. unfold modelled in M. destruct (pp_multi a) eqn:EM.
  - assert (L : forall l, Forall (modelled_one (pp_conv a)) l -> all_kept X (pp_conv a) l (do l <- pserialize_all X (pp_conv a) l; Ok l)).
    { intros l F. pose proof (all_kept_exists _ _ F) as K. now destruct (pserialize_all X (pp_conv a) l). }
    destruct v as [|s|u| |b|l]; cbn [iterate bind]; try easy.
    + apply PI_single; [exact EM|now left].
    + apply PI_chars; [exact EM|]. apply L. apply Forall_forall. intros v I. apply in_map_iff in I as (c & <- & _). now destruct (pp_conv a).
    + apply PI_single; [exact EM|right; eauto].
    + apply PI_list; [exact EM|]. now apply L.
  - pose proof (kept_exists _ _ M) as K. destruct (pserialize X (pp_conv a) v); cbn [rmap bind]; now constructor.
Qed.
Lemma put_one a v r r' : put_into X a v r -> put_into X a v r' -> r = r'.
Proof.
  intros H H'. inversion H; subst; inversion H'; subst; try congruence;
  repeat match goal with
  | A : _ \/ _ |- _ => destruct A; try discriminate
  | A : exists x, _ |- _ => destruct A; try discriminate
  | A : kept_as X ?c ?v _, B : kept_as X ?c ?v _ |- _ => pose proof (kept_one _ _ _ _ A B); clear B
  | A : all_kept X ?c ?v _, B : all_kept X ?c ?v _ |- _ => pose proof (all_kept_one _ _ _ A _ B); clear B
  end; congruence.
Qed.
Lemma set_exact a v p r : modelled a v -> put_into X a v r ->
  pset X a v p = match r with
                 | Ok l => Ok (mk_person (p_role p) (p_email p) (dict_set (pp_name a) (map PRaw l) (p_extra p)))
                 | Err e => Err e
                 end.
Proof.
  intros M P. pose proof (put_one _ _ _ _ P (put_exists a v M)) as ->. unfold pset.
  destruct (if pp_multi a then _ else _); reflexivity.
Qed.
Lemma put_total a v : modelled a v -> exists r, put_into X a v r.
Proof. intros M. eexists. now apply put_exists. Qed.

Lemma parse_fails c v e : pparse X c v = Err e <-> unreadable X c v e.
Proof.
  split.
  - intros H. destruct c; cbn [pparse] in H; [discriminate| |].
    + destruct v as [s|[|x s]]; try discriminate.
      * destruct (x_urlparse X s) eqn:EU; [discriminate|]. cbn in H. injection H as <-. now constructor.
      * injection H as <-. now constructor.
    + destruct (bool_parse (pval_str v)) eqn:EB; [discriminate|]. cbn in H. injection H as <-. apply bool_parse_err in EB as [-> N]. now constructor.
  - intros [v' N|s N|s e' U]; cbn [pparse].
    + destruct (bool_parse (pval_str v')) as [b|e'] eqn:EB; [|apply bool_parse_err in EB as [-> _]; reflexivity]. exfalso.
      apply bool_parse_exact in EB as (w & I & S). apply (N w); [|exact S]. apply in_or_app. destruct b; auto.
    + now destruct s.
    + now rewrite U.
Qed.
Lemma parse_stands c v x : pparse X c v = Ok x <-> stands X c v x.
Proof.
  pose proof (get_iff X (mk_pprop [] [] c false PyNone) (mk_person RAttendee (EStr []) [([], [v])]) x) as G. cbn in G.
  rewrite G. split; [|eauto]. intros [[? _]|(v' & [= <-] & S)]; [discriminate|exact S].
Qed.
Lemma get_err_exact a p e : pget X a p = Err e <-> exists vs, dict_get (pp_name a) (p_extra p) = Some vs /\ get_fails X a vs e.
Proof.
  unfold pget. destruct (dict_get (pp_name a) (p_extra p)) as [vs|]; [|split; [discriminate|intros (? & [=] & _)]].
  assert (SM : (exists vs', Some vs = Some vs' /\ get_fails X a vs' e) <-> get_fails X a vs e).
  { split; [intros (? & [= <-] & H); exact H|eauto]. }
  rewrite SM. clear SM. destruct (pp_multi a) eqn:EM.
  - assert (AL : pparse_all X (pp_conv a) vs = Err e <-> exists pre v post xs, vs = pre ++ v :: post /\ Forall2 (stands X (pp_conv a)) pre xs /\ unreadable X (pp_conv a) v e).
    { clear EM. induction vs as [|v vs IH]; cbn [pparse_all].
      - split; [discriminate|]. intros (pre & v & post & xs & H & _). now destruct pre.
      - split.
        + destruct (pparse X (pp_conv a) v) as [x|e'] eqn:EP; cbn [bind].
          * destruct (pparse_all X (pp_conv a) vs) as [r|e'] eqn:EA; cbn [bind]; [discriminate|]. intros [= ->].
            destruct (proj1 IH eq_refl) as (pre & w & post & xs & -> & F & U). exists (v :: pre), w, post, (x :: xs).
            split; [reflexivity|]. split; [|exact U]. constructor; [now apply parse_stands|exact F].
          * intros [= ->]. exists [], v, vs, []. split; [reflexivity|]. split; [constructor|now apply parse_fails].
        + intros (pre & w & post & xs & H & F & U). destruct pre as [|v' pre].
          * injection H as -> ->. apply parse_fails in U. now rewrite U.
          * injection H as <- ->. inversion F as [|? x ? xs' S F' E1 E2]; subst. apply parse_stands in S. rewrite S. cbn [bind].
            rewrite (proj2 IH); [reflexivity|]. now exists pre, w, post, xs'. }
    split.
    + intros H. destruct (pparse_all X (pp_conv a) vs) as [r|e'] eqn:EA; [discriminate|]. cbn in H. injection H as ->.
      destruct (proj1 AL eq_refl) as (pre & v & post & xs & -> & F & U). now apply (GF_first X a pre v post e xs).
    + intros H. inversion H; subst; try congruence. rewrite (proj2 AL); [reflexivity|]. eauto 8.
  - destruct vs as [|v [|w vs]].
    + split; [discriminate|]. intros H. inversion H as [| |pre v vs e' xs M F U E1 E2]; subst; congruence.
    + rewrite parse_fails. split; [now constructor|]. intros H. inversion H; subst; congruence.
    + split; [intros [= <-]; now constructor|]. intros H. inversion H; subst; congruence.
Qed.
End PersonSet.
