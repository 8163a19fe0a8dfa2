(** * Proofs: texts of equal calendars (C67) *)
From Verif Require Import M_Base M_Text M_Line M_Codec M_Cal M_Time M_Span M_Dt M_Fold M_Tree M_Comp M_Open M_Serial.
From Verif Require Import S_Line S_Fold S_Tree S_Comp S_Store S_Ref S_Wire S_Again S_Same.
From Verif Require Import P_Base P_Line P_Again4 P_Same.
From Coq Require Import Lia ZifyBool ZifyNat ZifyN.
Open Scope N_scope.

Lemma quote_needed s : needs_quote s = true <-> exists c, In c s /\ In c [58; 59; 44].
Proof.
  unfold needs_quote. rewrite existsb_exists. unfold c_colon, c_semi, c_comma. split; intros (c & I & H); exists c; (split; [exact I|]); cbn in *; lia.
Qed.
Lemma pval_text v w : pval_str v = pval_str w -> (forall s, v = PQuoted s -> needs_quote s = true) -> (forall s, w = PQuoted s -> needs_quote s = true) -> serialize_pval v = serialize_pval w.
Proof.
  destruct v as [s|s], w as [t|t]; cbn [pval_str serialize_pval]; intros -> A B; try reflexivity; [now rewrite (B t eq_refl)|now rewrite (A t eq_refl)].
Qed.
Lemma line_text l m nl : line_eq l m -> line_tight l -> line_tight m -> serialize_unwrapped l nl = serialize_unwrapped m nl.
Proof.
  intros (N & V & P) TL TM. unfold serialize_unwrapped. rewrite N, V. f_equal. f_equal. unfold line_tight in *.
  revert P TL TM. generalize (cl_params l), (cl_params m). induction p as [|[k vs] p IH]; intros [|[j ws] q] P TL TM; try discriminate P; [reflexivity|]. cbn in P. injection P as -> PV P.
  unfold serialize_params. cbn [flat_map fst snd]. fold (serialize_params p). fold (serialize_params q). rewrite (IH q P); [|intros k us s I; apply (TL k us s); now right|intros k us s I; apply (TM k us s); now right].
  f_equal. cbn [app]. do 3 f_equal. unfold serialize_pvals. f_equal. assert (A : forall s, In (PQuoted s) vs -> needs_quote s = true) by (intros s I; apply quote_needed, (TL j vs s); [now left|exact I]).
  assert (B : forall s, In (PQuoted s) ws -> needs_quote s = true) by (intros s I; apply quote_needed, (TM j ws s); [now left|exact I]). clear - PV A B.
  revert ws PV B. induction vs as [|v vs IH]; intros [|w ws] PV B; try discriminate PV; [reflexivity|]. cbn in PV. injection PV as E PV. cbn [map]. f_equal.
  - apply pval_text; [exact E|intros s ->; apply A; now left|intros s ->; apply B; now left].
  - apply IH; [intros s I; apply A; now right|exact PV|intros s I; apply B; now right].
Qed.
Lemma line_pieces hy resplit W l m nl : line_eq l m -> line_tight l -> line_tight m -> line_serialize_iter hy resplit W l nl = line_serialize_iter hy resplit W m nl.
Proof. intros Q A B. unfold line_serialize_iter. destruct W; rewrite !(line_text l m _ Q A B); reflexivity. Qed.
Lemma item_text hy resplit W : forall a b nl, item_eq a b -> tight a -> tight b -> item_serialize hy resplit W a nl = item_serialize hy resplit W b nl.
Proof.
  fix IH 1. intros [l|n xs] [m|k ys] nl Q A B; try (exfalso; inversion Q; fail).
  - cbn [item_serialize]. f_equal. apply line_pieces; [now inversion Q|exact A|exact B].
  - cbn [item_serialize]. inversion Q as [|n' xs' ys' F E1 E2]; subst. f_equal. f_equal. cbn [tight] in A, B. clear Q. revert ys F B. induction xs as [|x xs IHx]; intros ys F B; inversion F as [|x' y xs' ys' XY F' E1 E2]; subst; [reflexivity|].
    cbn [map]. f_equal; [apply IH; [exact XY|apply A|apply B]|]. apply IHx; [apply A|exact F'|apply B].
Qed.
Section Text.
Variable X : ext.
Variable hy : bool.
Variable resplit : list N -> list (list N).
Variable W : option nat.
Theorem text_same c d it it' : equal_calendar X c d -> dump_calendar X c = Ok it -> dump_calendar X d = Ok it' -> tight it -> tight it' ->
  calendar_serialize X hy resplit W c = calendar_serialize X hy resplit W d.
Proof.
  intros Q C D T T'. pose proof (calendar_same X c d Q) as S. rewrite C, D in S. cbn in S. unfold calendar_serialize. rewrite C, D. cbn [bind]. now apply item_text.
Qed.
Theorem stable_text : utc_env X -> text_env X -> splitter resplit -> width_ok W -> forall txt c,
  read_calendar X (FromStr txt) = Ok c -> keepable_calendar X c -> zones_stored X c -> wire_ids X c ->
  exists txt' d it it', calendar_serialize X hy resplit W c = Ok txt' /\ read_calendar X (FromStr txt') = Ok d /\
    dump_calendar X c = Ok it /\ dump_calendar X d = Ok it' /\ item_eq it it' /\
    (tight it -> tight it' -> calendar_serialize X hy resplit W d = Ok txt').
Proof.
  intros U T SP WO txt c R K Z I. destruct (text_again X hy resplit W U T SP WO txt c R K Z I) as (txt' & d & S & R' & Q). exists txt', d.
  pose proof (calendar_same X c d Q) as A. pose proof S as S'. unfold calendar_serialize in S'. destruct (dump_calendar X c) as [it|e] eqn:C; [|discriminate S']. destruct (dump_calendar X d) as [it'|e] eqn:D; [|destruct A].
  exists it, it'. split; [exact S|]. split; [exact R'|]. split; [reflexivity|]. split; [reflexivity|]. split; [exact A|]. intros TI TI'. rewrite <- (text_same c d it it' Q C D TI TI'). exact S.
Qed.
End Text.
