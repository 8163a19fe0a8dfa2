(** * Proofs: reading recurrence sets exactly (C61) *)
From Verif Require Import M_Base M_Text M_Line M_Codec M_Cal M_Time M_Span M_Dt M_Tree M_Comp M_Rrule M_Vtz.
From Verif Require Import S_Text S_Codec S_Dt S_Comp S_Multi S_Read S_Vtz S_ZoneRead.
From Verif Require Import P_Base P_Comp P_Value P_Rrule.
From Coq Require Import Lia ZifyBool ZifyNat ZifyN Sorting.Sorted.
Open Scope N_scope.

Section Rules.
Variable rule_parse : option Z -> list N -> res M_Rrule.rule.
Variable date_parse : list N -> res Z.
Local Notation collect1 := (collect1 date_parse).
Local Notation collect := (collect date_parse).

Lemma parse_all_iff {A B} (f : A -> res B) l : forall r, parse_all f l = Ok r <-> Forall2 (fun a b => f a = Ok b) l r.
Proof.
  induction l as [|a l IH]; intro r; cbn [parse_all].
  - split; [intros [= <-]; constructor|]. inversion 1. reflexivity.
  - split.
    + intro H. apply bind_Ok in H as (b & H1 & H). apply bind_Ok in H as (q & H2 & [= <-]). constructor; [exact H1|now apply IH].
    + inversion 1 as [|? b ? q H1 H2]. subst. rewrite H1. cbn [bind]. apply IH in H2. now rewrite H2.
Qed.
Lemma dates_on_iff l ds : dates_on date_parse l ds <-> parse_all date_parse (split_on c_comma (cl_value l)) = Ok ds.
Proof.
  rewrite parse_all_iff. unfold dates_on. split.
  - intros (ss & C & F & H). pose proof (proj2 (split_iff Uri (cl_value l) ss ltac:(discriminate)) (conj C (fun _ => F))) as E. cbn [vsplit] in E. injection E as ->. exact H.
  - intro H. exists (split_on c_comma (cl_value l)). destruct (proj1 (split_iff Uri (cl_value l) (split_on c_comma (cl_value l)) ltac:(discriminate)) eq_refl) as [C F].
    split; [exact C|]. split; [now apply F|exact H].
Qed.

Definition named (n : list N) (ls : list content_line) : list content_line := filter (fun l => str_eqb (cl_name l) n) ls.
Lemma last_cons {A} (l : list A) a b : last (a :: l) b = last l a.
Proof. revert a b. induction l as [|c l IH]; intros a b; [reflexivity|]. change (last (a :: c :: l) b) with (last (c :: l) b). now rewrite !IH. Qed.
Lemma last_app {A} (m k : list A) : forall b, last (m ++ k) b = last k (last m b).
Proof. induction m as [|a m IH]; intro b; [reflexivity|]. cbn [app]. rewrite !last_cons. apply IH. Qed.

Definition collected (ls : list content_line) (f f' : found) : Prop :=
  (forall l, In l ls -> takes (cl_name l) (cl_params l) = true /\ In (cl_name l) RULE_NAMES) /\
  fo_rules f' = fo_rules f ++ map cl_value (named (py "RRULE") ls) /\
  fo_exrules f' = fo_exrules f ++ map cl_value (named (py "EXRULE") ls) /\
  fo_dates f' = fo_dates f ++ flat_map (fun l => split_on c_comma (cl_value l)) (named (py "RDATE") ls) /\
  (exists dss, Forall2 (dates_on date_parse) (named (py "EXDATE") ls) dss /\ fo_exdates f' = fo_exdates f ++ concat dss) /\
  (exists ds, Forall2 (fun l d => dates_on date_parse l [d]) (named (py "DTSTART") ls) ds /\ fo_start f' = last (map Some ds) (fo_start f)).
Lemma collected_nil f : collected [] f f.
Proof. split; [easy|]. cbn [named filter map flat_map]. rewrite !app_nil_r. repeat (split; [reflexivity|]). split; exists []; split; try constructor; cbn; now rewrite ?app_nil_r. Qed.
Lemma collected_cons l ls f g h : collected [l] f g -> collected ls g h -> collected (l :: ls) f h.
Proof.
  intros (A1 & A2 & A3 & A4 & (ds1 & A5 & A6) & (es1 & A7 & A8)) (B1 & B2 & B3 & B4 & (ds2 & B5 & B6) & (es2 & B7 & B8)).
  assert (E : forall n, named n (l :: ls) = named n [l] ++ named n ls) by (intro n; unfold named; cbn [filter]; now destruct (str_eqb (cl_name l) n)).
  split; [intros k [<-|I]; [apply A1; now left|now apply B1]|]. rewrite !E, !map_app, flat_map_app, B2, B3, B4, A2, A3, A4, !app_assoc. repeat (split; [reflexivity|]). split.
  - exists (ds1 ++ ds2). split; [now apply Forall2_app|]. now rewrite B6, A6, concat_app, app_assoc.
  - exists (es1 ++ es2). split; [now apply Forall2_app|]. rewrite B8, A8, map_app. symmetry. apply last_app.
Qed.
Lemma par_is_iff w p : par_is w p = true <-> spelled p w.
Proof. unfold par_is, spelled. apply str_eqb_eq. Qed.
Lemma takes_iff n ps : In n RULE_NAMES -> (takes n ps = true <-> bare n ps).
Proof.
  intro I. unfold takes, bare. unfold RULE_NAMES in I. destruct I as [<-|[<-|[<-|[<-|[<-|[]]]]]];
    match goal with |- context [str_eqb ?a ?b || str_eqb ?a ?c] => let x := eval vm_compute in (str_eqb a b || str_eqb a c) in change (str_eqb a b || str_eqb a c) with x end; cbn match.
  1, 3: destruct ps; (split; [auto; discriminate|]); (intros [H|[[H _]|[[H|[H|[]]] _]]]; [auto; discriminate H|discriminate H|discriminate H|discriminate H]).
  - change (str_eqb (py "RDATE") (py "RDATE")) with true. cbn match. rewrite forallb_forall. split.
    + intro H. right. left. split; [reflexivity|]. apply Forall_forall. intros p J. now apply par_is_iff, H.
    + intros [->|[[_ H]|[[H|[H|[]]] _]]]; [intros p []| |discriminate H|discriminate H]. rewrite Forall_forall in H. intros p J. now apply par_is_iff, H.
  - change (str_eqb (py "EXDATE") (py "RDATE")) with false. cbn match. destruct ps as [|p [|q ps]].
    + split; auto.
    + rewrite Bool.orb_true_iff, !par_is_iff. split; [intro H; right; right; split; [now left|eauto]|]. intros [H|[[H _]|[_ (q & [= <-] & H)]]]; [discriminate H|discriminate H|exact H].
    + split; [discriminate|]. intros [H|[[H _]|[_ (r & H & _)]]]; discriminate H.
  - change (str_eqb (py "DTSTART") (py "RDATE")) with false. cbn match. destruct ps as [|p [|q ps]].
    + split; auto.
    + rewrite Bool.orb_true_iff, !par_is_iff. split; [intro H; right; right; split; [right; now left|eauto]|]. intros [H|[[H _]|[_ (q & [= <-] & H)]]]; [discriminate H|discriminate H|exact H].
    + split; [discriminate|]. intros [H|[[H _]|[_ (r & H & _)]]]; discriminate H.
Qed.
(** One line, case by case. *)
Lemma named_hit n l : cl_name l = n -> named n [l] = [l].
Proof. intros <-. unfold named. cbn [filter]. now rewrite str_eqb_refl. Qed.
Lemma named_miss n l : cl_name l <> n -> named n [l] = [].
Proof. intro H. apply str_eqb_neq in H. unfold named. cbn [filter]. now rewrite H. Qed.
Lemma Forall2_one {A B} (R : A -> B -> Prop) a l : Forall2 R [a] l -> exists b, l = [b] /\ R a b.
Proof. inversion 1 as [|? b ? m H1 H2]. subst. inversion H2. eauto. Qed.
Lemma collect1_iff l f g : collect1 l f = Ok g <-> collected [l] f g.
Proof.
  unfold M_Rrule.collect1, collected. destruct (takes (cl_name l) (cl_params l)) eqn:EP; [|split; [discriminate|intros (H & _); destruct (H l (or_introl eq_refl)) as [K _]; congruence]].
  assert (HP : forall n, cl_name l = n -> In n RULE_NAMES -> forall k, In k [l] -> takes (cl_name k) (cl_params k) = true /\ In (cl_name k) RULE_NAMES) by (intros n <- I k [<-|[]]; auto).
  destruct (str_eqb (cl_name l) (py "RRULE")) eqn:E1; [apply str_eqb_eq in E1|apply str_eqb_neq in E1].
  { rewrite (named_hit _ _ E1). rewrite !(named_miss _ l) by (rewrite E1; discriminate). cbn [map flat_map]. rewrite !app_nil_r. split.
    - intros [= <-]. cbn [fo_rules fo_exrules fo_dates fo_exdates fo_start]. split; [apply (HP _ E1); cbn; tauto|]. repeat (split; [reflexivity|]). split; exists []; split; try constructor; cbn; now rewrite ?app_nil_r.
    - intros (_ & A & B & C & (ds & D1 & D2) & (es & F1 & F2)). inversion D1; inversion F1; subst. cbn in D2, F2. rewrite app_nil_r in D2. destruct g; cbn in *; now subst. }
  destruct (str_eqb (cl_name l) (py "EXRULE")) eqn:E2; [apply str_eqb_eq in E2|apply str_eqb_neq in E2].
  { rewrite (named_hit _ _ E2). rewrite !(named_miss _ l) by (rewrite E2; discriminate). cbn [map flat_map]. rewrite !app_nil_r. split.
    - intros [= <-]. cbn [fo_rules fo_exrules fo_dates fo_exdates fo_start]. split; [apply (HP _ E2); cbn; tauto|]. repeat (split; [reflexivity|]). split; exists []; split; try constructor; cbn; now rewrite ?app_nil_r.
    - intros (_ & A & B & C & (ds & D1 & D2) & (es & F1 & F2)). inversion D1; inversion F1; subst. cbn in D2, F2. rewrite app_nil_r in D2. destruct g; cbn in *; now subst. }
  destruct (str_eqb (cl_name l) (py "RDATE")) eqn:E3; [apply str_eqb_eq in E3|apply str_eqb_neq in E3].
  { rewrite (named_hit _ _ E3). rewrite !(named_miss _ l) by (rewrite E3; discriminate). cbn [map flat_map]. rewrite !app_nil_r. split.
    - intros [= <-]. cbn [fo_rules fo_exrules fo_dates fo_exdates fo_start]. split; [apply (HP _ E3); cbn; tauto|]. repeat (split; [reflexivity|]). split; exists []; split; try constructor; cbn; now rewrite ?app_nil_r.
    - intros (_ & A & B & C & (ds & D1 & D2) & (es & F1 & F2)). inversion D1; inversion F1; subst. cbn in D2, F2. rewrite app_nil_r in D2. destruct g; cbn in *; now subst. }
  destruct (str_eqb (cl_name l) (py "EXDATE")) eqn:E4; [apply str_eqb_eq in E4|apply str_eqb_neq in E4].
  { rewrite (named_hit _ _ E4). rewrite !(named_miss _ l) by (rewrite E4; discriminate). cbn [map flat_map]. rewrite !app_nil_r. split.
    - intro H. apply bind_Ok in H as (ds & H1 & [= <-]). cbn [fo_rules fo_exrules fo_dates fo_exdates fo_start]. split; [apply (HP _ E4); cbn; tauto|]. repeat (split; [reflexivity|]).
      split; [exists [ds]; split; [constructor; [now apply dates_on_iff|constructor]|cbn; now rewrite app_nil_r]|exists []; split; [constructor|reflexivity]].
    - intros (_ & A & B & C & (ds & D1 & D2) & (es & F1 & F2)). apply Forall2_one in D1 as (b & -> & D1). apply dates_on_iff in D1. rewrite D1. inversion F1; subst. cbn in D2, F2. rewrite app_nil_r in D2. destruct g; cbn in *; now subst. }
  destruct (str_eqb (cl_name l) (py "DTSTART")) eqn:E5; [apply str_eqb_eq in E5|apply str_eqb_neq in E5].
  { rewrite (named_hit _ _ E5). rewrite !(named_miss _ l) by (rewrite E5; discriminate). cbn [map flat_map]. rewrite !app_nil_r. split.
    - intro H. apply bind_Ok in H as ([|d [|? ?]] & H1 & H); try discriminate. injection H as <-. cbn [fo_rules fo_exrules fo_dates fo_exdates fo_start]. split; [apply (HP _ E5); cbn; tauto|]. repeat (split; [reflexivity|]).
      split; [exists []; split; [constructor|cbn; now rewrite app_nil_r]|exists [d]; split; [constructor; [now apply dates_on_iff|constructor]|reflexivity]].
    - intros (_ & A & B & C & (ds & D1 & D2) & (es & F1 & F2)). apply Forall2_one in F1 as (b & -> & F1). apply dates_on_iff in F1. rewrite F1. inversion D1; subst. cbn in D2, F2. rewrite app_nil_r in D2. destruct g; cbn in *; now subst. }
  split; [discriminate|]. intros (H & _). destruct (H l (or_introl eq_refl)) as [_ I]. unfold RULE_NAMES in I. destruct I as [I|[I|[I|[I|[I|[]]]]]]; symmetry in I; contradiction.
Qed.
Lemma collected_split l ls f h : collected (l :: ls) f h -> exists g, collected [l] f g /\ collected ls g h.
Proof.
  intros (A1 & A2 & A3 & A4 & (ds & A5 & A6) & (es & A7 & A8)).
  assert (E : forall n, named n (l :: ls) = named n [l] ++ named n ls) by (intro n; unfold named; cbn [filter]; now destruct (str_eqb (cl_name l) n)).
  rewrite E in A2, A3, A4, A5, A7. rewrite map_app, app_assoc in A2, A3. rewrite flat_map_app, app_assoc in A4.
  apply Forall2_app_inv_l in A5 as (d1 & d2 & D1 & D2 & ->). apply Forall2_app_inv_l in A7 as (e1 & e2 & F1 & F2 & ->).
  exists (mk_found (last (map Some e1) (fo_start f)) (fo_rules f ++ map cl_value (named (py "RRULE") [l])) (fo_exrules f ++ map cl_value (named (py "EXRULE") [l]))
    (fo_dates f ++ flat_map (fun l => split_on c_comma (cl_value l)) (named (py "RDATE") [l])) (fo_exdates f ++ concat d1)).
  split; (split; [intros k I; apply A1; cbn in I |- *; tauto|]); cbn [fo_rules fo_exrules fo_dates fo_exdates fo_start].
  - repeat (split; [reflexivity|]). split; [exists d1|exists e1]; auto.
  - split; [exact A2|]. split; [exact A3|]. split; [exact A4|]. split; [exists d2; split; [exact D2|now rewrite A6, concat_app, app_assoc]|].
    exists e2. split; [exact F2|]. rewrite A8, map_app. apply last_app.
Qed.
Lemma collect_iff ls : forall f g, collect ls f = Ok g <-> collected ls f g.
Proof.
  induction ls as [|l ls IH]; intros f g; cbn [M_Rrule.collect].
  - split; [intros [= <-]; apply collected_nil|]. intros (_ & A & B & C & (ds & D1 & D2) & (es & F1 & F2)). cbn [named filter map flat_map] in *. inversion D1; inversion F1; subst. cbn in D2, F2. rewrite app_nil_r in *. destruct f, g; cbn in *; now subst.
  - split.
    + intro H. apply bind_Ok in H as (h & H1 & H2). apply collect1_iff in H1. apply IH in H2. eapply collected_cons; eauto.
    + intro H. apply collected_split in H as (h & H1 & H2). apply collect1_iff in H1. rewrite H1. cbn [bind]. now apply IH.
Qed.

(** ** The lines among the items *)
Lemma named_lines n its : In n RULE_NAMES -> named n (rule_lines its) = lines n its.
Proof.
  intro I. induction its as [|[l|m k] its IH]; cbn [rule_lines lines flat_map]; [reflexivity| |exact IH].
  fold (rule_lines its). fold (lines n its). destruct (existsb (str_eqb (cl_name l)) RULE_NAMES) eqn:E.
  - cbn [app]. unfold named in *. cbn [filter]. destruct (str_eqb (cl_name l) n); cbn [app]; now rewrite IH.
  - destruct (str_eqb (cl_name l) n) eqn:E2; [|exact IH]. exfalso. apply str_eqb_eq in E2. subst n. assert (K : existsb (str_eqb (cl_name l)) RULE_NAMES = true) by (apply existsb_exists; exists (cl_name l); split; [exact I|apply str_eqb_refl]). congruence.
Qed.
Lemma lines_name n l its : In l (lines n its) -> cl_name l = n.
Proof. unfold lines. intro K. apply in_flat_map in K as ([k|m k] & _ & K); [|contradiction]. destruct (str_eqb (cl_name k) n) eqn:E; [|contradiction]. destruct K as [<-|[]]. now apply str_eqb_eq. Qed.
Lemma in_rule_lines l its : In l (rule_lines its) <-> exists n, In n RULE_NAMES /\ In l (lines n its).
Proof.
  unfold rule_lines, lines. split.
  - intro H. apply in_flat_map in H as ([k|m k] & I & H); [|contradiction]. destruct (existsb _ _) eqn:E; [|contradiction]. destruct H as [<-|[]]. apply existsb_exists in E as (n & J & E). apply str_eqb_eq in E.
    exists n. split; [exact J|]. apply in_flat_map. exists (ILine k). split; [exact I|]. rewrite E, str_eqb_refl. now left.
  - intros (n & J & H). apply in_flat_map in H as ([k|m k] & I & H); [|contradiction]. destruct (str_eqb (cl_name k) n) eqn:E; [|contradiction]. destruct H as [<-|[]]. apply in_flat_map. exists (ILine k). split; [exact I|].
    assert (existsb (str_eqb (cl_name k)) RULE_NAMES = true) as -> by (apply existsb_exists; eauto). now left.
Qed.
Lemma split_all_iff ls r : parse_all date_parse (flat_map (fun l => split_on c_comma (cl_value l)) ls) = Ok r <-> exists ds, Forall2 (dates_on date_parse) ls ds /\ r = concat ds.
Proof.
  rewrite parse_all_iff. revert r. induction ls as [|l ls IH]; intro r; cbn [flat_map].
  - split; [inversion 1; exists []; split; [constructor|reflexivity]|]. intros (ds & H & ->). inversion H. constructor.
  - split.
    + intro H. apply Forall2_app_inv_l in H as (a & b & H1 & H2 & ->). apply IH in H2 as (ds & H2 & ->). exists (a :: ds). split; [constructor; [apply dates_on_iff, parse_all_iff; exact H1|exact H2]|reflexivity].
    + intros (ds & H & ->). inversion H as [|? a ? b H1 H2]. subst. cbn [concat]. apply Forall2_app; [apply parse_all_iff, dates_on_iff; exact H1|]. apply IH. eauto.
Qed.
Lemma map_values {A} (f : list N -> res A) ls r : parse_all f (map cl_value ls) = Ok r <-> Forall2 (fun l x => f (cl_value l) = Ok x) ls r.
Proof.
  rewrite parse_all_iff. revert r. induction ls as [|l ls IH]; intro r; cbn [map]; split; inversion 1; subst; constructor; auto; now apply IH.
Qed.
Lemma in_start (s : option Z) t : In t (match s with Some d => [d] | None => [] end) <-> s = Some t.
Proof. destruct s as [d|]; cbn; [split; [intros [<-|[]]; reflexivity|intros [= <-]; now left]|easy]. Qed.

Theorem rules_exact its rs : (forall n l, In n RULE_NAMES -> ~ In (ICont n l) its) ->
  (read_rules rule_parse date_parse (match rule_lines its with [] => None | ls => Some ls end) = Ok rs <-> set_read rule_parse date_parse its rs).
Proof.
  intro NC. destruct (rule_lines its) as [|l0 ls0] eqn:E0.
  - cbn [read_rules]. split; [discriminate|]. intros [_ (n & l & I & J) _ _ _ _ _]. exfalso. assert (K : In l (rule_lines its)) by (apply in_rule_lines; eauto). rewrite E0 in K. contradiction.
  - cbn [read_rules]. assert (EL : rrulestr rule_parse date_parse (l0 :: ls0) = do f <- collect (rule_lines its) (mk_found None [] [] [] []);
      do rules <- parse_all (rule_parse (fo_start f)) (fo_rules f); do dates <- parse_all date_parse (fo_dates f); do exrules <- parse_all (rule_parse (fo_start f)) (fo_exrules f);
      Ok (mk_set rules exrules (dates ++ match fo_start f with Some d => [d] | None => [] end) (fo_exdates f))) by (rewrite E0; reflexivity).
    rewrite EL. clear EL. assert (SN : forall n, In n RULE_NAMES -> named n (rule_lines its) = lines n its) by (intros; now apply named_lines). split.
    + intro H. apply bind_Ok in H as (r0 & H & [= <-]). apply bind_Ok in H as (f & H1 & H). apply bind_Ok in H as (rules & H2 & H). apply bind_Ok in H as (dates & H3 & H). apply bind_Ok in H as (exrules & H4 & [= <-]).
      apply collect_iff in H1 as (A1 & A2 & A3 & A4 & (dss & A5 & A6) & (es & A7 & A8)). cbn [fo_rules fo_exrules fo_dates fo_exdates fo_start app] in *.
      rewrite !SN in * by (cbn; tauto). rewrite A2 in H2. rewrite A3 in H4. rewrite A4 in H3. apply map_values in H2, H4. apply split_all_iff in H3 as (ds & H3 & ->).
      constructor; cbn [rs_rules rs_exrules rs_dates rs_exdates].
      * exact NC.
      * assert (I : In l0 (rule_lines its)) by (rewrite E0; now left). apply in_rule_lines in I as (n & I & J). eauto.
      * intros n l I J. rewrite <- (lines_name n l its J) in I |- *. apply takes_iff; [exact I|]. apply A1. apply in_rule_lines. exists (cl_name l). split; [exact I|]. now rewrite (lines_name n l its J).
      * exists (fo_start f), ds. split; [exists es; split; [exact A7|exact A8]|]. repeat split; try assumption. all: rewrite dates_of_In, in_app_iff, in_start; auto.
      * exists dss. split; [exact A5|]. intro t. rewrite dates_of_In, A6. reflexivity.
      * apply dates_of_sorted.
      * apply dates_of_sorted.
    + intros [_ _ B1 (s & ds & (es & B2 & B3) & B4 & B5 & B6 & B7) (dss & B8 & B9) B10 B11]. set (f := mk_found s (map cl_value (lines (py "RRULE") its)) (map cl_value (lines (py "EXRULE") its))
        (flat_map (fun l => split_on c_comma (cl_value l)) (lines (py "RDATE") its)) (concat dss)).
      assert (CF : collect (rule_lines its) (mk_found None [] [] [] []) = Ok f).
      { apply collect_iff. split; [intros l I; pose proof I as J; apply in_rule_lines in I as (n & I & K); rewrite (lines_name n l its K); split; [apply takes_iff; [exact I|now apply B1]|exact I]|].
        rewrite !SN by (cbn; tauto). cbn [fo_rules fo_exrules fo_dates fo_exdates fo_start app f]. repeat (split; [reflexivity|]). split; [exists dss; auto|]. exists es. split; [exact B2|exact B3]. }
      rewrite CF. cbn [bind]. cbn [f fo_rules fo_exrules fo_dates fo_exdates fo_start]. apply map_values in B4, B5. rewrite B4. cbn [bind].
      rewrite (proj2 (split_all_iff _ (concat ds)) (ex_intro _ ds (conj B6 eq_refl))). cbn [bind]. rewrite B5. cbn [bind rs_rules rs_exrules rs_dates rs_exdates]. f_equal. destruct rs as [r1 r2 r3 r4]; cbn [rs_rules rs_exrules rs_dates rs_exdates] in *. f_equal.
      * apply lt_sorted_ext; [apply dates_of_sorted|exact B10|]. intro t. rewrite dates_of_In, in_app_iff, in_start. symmetry. apply B7.
      * apply lt_sorted_ext; [apply dates_of_sorted|exact B11|]. intro t. rewrite dates_of_In. symmetry. apply B9.
Qed.
End Rules.
