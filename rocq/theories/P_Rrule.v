(** * Proofs about recurrence sets (C49) *)
From Verif Require Import M_Base M_Line M_Codec M_Cal M_Time M_Span M_Dt M_Tree M_Comp M_Rrule M_Vtz.
From Verif Require Import S_Dt S_Store S_Vtz P_Base P_Codec P_Cal P_Dt.
From Coq Require Import Lia ZifyBool ZifyNat ZifyN Sorting.Sorted.
Open Scope Z_scope.

(** ** Sorted dates without repetition *)
Lemma insert_In d l t : In t (insert_date d l) <-> t = d \/ In t l.
Proof.
  induction l as [|e l IH]; cbn; [intuition|]. destruct (d <=? e); cbn; [intuition|]. rewrite IH. intuition.
Qed.
Lemma sorted_In l t : In t (sorted l) <-> In t l.
Proof. unfold sorted. induction l as [|d l IH]; cbn; [easy|]. rewrite insert_In, IH. intuition. Qed.
Lemma insert_sorted d l : StronglySorted Z.le l -> StronglySorted Z.le (insert_date d l).
Proof.
  induction 1 as [|e l S IH F]; cbn; [repeat constructor|]. destruct (d <=? e) eqn:E.
  - constructor; [now constructor|]. constructor; [lia|]. eapply Forall_impl; [|exact F]. cbn. intros. lia.
  - constructor; [exact IH|]. rewrite Forall_forall in *. intros t I. apply insert_In in I. destruct I as [->|I]; [lia|auto].
Qed.
Lemma sorted_sorted l : StronglySorted Z.le (sorted l).
Proof. unfold sorted. induction l as [|d l IH]; cbn; [constructor|now apply insert_sorted]. Qed.
Lemma unique_In l t : In t (unique_justseen l) <-> In t l.
Proof.
  induction l as [|d l IH]; [easy|]. cbn [unique_justseen In]. rewrite <- IH. destruct (unique_justseen l) as [|e r]; [cbn; intuition|].
  destruct (d =? e) eqn:E; [|cbn; intuition]. assert (d = e) as -> by lia. cbn. intuition.
Qed.
Lemma unique_sorted l : StronglySorted Z.le l -> StronglySorted Z.lt (unique_justseen l).
Proof.
  induction 1 as [|d l S IH F]; [constructor|]. cbn [unique_justseen]. pose proof (unique_In l) as U. destruct (unique_justseen l) as [|e r]; [repeat constructor|].
  destruct (d =? e) eqn:E; [exact IH|]. constructor; [exact IH|].
  assert (HE : d <= e). { rewrite Forall_forall in F. apply F, U. now left. }
  inversion IH as [|? ? S2 F2]; subst. constructor; [lia|]. eapply Forall_impl; [|exact F2]. cbn. intros. lia.
Qed.
Lemma dates_of_In l t : In t (dates_of l) <-> In t l.
Proof. unfold dates_of. now rewrite unique_In, sorted_In. Qed.
Lemma dates_of_sorted l : StronglySorted Z.lt (dates_of l).
Proof. apply unique_sorted, sorted_sorted. Qed.
Lemma lt_sorted_ext l : forall m, StronglySorted Z.lt l -> StronglySorted Z.lt m -> (forall t, In t l <-> In t m) -> l = m.
Proof.
  induction l as [|d l IH]; intros [|e m] S T E; [easy|exfalso; apply (E e); now left|exfalso; apply (E d); now left|].
  inversion S as [|? ? S1 F1]; inversion T as [|? ? T1 F2]; subst. rewrite Forall_forall in F1, F2.
  assert (d = e).
  { destruct (proj1 (E d) (or_introl eq_refl)) as [->|I]; [easy|]. destruct (proj2 (E e) (or_introl eq_refl)) as [->|J]; [easy|].
    apply F2 in I. apply F1 in J. lia. }
  subst e. f_equal. apply IH; auto. intro t. split; intro I.
  - destruct (proj1 (E t) (or_intror I)) as [->|J]; [|exact J]. apply F1 in I. lia.
  - destruct (proj2 (E t) (or_intror I)) as [->|J]; [|exact J]. apply F2 in I. lia.
Qed.
Lemma dates_of_fix l : StronglySorted Z.lt l -> dates_of l = l.
Proof. intro S. apply lt_sorted_ext; [apply dates_of_sorted|exact S|apply dates_of_In]. Qed.

(** ** Written dates *)
Lemma fmt_stamp d : whole_date d -> fmt_datetime d = stamp d.
Proof.
  intros (H & Hs & Hy). unfold fmt_datetime. rewrite fmt_date_text, fmt_time_text by easy. unfold stamp. cbv zeta.
  now rewrite <- !app_assoc.
Qed.
Lemma no_sep sep s : ~ In sep s -> split_on sep s = [s].
Proof.
  intro H. rewrite <- (app_nil_r s) at 1. rewrite split_on_app_nosep by exact H. cbn. now rewrite app_nil_r.
Qed.
Lemma stamp_comma d : ~ In c_comma (fmt_datetime d).
Proof.
  assert (P : forall k n, ~ In c_comma (pad k n)).
  { intros k n I. pose proof (pad_digits k n) as D. rewrite forallb_forall in D. apply D in I. easy. }
  assert (Q : forall n, ~ In c_comma (dec n)).
  { intros n I. pose proof (dec_digits n) as D. rewrite forallb_forall in D. apply D in I. easy. }
  unfold fmt_datetime, fmt_date, fmt_time, z2. rewrite !in_app_iff. intro H.
  repeat match goal with H : _ \/ _ |- _ => destruct H end; try (eapply P; eassumption); try (eapply Q; eassumption). cbn in H. destruct H as [H|[]]. easy.
Qed.

(** ** Reading what is written *)
Section Read.
Variable rule_parse : option Z -> list N -> res rule.
Variable date_parse : list N -> res Z.
Hypothesis RD : reads_dates date_parse.
Notation collect := (collect date_parse).
Notation rrulestr := (rrulestr rule_parse date_parse).
Notation read_rules := (read_rules rule_parse date_parse).

Lemma collect_app a b f : collect (a ++ b) f = do f' <- collect a f; collect b f'.
Proof. revert f. induction a as [|x a IH]; intro f; [easy|]. cbn. destruct (collect1 date_parse x f); cbn; [apply IH|easy]. Qed.
Lemma collect_rules l : forall f, collect (map (rule_line (py "RRULE")) l) f =
  Ok (mk_found (fo_start f) (fo_rules f ++ map r_text l) (fo_exrules f) (fo_dates f) (fo_exdates f)).
Proof.
  induction l as [|r l IH]; intro f; [now destruct f; cbn; rewrite app_nil_r|].
  cbn [map M_Rrule.collect]. change (collect1 date_parse (rule_line (py "RRULE") r) f) with
    (Ok (mk_found (fo_start f) (fo_rules f ++ [r_text r]) (fo_exrules f) (fo_dates f) (fo_exdates f))). cbn [bind].
  rewrite IH. cbn [fo_start fo_rules fo_exrules fo_dates fo_exdates]. now rewrite <- app_assoc.
Qed.
Lemma collect_exrules l : forall f, collect (map (rule_line (py "EXRULE")) l) f =
  Ok (mk_found (fo_start f) (fo_rules f) (fo_exrules f ++ map r_text l) (fo_dates f) (fo_exdates f)).
Proof.
  induction l as [|r l IH]; intro f; [now destruct f; cbn; rewrite app_nil_r|].
  cbn [map M_Rrule.collect]. change (collect1 date_parse (rule_line (py "EXRULE") r) f) with
    (Ok (mk_found (fo_start f) (fo_rules f) (fo_exrules f ++ [r_text r]) (fo_dates f) (fo_exdates f))). cbn [bind].
  rewrite IH. cbn [fo_start fo_rules fo_exrules fo_dates fo_exdates]. now rewrite <- app_assoc.
Qed.
Lemma parse_one d : whole_date d -> parse_all date_parse (split_on c_comma (fmt_datetime d)) = Ok [d].
Proof. intro H. rewrite no_sep by apply stamp_comma. cbn [parse_all]. now rewrite fmt_stamp, RD. Qed.
Lemma collect_dates l : forall f, collect (map (date_line (py "RDATE")) l) f =
  Ok (mk_found (fo_start f) (fo_rules f) (fo_exrules f) (fo_dates f ++ map fmt_datetime l) (fo_exdates f)).
Proof.
  induction l as [|d l IH]; intro f; [now destruct f; cbn; rewrite app_nil_r|].
  cbn [map M_Rrule.collect]. change (collect1 date_parse (date_line (py "RDATE") d) f) with
    (Ok (mk_found (fo_start f) (fo_rules f) (fo_exrules f) (fo_dates f ++ split_on c_comma (fmt_datetime d)) (fo_exdates f))). cbn [bind].
  rewrite IH. cbn [fo_start fo_rules fo_exrules fo_dates fo_exdates]. rewrite no_sep by apply stamp_comma. now rewrite <- app_assoc.
Qed.
Lemma collect_exdates l : Forall whole_date l -> forall f, collect (map (date_line (py "EXDATE")) l) f =
  Ok (mk_found (fo_start f) (fo_rules f) (fo_exrules f) (fo_dates f) (fo_exdates f ++ l)).
Proof.
  induction 1 as [|d l H F IH]; intro f; [now destruct f; cbn; rewrite app_nil_r|].
  cbn [map M_Rrule.collect]. change (collect1 date_parse (date_line (py "EXDATE") d) f) with
    (do ds <- parse_all date_parse (split_on c_comma (fmt_datetime d));
     Ok (mk_found (fo_start f) (fo_rules f) (fo_exrules f) (fo_dates f) (fo_exdates f ++ ds))).
  rewrite parse_one by exact H. cbn [bind].
  rewrite IH. cbn [fo_start fo_rules fo_exrules fo_dates fo_exdates]. now rewrite <- app_assoc.
Qed.
Lemma collect_start d f : whole_date d -> collect [mk_line (py "DTSTART") [] (fmt_datetime d)] f =
  Ok (mk_found (Some d) (fo_rules f) (fo_exrules f) (fo_dates f) (fo_exdates f)).
Proof.
  intro H. cbn [M_Rrule.collect]. change (collect1 date_parse (mk_line (py "DTSTART") [] (fmt_datetime d)) f) with
    (do ds <- parse_all date_parse (split_on c_comma (fmt_datetime d));
     match ds with
     | [d] => Ok (mk_found (Some d) (fo_rules f) (fo_exrules f) (fo_dates f) (fo_exdates f))
     | _ => Err ValueError
     end).
  now rewrite parse_one.
Qed.
Lemma parse_dates l : Forall whole_date l -> parse_all date_parse (map fmt_datetime l) = Ok l.
Proof. induction 1 as [|d l H F IH]; [easy|]. cbn [map parse_all]. rewrite fmt_stamp, RD by exact H. cbn [bind]. now rewrite IH. Qed.
Lemma parse_rules s l : (forall r, In r l -> rule_parse s (r_text r) = Ok r) -> parse_all (rule_parse s) (map r_text l) = Ok l.
Proof.
  induction l as [|r l IH]; intro H; [easy|]. cbn. rewrite H by now left. cbn. rewrite IH; [easy|]. intros. apply H. now right.
Qed.

(** ** DTSTART *)
Lemma write_start_same l s : (forall r, In r l -> r_start r = None \/ r_start r = Some s) -> write_start l (Some s) = Ok [].
Proof.
  induction l as [|r l IH]; intro H; [easy|]. cbn. destruct (H r (or_introl eq_refl)) as [-> | ->].
  - apply IH. intros. apply H. now right.
  - rewrite Z.eqb_refl. cbn. apply IH. intros. apply H. now right.
Qed.
Lemma write_start_none l s : (forall r, In r l -> r_start r = None) -> write_start l s = Ok [].
Proof. induction l as [|r l IH]; intro H; [easy|]. cbn. rewrite H by now left. apply IH. intros. apply H. now right. Qed.
Lemma write_start_first l d : (exists r, In r l /\ r_start r = Some d) -> (forall r, In r l -> r_start r = None \/ r_start r = Some d) ->
  write_start l None = Ok [mk_line (py "DTSTART") [] (fmt_datetime d)].
Proof.
  induction l as [|r l IH]; intros (q & I & E) H; [easy|]. cbn. destruct (H r (or_introl eq_refl)) as [R|R]; rewrite R.
  - apply IH; [|intros; apply H; now right]. destruct I as [->|I]; [congruence|eauto].
  - rewrite write_start_same; [easy|]. intros. apply H. now right.
Qed.

(** ** The whole set *)
Definition start_dec (l : list rule) : {d | exists r, In r l /\ r_start r = Some d} + {forall r, In r l -> r_start r = None}.
Proof.
  induction l as [|r l [[d IH]|IH]]; [right; easy| |].
  - left. exists d. destruct IH as (q & I & E). exists q. split; [now right|exact E].
  - destruct (r_start r) as [d|] eqn:E; [left; exists d; exists r; split; [now left|exact E]|].
    right. intros q [<-|I]; auto.
Defined.
Definition opt_list {A} (o : option A) : list A := match o with Some a => [a] | None => [] end.
Lemma Forall_dates P l : Forall P l -> Forall P (dates_of l).
Proof. intro F. rewrite Forall_forall in *. intros t I. apply F. now apply dates_of_In. Qed.
(** With the start found, what is written and read. *)
Lemma rules_lines rs : storable_rules rule_parse rs -> exists s,
  (forall t, starts rs t <-> s = Some t) /\ (forall t, s = Some t -> whole_date t) /\
  write_rules rs None = Ok (map (fun d => mk_line (py "DTSTART") [] (fmt_datetime d)) (opt_list s) ++
    map (rule_line (py "RRULE")) (rs_rules rs) ++ map (rule_line (py "EXRULE")) (rs_exrules rs)
    ++ map (date_line (py "RDATE")) (dates_of (rs_dates rs)) ++ map (date_line (py "EXDATE")) (dates_of (rs_exdates rs))) /\
  forall ls, write_rules rs None = Ok ls -> read_rules (Some ls) =
    Ok (mk_set (rs_rules rs) (rs_exrules rs) (dates_of (rs_dates rs ++ opt_list s)) (dates_of (rs_exdates rs))).
Proof.
  intros [(s & HS & HR) HD HE HN]. set (L := rs_rules rs ++ rs_exrules rs) in *.
  assert (exists s', (forall t, starts rs t <-> s' = Some t) /\ (forall t, s' = Some t -> whole_date t) /\
    (forall r, In r L -> rule_parse s' (r_text r) = Ok r) /\
    write_start L None = Ok (map (fun d => mk_line (py "DTSTART") [] (fmt_datetime d)) (opt_list s'))) as (s' & S1 & S2 & S3 & S4).
  { destruct (start_dec L) as [[d D]|D].
    - destruct D as (q & I & E). assert (s = Some d) as -> by (rewrite <- E; symmetry; now apply HR). exists (Some d).
      split; [intro t; split; [intros (r & J & K); destruct (HR r J); congruence|intros [= <-]; exists q; auto]|].
      split; [auto|]. split; [intros r J; now apply HR|]. apply write_start_first; [eauto|]. intros r J. right. now apply HR.
    - exists None. split; [intro t; split; [intros (r & J & K); rewrite D in K by exact J; easy|easy]|]. split; [easy|].
      split; [|now apply write_start_none]. intros r J. destruct (HR r J) as [A B]. rewrite D in A by exact J. now subst s. }
  exists s'. split; [exact S1|]. split; [exact S2|]. unfold write_rules. fold L. rewrite S4. cbn [bind]. split; [reflexivity|].
  intros ls [= <-]. unfold M_Rrule.read_rules.
  assert (RR : forall ls, ls <> [] -> rrulestr ls = do f <- collect ls (mk_found None [] [] [] []);
      do rules <- parse_all (rule_parse (fo_start f)) (fo_rules f);
      do dates <- parse_all date_parse (fo_dates f);
      do exrules <- parse_all (rule_parse (fo_start f)) (fo_exrules f);
      Ok (mk_set rules exrules (dates ++ match fo_start f with Some d => [d] | None => [] end) (fo_exdates f))).
  { now intros [|]. }
  rewrite RR; clear RR.
  - rewrite collect_app.
    assert (CS : collect (map (fun d => mk_line (py "DTSTART") [] (fmt_datetime d)) (opt_list s')) (mk_found None [] [] [] []) = Ok (mk_found s' [] [] [] [])).
    { destruct s' as [d|]; cbn [opt_list map]; [rewrite collect_start by auto|]; reflexivity. }
    rewrite CS. cbn [bind]. rewrite collect_app, collect_rules. cbn [bind]. rewrite collect_app, collect_exrules. cbn [bind]. rewrite collect_app, collect_dates. cbn [bind].
    rewrite collect_exdates by now apply Forall_dates. cbn [bind fo_start fo_rules fo_exrules fo_dates fo_exdates app].
    rewrite !parse_rules by (intros r J; apply S3; unfold L; rewrite in_app_iff; auto). cbn [bind].
    rewrite parse_dates by now apply Forall_dates. cbn [bind rs_rules rs_exrules rs_dates rs_exdates].
    rewrite (dates_of_fix (dates_of (rs_exdates rs))) by apply dates_of_sorted. do 2 f_equal.
    apply lt_sorted_ext; [apply dates_of_sorted|apply dates_of_sorted|]. intro t. rewrite !dates_of_In, !in_app_iff, dates_of_In. now destruct s'.
  - intro E. apply HN. apply app_eq_nil in E as [E0 E]. apply app_eq_nil in E as [E1 E]. apply app_eq_nil in E as [E2 E].
    apply app_eq_nil in E as [E3 E4]. destruct rs as [a b c d]. cbn [rs_rules rs_exrules rs_dates rs_exdates] in *.
    apply map_eq_nil in E1, E2, E3, E4. subst a b.
    assert (Hd : forall l, dates_of l = [] -> l = []). { intros [|x l] Q; [easy|]. assert (In x (dates_of (x :: l))) by (apply dates_of_In; now left). now rewrite Q in *. }
    apply Hd in E3, E4. now subst.
Qed.

Lemma rules_round rs : storable_rules rule_parse rs -> exists ls rs',
  write_rules rs None = Ok ls /\ read_rules (Some ls) = Ok rs' /\ rules_back rs rs'.
Proof.
  intro H. destruct (rules_lines rs H) as (s & S1 & S2 & W & R). eexists. eexists. split; [exact W|]. split; [exact (R _ W)|].
  constructor; cbn [rs_rules rs_exrules rs_dates rs_exdates]; try easy; try apply dates_of_sorted.
  - intro t. rewrite dates_of_In, in_app_iff, S1. destruct s as [d|]; cbn; intuition congruence.
  - intro t. apply dates_of_In.
Qed.
(** What was read is read back unchanged. *)
Lemma rules_again rs rs' : storable_rules rule_parse rs -> rules_back rs rs' ->
  exists ls, write_rules rs' None = Ok ls /\ read_rules (Some ls) = Ok rs'.
Proof.
  intros H [B1 B2 B3 B4 B5 B6].
  assert (H' : storable_rules rule_parse rs').
  { destruct H as [(s & HS & HR) HD HE HN]. constructor.
    - exists s. split; [exact HS|]. now rewrite B1, B2.
    - rewrite Forall_forall in *. intros t I. apply B3 in I. destruct I as [I|(r & I & E)]; [auto|]. destruct (HR r I) as [A _]. apply HS. congruence.
    - rewrite Forall_forall in *. intros t I. apply B4 in I. auto.
    - intro E. apply HN. destruct rs as [a b c d], rs' as [a' b' c' d']. injection E as -> -> -> ->. cbn in *. subst a b.
      f_equal; [destruct c as [|x c]; [easy|exfalso; apply (B3 x); left; now left]|destruct d as [|x d]; [easy|exfalso; apply (B4 x); now left]]. }
  destruct (rules_lines rs' H') as (s & S1 & S2 & W & R). eexists. split; [exact W|]. rewrite (R _ W). f_equal.
  destruct rs' as [a b c d]. cbn [rs_rules rs_exrules rs_dates rs_exdates] in *. f_equal; [|now apply dates_of_fix].
  apply lt_sorted_ext; [apply dates_of_sorted|exact B5|]. intro t. rewrite dates_of_In, in_app_iff. split; [|auto]. intros [I|I]; [exact I|].
  apply B3. right. destruct s as [x|]; [|easy]. destruct I as [<-|[]]. destruct (proj2 (S1 x) eq_refl) as (r & I & E).
  exists r. split; [|exact E]. cbn [rs_rules rs_exrules] in I. now rewrite <- B1, <- B2.
Qed.
End Read.

(** ** Times of the set *)
Section Onsets.
Variable occurs : rule -> Z -> Prop.
Lemma excluded_back rs rs' t : rules_back rs rs' -> (excluded occurs rs' t <-> excluded occurs rs t).
Proof. intros [B1 B2 B3 B4 B5 B6]. unfold excluded. now rewrite B4, B2. Qed.
Lemma onset_back rs rs' t : rules_back rs rs' ->
  (onset_of occurs rs' t <-> onset_of occurs rs t \/ starts rs t /\ ~ excluded occurs rs t).
Proof.
  intro B. pose proof (excluded_back _ _ t B) as HX. destruct B as [B1 B2 B3 B4 B5 B6]. unfold onset_of. rewrite HX, B3, B1. tauto.
Qed.
Lemma onset_same rs rs' t : rules_back rs rs' -> starts_count occurs rs -> (onset_of occurs rs' t <-> onset_of occurs rs t).
Proof.
  intros B C. rewrite (onset_back _ _ _ B). split; [|auto]. intros [H|[H NX]]; [exact H|]. destruct (C t H); [easy|tauto].
Qed.
Lemma before_same before rs rs' : before_right occurs before -> rules_back rs rs' -> starts_count occurs rs ->
  forall t, before rs' t = before rs t.
Proof.
  intros HB B C t. pose proof (HB rs t) as P. pose proof (HB rs' t) as Q.
  assert (S : forall u, onset_of occurs rs' u <-> onset_of occurs rs u) by (intro; now apply onset_same).
  destruct (before rs t) as [o|], (before rs' t) as [o'|]; [|exfalso|exfalso|easy].
  - destruct P as (P1 & P2 & P3), Q as (Q1 & Q2 & Q3). f_equal. apply S in Q1. pose proof (P3 _ Q1 Q2). apply S in P1. pose proof (Q3 _ P1 P2). lia.
  - destruct P as (P1 & P2 & _). apply S in P1. exact (Q _ P1 P2).
  - destruct Q as (Q1 & Q2 & _). apply S in Q1. exact (P _ Q1 Q2).
Qed.
End Onsets.
