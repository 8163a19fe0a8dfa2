(** * Proofs for C59: components that were read can be written as text *)
From Verif Require Import M_Base M_Text M_Line M_Codec M_Cal M_Time M_Span M_Dt M_Tree M_Comp.
From Verif Require Import S_Text S_Codec S_Dt S_Line S_Fold S_Tree S_Comp S_Multi S_Store S_Ref S_Wire S_Read P_CodecX P_CodecX2 S_Again.
From Verif Require Import P_Base P_Cal P_Dt P_Codec P_Person P_Multi P_ReadSpan P_ReadVal P_Read P_Again P_Again2.
From Coq Require Import Lia ZifyBool ZifyNat ZifyN.
Open Scope N_scope.

Lemma wf_items n its : wf_item ok_line (ICont n its) -> Forall (wf_item ok_line) its.
Proof. cbn. intros (_ & _ & _ & H). induction its as [|it its IH]; constructor; [apply H|apply IH, H]. Qed.
Lemma subs_wf n its sub : Forall (wf_item ok_line) its -> In sub (subs n its) -> Forall (wf_item ok_line) sub.
Proof.
  intros F I. unfold subs in I. apply in_flat_map in I as (it & I & J). destruct it as [l|m l]; [contradiction|]. destruct (str_eqb m n); [|contradiction].
  destruct J as [<-|[]]. rewrite Forall_forall in F. apply (wf_items m). now apply F.
Qed.
Lemma line_ok its l : Forall (wf_item ok_line) its -> In (ILine l) its -> ok_line l.
Proof. intros F I. rewrite Forall_forall in F. exact (F _ I). Qed.
Lemma ok_wire l : ok_line l -> wire_par (cl_params l) /\ no_break (cl_value l).
Proof.
  intros ((_ & _ & ND & H) & (_ & _ & NV & NK) & _). split; [|exact NV]. split; [exact ND|]. intros k vs I. destruct (H _ _ I). split; [assumption|]. split; [eapply NK; eauto|assumption].
Qed.
Lemma wire_nil : wire_par []. Proof. split; [constructor|easy]. Qed.
Lemma wire_del k p : wire_par p -> wire_par (dict_del k p).
Proof. intros [ND H]. split; [now apply keys_del|]. intros j vs I. apply del_In in I. now apply H. Qed.
Lemma wire_note w p : In w [py "TRUE"; py "FALSE"] -> wire_par p -> wire_par (note_as w p).
Proof.
  intros W [ND H]. split; [now apply keys_set|]. intros j vs I. apply set_In in I as [[-> ->]|I]; [|now apply H].
  split; [|split; [|split; [easy|split]]].
  - intros ch C J. vm_compute in J. vm_compute in C. intuition (subst; discriminate).
  - intros ch C J. vm_compute in J. vm_compute in C. intuition (subst; discriminate).
  - intros v [<-|[]] J. destruct W as [<-|[<-|[]]]; vm_compute in J; intuition discriminate.
  - destruct W as [<-|[<-|[]]]; discriminate.
Qed.

Section Again.
Variable X : ext.
Variable zs : zones.
Hypothesis HT : text_env X.

Lemma den_wire t s ps v rest : denotes X zs t s ps v rest -> no_break s -> wire_par ps -> wire_val X v /\ wire_par rest.
Proof.
  intros D NB WP. destruct D; cbn [wire_val email_str]; try (now split).
  - split; [|exact WP]. intros ch C. apply (te_url X HT) with (s := s); [assumption|now right|]. now apply NB.
  - split; [|exact WP]. apply binary_exact in H. pose proof (binary_parse_total s) as B. now rewrite H in B.
  - split; [easy|now apply wire_del].
  - split; [|apply wire_nil]. split; [|exact WP]. intros ch C. apply (te_url X HT) with (s := s); [assumption|now right|]. now apply NB.
  - split; [|apply wire_nil]. split; [|exact WP]. intros ch C. apply (te_url X HT) with (s := s); [assumption|now right|]. now apply NB.
  - split; [|exact WP]. split; intros ch C; apply (te_float X HT); now right.
Qed.
Lemma kept_wire r v w : kept X r v w -> wire_val X v -> wire_val X w.
Proof.
  destruct r; cbn [kept].
  - now intros ->.
  - intros (s & _ & -> & _) _. easy.
  - intros (d & e & _ & -> & _) _. easy.
  - intros (n & _ & -> & _) H. exact H.
Qed.
Lemma values_wire t ss ps vs qs : values_read X zs t ss ps vs qs -> Forall no_break ss -> wire_par ps -> Forall (wire_val X) vs /\ Forall wire_par qs.
Proof.
  induction 1 as [s ps v rest D|s ss ps v rest vs qs D V IH]; intros F W; inversion_clear F as [|? ? F1 F2]; destruct (den_wire _ _ _ _ _ D F1 W) as [W1 W2].
  - split; constructor; auto. apply wire_note; [right; now left|exact W2].
  - assert (W3 : wire_par (note_as (py "TRUE") rest)) by (apply wire_note; [now left|exact W2]). destruct (IH F2 W3). split; now constructor.
Qed.
Lemma commas_part ss w s : commas ss w -> In s ss -> forall ch, In ch s -> In ch w.
Proof. induction 1 as [s0|s0 ss w C IH]; intros I ch J; [now destruct I as [<-|[]]|]. destruct I as [<-|I]; apply in_or_app; [now left|]. right. apply in_or_app. right. now apply IH. Qed.
Lemma lines_wire ts ls vs qs : lines_read X zs ts ls vs qs -> Forall ok_line ls -> Forall (wire_val X) vs /\ Forall wire_par qs.
Proof.
  induction 1 as [|l ls vs qs vs' qs' (t & ss & _ & C & _ & V) L IH]; intro F; [now split|]. inversion_clear F as [|? ? F1 F2]. destruct (IH F2). destruct (ok_wire l F1) as [W1 W2].
  destruct (values_wire _ _ _ _ _ V) as [V1 V2]; [|now apply wire_del|split; now apply Forall_app].
  apply Forall_forall. intros s I ch HC J. apply (W2 ch HC). eapply commas_part; eauto.
Qed.

Lemma only_ok n its ls : Forall (wf_item ok_line) its -> only_lines n its ls -> Forall ok_line ls.
Proof. intros F [-> _]. apply Forall_forall. intros l I. apply lines_In in I as [I _]. exact (line_ok its l F I). Qed.
Lemma params_wire {M} (x : comp M) key ps p : params_are x key ps -> wire_par ps -> dict_get key (c_params x) = Some p -> wire_xpar p.
Proof. unfold params_are. intros -> W. destruct ps; [easy|]. now intros [= <-]. Qed.
Lemma one_wire {M} c f its (x : comp M) : Forall (wf_item ok_line) its -> one_read X zs c f its x ->
  (forall a, dict_get (g_attr f) (c_attrs x) = Some a -> wire_attr X a) /\ (forall p, dict_get (upper (g_attr f)) (c_params x) = Some p -> wire_xpar p).
Proof.
  intros F (ls & OL & R). pose proof (only_ok _ _ _ F OL) as O. destruct ls as [|l [|l' ls]]; [destruct R as (_ & GA & PA)| |contradiction].
  - split; [|intros p; apply (params_wire x _ []); [exact PA|apply wire_nil]]. intros a. rewrite GA. intros [= <-]. unfold initial. destruct (str_eqb _ _); [easy|]. now destruct (str_eqb _ _).
  - destruct R as (t & v & w & rest & _ & D & K & GA & PA). inversion_clear O as [|? ? O1 _]. destruct (ok_wire l O1) as [W1 W2].
    destruct (den_wire _ _ _ _ _ D W2 (wire_del _ _ W1)) as [V1 V2]. split; [|intros p; now apply (params_wire x _ rest)].
    intros a. rewrite GA. intros [= <-]. cbn [wire_attr]. eapply kept_wire; eauto.
Qed.
Lemma many_wire {M} f its (x : comp M) : Forall (wf_item ok_line) its -> many_read X zs f its x ->
  (forall a, dict_get (h_attr f) (c_attrs x) = Some a -> wire_attr X a) /\ (forall p, dict_get (upper (h_attr f)) (c_params x) = Some p -> wire_xpar p).
Proof.
  intros F (ls & vs & qs & OL & L & GA & GP). destruct (lines_wire _ _ _ _ L (only_ok _ _ _ F OL)) as [W1 W2]. split.
  - intros a. rewrite GA. now intros [= <-].
  - intros p. rewrite GP. destruct qs; [easy|]. now intros [= <-].
Qed.
Lemma time_wire {M} n key its (x : comp M) p o q : Forall (wf_item ok_line) its -> time_read X zs n key its x p o -> dict_get key (c_params x) = Some q -> wire_xpar q.
Proof.
  intros F (ls & OL & R). pose proof (only_ok _ _ _ F OL) as O. destruct ls as [|l [|l' ls]]; [destruct R as [_ PA]; apply (params_wire x key []); [exact PA|apply wire_nil]| |contradiction].
  destruct R as (r & d & rest & (-> & _) & _ & _ & PA). apply (params_wire _ _ _ _ PA). inversion_clear O as [|? ? O1 _]. apply ok_wire in O1 as [O1 _]. now apply wire_del, wire_del.
Qed.
Lemma length_wire {M} its (x : comp M) o q : Forall (wf_item ok_line) its -> length_read its x o -> dict_get (py "DURATION") (c_params x) = Some q -> wire_xpar q.
Proof.
  intros F (ls & OL & R). pose proof (only_ok _ _ _ F OL) as O. destruct ls as [|l [|l' ls]]; [destruct R as [_ PA]; apply (params_wire x _ []); [exact PA|apply wire_nil]| |contradiction].
  destruct R as (secs & _ & _ & _ & PA). apply (params_wire _ _ _ _ PA). inversion_clear O as [|? ? O1 _]. apply ok_wire in O1 as [O1 _]. exact O1.
Qed.
Lemma span_wire {M} c its (x : comp M) : Forall (wf_item ok_line) its -> span_read X zs c its x ->
  (forall a, dict_get (py "timespan") (c_attrs x) = Some a -> wire_attr X a) /\
  (forall k p, In k [py "BEGIN"; py "END"; py "DUE"; py "DURATION"] -> dict_get k (c_params x) = Some p -> wire_xpar p).
Proof.
  intros F S. unfold span_read in S.
  assert (exists p b e e' d t, time_read X zs (py "DTSTART") (py "BEGIN") its x p b /\ (exists n, time_read X zs n (py "END") its x p e) /\ (exists n, time_read X zs n (py "DUE") its x p e') /\
    length_read its x d /\ dict_get (py "timespan") (c_attrs x) = Some (AOne (VSpan t))) as (p & b & e & e' & d & t & R1 & (n & R2) & (n' & R3) & R4 & G).
  { destruct c; destruct S as (p & b & e & e' & d & R1 & R2 & R3 & R4 & _ & _ & _ & G); exists p, b; try (exists e, e', d; eexists; split; [exact R1|]; split; [eexists; exact R2|]; split; [eexists; exact R3|]; split; [exact R4|exact G]).
    exists e', e, d. eexists. split; [exact R1|]. split; [eexists; exact R3|]. split; [eexists; exact R2|]. split; [exact R4|exact G]. }
  split; [intros a; rewrite G; now intros [= <-]|]. intros k q [<-|[<-|[<-|[<-|[]]]]].
  - apply (time_wire _ _ _ _ _ _ _ F R1).
  - apply (time_wire _ _ _ _ _ _ _ F R2).
  - apply (time_wire _ _ _ _ _ _ _ F R3).
  - apply (length_wire _ _ _ _ F R4).
Qed.
Lemma reads_wire {M} RM (WM : M -> Prop) c its (x : comp M) : Forall (wf_item ok_line) its -> reads X zs RM c its x -> c <> CCustom ->
  (forall a l m, dict_get a (c_mem x) = Some l -> In m l -> WM m) -> wire X WM x.
Proof.
  intros F R NC HM. pose proof (rd_cls _ _ _ _ _ _ R) as EC. constructor; rewrite ?EC.
  - rewrite title_NAME. apply (rd_name _ _ _ _ _ _ R).
  - exact NC.
  - intros k a G. assert (I : In k (S_Read.attr_names c)) by (apply (rd_attrs _ _ _ _ _ _ R); congruence). unfold S_Read.attr_names in I. apply in_app_iff in I as [I|I]; [|apply in_app_iff in I as [I|I]].
    + apply in_map_iff in I as (f & <- & I). apply (rd_one _ _ _ _ _ _ R) in I. apply one_wire in I; [|exact F]. now apply I.
    + apply in_map_iff in I as (f & <- & I). apply (rd_many _ _ _ _ _ _ R) in I. apply many_wire in I; [|exact F]. now apply I.
    + destruct (is_entry c) eqn:E; [|contradiction]. destruct I as [<-|[]]. apply (rd_span _ _ _ _ _ _ R) in E. apply span_wire in E; [|exact F]. now apply E.
  - exact HM.
  - intros k a G. assert (I : In k (param_names c)) by (apply (rd_params _ _ _ _ _ _ R); congruence). unfold param_names in I. apply in_app_iff in I as [I|I]; [|apply in_app_iff in I as [I|I]; [|apply in_app_iff in I as [I|I]]].
    + apply in_map_iff in I as (f & <- & I). apply (rd_one _ _ _ _ _ _ R) in I. apply one_wire in I; [|exact F]. now apply I.
    + apply in_map_iff in I as (f & <- & I). apply (rd_many _ _ _ _ _ _ R) in I. apply many_wire in I; [|exact F]. now apply I.
    + destruct (is_entry c) eqn:E; [|contradiction]. apply (rd_span _ _ _ _ _ _ R) in E. apply span_wire in E; [|exact F]. now apply (proj2 E k).
    + destruct (is_alarm c) eqn:E; [|contradiction]. destruct I as [<-|[]]. apply (rd_action _ _ _ _ _ _ R) in E as (l & OL & _ & PA).
      pose proof (only_ok _ _ _ F OL) as O. inversion_clear O as [|? ? O1 _]. apply ok_wire in O1 as [O1 _]. now apply (params_wire _ _ _ _ PA).
  - pose proof (rd_extra _ _ _ _ _ _ R) as U. clear - U F. remember (c_extra x) as us. clear Hequs. induction U; inversion_clear F; auto.
Qed.
Lemma reads_annotated {M} RM c its (x : comp M) : reads X zs RM c its x -> annotated x.
Proof.
  intros R a v vs I G. assert (IA : In a (map h_attr (multiples c)) \/ ~ In a (map h_attr (multiples c))) by (destruct (in_dec (list_eq_dec N.eq_dec) a (map h_attr (multiples c))); auto).
  destruct IA as [IA|IA].
  - apply in_map_iff in IA as (f & <- & IA). apply (rd_many _ _ _ _ _ _ R) in IA as (ls & vs' & qs & _ & L & GA & GP). rewrite GA in G. injection G as ->. rewrite GP.
    destruct qs; [|easy]. exfalso. inversion L as [|l ls' vs1 qs1 vs2 qs2 (t & ss & _ & _ & _ & V) L' E1 E2 E3]; subst. apply app_eq_nil in E3 as [-> _]. inversion V.
  - exfalso. assert (IN : In a (S_Read.attr_names c)) by (apply (rd_attrs _ _ _ _ _ _ R); congruence). unfold S_Read.attr_names in IN. apply in_app_iff in IN as [J|J]; [|apply in_app_iff in J as [J|J]; [contradiction|]].
    + apply in_map_iff in J as (f & <- & J). apply (rd_one _ _ _ _ _ _ R) in J as (ls & OL & Q). destruct ls as [|l [|l' ls]]; [destruct Q as (_ & GA & _)| |contradiction].
      * rewrite GA in G. injection G. unfold initial. destruct (str_eqb _ _); [easy|]. now destruct (str_eqb _ _).
      * destruct Q as (t & v' & w & rest & _ & _ & _ & GA & _). congruence.
    + destruct (is_entry c); [|contradiction]. destruct J as [<-|[]]. destruct I as [E|[E|[E|[]]]]; vm_compute in E; discriminate.
Qed.
End Again.
