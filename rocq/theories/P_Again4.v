(** * Proofs for C59: the items of a text are well formed, and the theorems *)
From Verif Require Import M_Base M_Text M_Line M_Codec M_Cal M_Time M_Span M_Dt M_Fold M_Tree M_Comp M_Open M_Serial.
From Verif Require Import S_Text S_Codec S_Dt S_Line S_Fold S_Tree S_Comp S_Multi S_Store S_Ref S_Wire S_Read S_Again.
From Verif Require Import P_Base P_Line P_Fold P_Tree P_Attr P_Person P_ReadAll P_Calendar P_Again P_Again2 P_Again3.
From Coq Require Import Lia ZifyBool ZifyNat ZifyN.
Open Scope N_scope.

(** ** Lines *)
Lemma Caret_In w v c : Caret w v -> In c v -> In c w \/ c = 10 \/ c = 34.
Proof. induction 1; cbn [In]; intros I; intuition auto. Qed.
Lemma Caret_no_cr w v : Caret w v -> ~ In 13 w -> ~ In 13 v.
Proof. intros C N I. destruct (Caret_In _ _ _ C I) as [|[|]]; [contradiction|discriminate|discriminate]. Qed.
Lemma GVals_wf t vs rest : GVals t vs rest -> no_break t -> wf_pvals vs /\ no_break rest.
Proof.
  assert (CR : forall s, no_break s -> ~ In 13 s) by (intros s H; apply H; now left).
  assert (SUB : forall a b, no_break (a ++ b) -> no_break a /\ no_break b).
  { intros a b H. split; intros c HC I; apply (H c HC), in_or_app; auto. }
  induction 1 as [r v rest H1 H2 H3 H4 H5|r v t vs rest H1 H2 H3 H4 IH|q v rest H1 H2 H3|q v t vs rest H1 H2 H3 IH]; intro NB.
  - apply SUB in NB as [N1 N2]. split; [|exact N2]. split; [easy|]. split.
    + intros x [<-|[]]. cbn. eapply Caret_no_cr; eauto.
    + cbn. intros [= ->]. inversion H4. congruence.
  - apply SUB in NB as [N1 N2]. change (44 :: t) with ([44] ++ t) in N2. apply SUB in N2 as [_ N2]. destruct (IH N2) as [(W1 & W2 & W3) N3]. split; [|exact N3].
    split; [easy|]. split; [|destruct vs; [contradiction|exact W3]]. intros x [<-|I]; [cbn; eapply Caret_no_cr; eauto|now apply W2].
  - change (34 :: q ++ 34 :: rest) with ([34] ++ q ++ [34] ++ rest) in NB. apply SUB in NB as [_ NB]. apply SUB in NB as [N1 NB]. apply SUB in NB as [_ N2]. split; [|exact N2].
    split; [easy|]. split; [|easy]. intros x [<-|[]]. cbn. eapply Caret_no_cr; eauto.
  - change (34 :: q ++ 34 :: 44 :: t) with ([34] ++ q ++ [34; 44] ++ t) in NB. apply SUB in NB as [_ NB]. apply SUB in NB as [N1 NB]. apply SUB in NB as [_ N2].
    destruct (IH N2) as [(W1 & W2 & W3) N3]. split; [|exact N3].
    split; [easy|]. split; [|destruct vs; [contradiction|exact W3]]. intros x [<-|I]; [cbn; eapply Caret_no_cr; eauto|now apply W2].
Qed.
Lemma GRest_wf t ps v : GRest t ps v -> no_break t -> no_break v /\ forall k vs, In (k, vs) ps -> none_of [61; 58; 59] k /\ no_break k /\ wf_pvals vs.
Proof.
  assert (SUB : forall a b, no_break (a ++ b) -> no_break a /\ no_break b).
  { intros a b H. split; intros c HC I; apply (H c HC), in_or_app; auto. }
  induction 1 as [v|pname t vals rest ps v H1 H2 H3 IH]; intro NB.
  - change (58 :: v) with ([58] ++ v) in NB. apply SUB in NB as [_ NB]. now split.
  - change (59 :: pname ++ 61 :: t) with ([59] ++ pname ++ [61] ++ t) in NB. apply SUB in NB as [_ NB]. apply SUB in NB as [N1 NB]. apply SUB in NB as [_ NB].
    destruct (GVals_wf _ _ _ H2 NB) as [W N2]. destruct (IH N2) as [N3 K]. split; [exact N3|]. intros k vs [[= <- <-]|I]; [now split|now apply K].
Qed.
Lemma update_In {V} (own d : dict V) k v : In (k, v) (dict_update d own) -> In (k, v) d \/ In (k, v) own.
Proof.
  unfold dict_update. revert d. induction own as [|[j w] own IH]; intro d; cbn; [auto|]. intro I. apply IH in I as [I|I]; [|auto].
  apply set_In in I as [[-> ->]|I]; auto.
Qed.
Lemma upper_char_keep c d : upper_char c = d -> ~ (65 <= d <= 90) -> c = d.
Proof. unfold upper_char. destruct (_ && _)%bool eqn:E; lia. Qed.
Lemma upper_In s d : In d (upper s) -> ~ (65 <= d <= 90) -> In d s.
Proof. intros I N. apply in_map_iff in I as (c & E & I). apply upper_char_keep in E; [now subst|exact N]. Qed.
Lemma parsed_wf line cl : logical line -> parse_line line = Ok cl -> wf_line cl /\ foldable cl.
Proof.
  intros (NE & NB & NS) P. apply parse_line_exact in P as (name & ps & (rest & E & NN & G) & EN & EP).
  assert (NR : no_break rest) by (intros c HC I; apply (NB c HC); rewrite E; apply in_or_app; now right).
  assert (NM : no_break name) by (intros c HC I; apply (NB c HC); rewrite E; apply in_or_app; now left).
  destruct (GRest_wf _ _ _ G NR) as [NV K].
  assert (KP : forall k vs, In (k, vs) (cl_params cl) -> none_of [61; 58; 59] k /\ no_break k /\ wf_pvals vs).
  { intros k vs I. rewrite EP in I. apply update_In in I as [[]|I]. now apply K. }
  split; [split; [|split; [|split]]|split; [|split; [|split]]].
  - rewrite EN. intros c HC I. apply (NN c HC). apply upper_In in I; [exact I|]. cbn in HC. lia.
  - rewrite EN. apply upper_idem.
  - rewrite EP. apply keys_update. constructor.
  - intros k vs I. destruct (KP k vs I) as (K1 & _ & K3). now split.
  - rewrite EN. intros c HC I. apply (NM c HC). apply upper_In in I; [exact I|]. cbn in HC. lia.
  - rewrite EN. intros (c & t & EU & B). apply NS. destruct name as [|c0 name]; [discriminate|]. cbn in EU. injection EU as E1 _.
    rewrite E. cbn. exists c0, (name ++ rest). split; [reflexivity|]. apply upper_char_keep in E1; [now subst c0|]. destruct B as [-> | ->]; lia.
  - exact NV.
  - intros k vs I. apply (KP k vs I).
Qed.

(** ** Unfolding *)
Lemma unfold_logical ls : forall n cur, (forall k t, cur = Some (k, t) -> logical t) -> Forall (fun p => logical (snd p)) (fst (unfold_from n cur ls)).
Proof.
  assert (BR : forall s, existsb is_break s = false -> no_break s).
  { intros s E c HC I. assert (is_break c = true) by (unfold is_break, c_cr, c_lf; destruct HC as [<-|[<-|[]]]; reflexivity).
    assert (existsb is_break s = true) by (apply existsb_exists; eauto). congruence. }
  assert (BL : forall c t, is_blank c = false -> ~ starts_blank (c :: t)).
  { intros c t E (c' & t' & [= <- <-] & [-> | ->]); discriminate. }
  induction ls as [|l ls IH]; intros n cur HC; cbn [unfold_from].
  - destruct cur as [[k t]|]; cbn; [|apply Forall_nil]. apply Forall_cons; [now apply (HC k)|apply Forall_nil].
  - destruct (rstrip_breaks l) as [|c rest] eqn:ER; [now apply IH|]. destruct (existsb is_break (c :: rest)) eqn:EB; [constructor|]. apply BR in EB.
    destruct cur as [[k t]|].
    + specialize (HC k t eq_refl). destruct (is_blank c) eqn:EK.
      * apply IH. intros k' t' [= <- <-]. destruct HC as (H1 & H2 & H3). split; [|split].
        -- now destruct t.
        -- intros d HD I. apply in_app_iff in I as [I|I]; [now apply (H2 d HD)|]. apply (EB d HD). now right.
        -- destruct t as [|a t]; [easy|]. intros (a' & t' & [= <- <-] & B). apply H3. now exists a, t.
      * cbn [gcons fst]. constructor; [exact HC|]. apply IH. intros k' t' [= <- <-]. split; [easy|]. split; [exact EB|now apply BL].
    + destruct (is_blank c) eqn:EK; [constructor|]. apply IH. intros k' t' [= <- <-]. split; [easy|]. split; [exact EB|now apply BL].
Qed.
Lemma parse_lines_wf ls : forall e cls, Forall (fun p => logical (snd p)) ls -> parse_lines ls e = cls -> Forall (fun cl => wf_line cl /\ foldable cl) (fst cls).
Proof.
  induction ls as [|[k l] ls IH]; intros e cls F <-; cbn [parse_lines]; [constructor|]. inversion_clear F as [|? ? F1 F2]. cbn [snd] in F1.
  destruct (parse_line l) as [cl|x] eqn:E; [|constructor]. cbn [gcons fst]. constructor; [now apply (parsed_wf l)|now apply (IH e)].
Qed.

(** ** Containers *)
Lemma wf_cont n its : n <> [] -> upper n = n -> no_break n -> Forall (wf_item ok_line) its -> wf_item ok_line (ICont n its).
Proof. intros H1 H2 H3 F. cbn. split; [exact H1|]. split; [exact H2|]. split; [exact H3|]. induction F; [exact I|now split]. Qed.
Lemma upper_no_break s : no_break s -> no_break (upper s).
Proof. intros H c HC I. apply (H c HC). apply upper_In in I; [exact I|]. cbn in HC. lia. Qed.
Lemma Nested_wf ls its : Nested ls its -> Forall (fun cl => wf_line cl /\ foldable cl) ls -> Forall (wf_item ok_line) its.
Proof.
  induction 1 as [|l ls its H1 H2 H3 IH|b e inner its' ls its H1 H2 H3 H4 H5 IH5 H6 IH6]; intro F; [constructor| |].
  - inversion_clear F as [|? ? [F1 F2] F3]. constructor; [|now apply IH]. now split.
  - inversion_clear F as [|? ? [F1 F2] F3]. apply Forall_app in F3 as [F3 F4]. inversion_clear F4 as [|? ? _ F5]. constructor; [|now apply IH6].
    apply wf_cont; [|apply upper_idem| |now apply IH5].
    + intro E. apply (proj1 (upper_nil _)) in E. contradiction.
    + apply upper_no_break. apply F2.
Qed.
Lemma Forest_wf ls its n sub : Forest ls its -> Forall (fun cl => wf_line cl /\ foldable cl) ls -> In (ICont n sub) its -> wf_item ok_line (ICont n sub).
Proof.
  induction 1 as [|l ls its H1 H2 IH|b e inner its' ls its H1 H2 H3 H4 H5 H6 IH6]; intros F I; [contradiction| |].
  - inversion_clear F as [|? ? _ F3]. destruct I as [I|I]; [discriminate|now apply IH].
  - inversion_clear F as [|? ? [F1 F2] F3]. apply Forall_app in F3 as [F3 F4]. inversion_clear F4 as [|? ? _ F5]. destruct I as [I|I]; [|now apply IH6].
    injection I as <- <-. apply wf_cont; [|apply upper_idem| |now apply (Nested_wf inner)].
    + intro E. apply (proj1 (upper_nil _)) in E. contradiction.
    + apply upper_no_break. apply F2.
Qed.
Lemma lines_wf ls its n sub : lines_to_containers ls = (its, None) -> In (ICont n sub) its -> wf_item ok_line (ICont n sub).
Proof.
  unfold lines_to_containers. intros H I. assert (F : Forall (fun cl => wf_line cl /\ foldable cl) (fst (lines_to_contentlines (unfold_lines ls)))).
  { eapply parse_lines_wf; [|reflexivity]. apply unfold_logical. easy. }
  destruct (lines_to_contentlines (unfold_lines ls)) as [cls e]. cbn [fst] in F. change (contentlines_to_containers (cls, e)) with (tcs cls e) in H.
  destruct (tcs_sound (length cls) cls (le_n _) e) as [[HF _]|(pre & b & rest & x & _ & _ & _ & _ & HS)].
  - rewrite H in HF. eapply Forest_wf; eauto.
  - now rewrite H in HS.
Qed.

(** ** Components that were read *)
Section Loaded.
Variable X : ext.
Variable zs : zones.
Hypothesis HU : utc_env X.
Hypothesis HT : text_env X.

Lemma wf_nodup its l : Forall (wf_item ok_line) its -> In (ILine l) its -> NoDup (keys (cl_params l)).
Proof. intros F I. rewrite Forall_forall in F. apply F in I. cbn in I. apply I. Qed.
Lemma Forall2_both {A B} (R : A -> B -> Prop) l l' y : Forall2 R l l' -> In y l' -> exists x, In x l /\ R x y.
Proof. induction 1 as [|a b l l' H F IH]; intros []; [subst; exists a; split; [now left|assumption]|]. destruct (IH H0) as (x & I & J). exists x. split; [now right|exact J]. Qed.
Lemma mem_read {M} RM c its (x : comp M) a l m : Forall (wf_item ok_line) its -> reads X zs RM c its x -> dict_get a (c_mem x) = Some l -> In m l ->
  exists n k sub, In (a, n, k) (members c) /\ In sub (subs n its) /\ Forall (wf_item ok_line) sub /\ RM k sub m.
Proof.
  intros F R G I. assert (IA : In a (map (fun m => fst (fst m)) (members c))) by (apply (rd_mems _ _ _ _ _ _ R); congruence).
  apply in_map_iff in IA as ([[a' n] k] & <- & IA). cbn [fst] in *. destruct (rd_members _ _ _ _ _ _ R _ _ _ IA) as (_ & ms & GM & FM).
  rewrite GM in G. injection G as <-. destruct (Forall2_both _ _ _ _ FM I) as (sub & IS & RS). exists n, k, sub. split; [exact IA|]. split; [exact IS|]. split; [|exact RS].
  eapply subs_wf; eauto.
Qed.
Lemma alarm_std c : is_alarm c = true -> c <> CCustom -> std_alarm c.
Proof. unfold std_alarm. destruct c; cbn; intros; try discriminate; tauto. Qed.
Lemma alarm_kept its m : Forall (wf_item ok_line) its -> alarm_reads X zs its m -> keepable_alarm X m ->
  storable_alarm X m /\ wire_alarm X m /\ annotated m.
Proof.
  intros F (c & IA & R) K. pose proof (rd_cls _ _ _ _ _ _ R) as EC. split; [|split].
  - split; [rewrite EC; apply alarm_std; [exact IA|]; rewrite <- EC; apply (ke_cls _ _ _ K)|]. split.
    + eapply reads_storable; [exact HU|exact HT| |exact R|exact K|easy]. intros l. now apply wf_nodup.
    + destruct (rd_action _ _ _ _ _ _ R IA) as (l & _ & _ & P). unfold storable_par. unfold params_are in P. destruct (cl_params l) as [|q qs] eqn:E; rewrite P; [exact I|]. now split.
  - eapply reads_wire; [exact HT|exact F|exact R| |easy]. rewrite <- EC. apply (ke_cls _ _ _ K).
  - eapply reads_annotated. exact R.
Qed.
Lemma entry_kept c its x : Forall (wf_item ok_line) its -> c = CEvent \/ c = CTodo -> entry_reads X zs c its x -> keepable_entry X x ->
  storable_entry X x /\ wire X (wire_alarm X) x /\ annotated x /\ forall k l m, dict_get k (c_mem x) = Some l -> In m l -> annotated m.
Proof.
  intros F HC R K. assert (AK : forall k l m, dict_get k (c_mem x) = Some l -> In m l -> storable_alarm X m /\ wire_alarm X m /\ annotated m).
  { intros k l m G I. destruct (mem_read _ _ _ _ _ _ _ F R G I) as (n & k' & sub & _ & _ & FS & RS). apply (alarm_kept sub); [exact FS|exact RS|]. now apply (ke_mem _ _ _ K k l). }
  split; [|split; [|split]].
  - eapply reads_storable; [exact HU|exact HT| |exact R|exact K|]; [intros l; now apply wf_nodup|]. intros a n k sub m _ IS RS KS. apply (alarm_kept sub); [now apply (subs_wf n its)|exact RS|exact KS].
  - eapply reads_wire; [exact HT|exact F|exact R|destruct HC as [-> | ->]; discriminate|]. intros k l m G I. now apply (AK k l).
  - eapply reads_annotated. exact R.
  - intros k l m G I. now apply (AK k l).
Qed.
Lemma calendar_kept its c : Forall (wf_item ok_line) its -> reads X zs (in_calendar_reads X zs) CCalendar its c -> keepable_calendar X c ->
  storable_calendar X c /\ wire X (wire X (wire_alarm X)) c /\ annotated c /\
  forall k l m, dict_get k (c_mem c) = Some l -> In m l -> annotated m /\ forall k' l' n, dict_get k' (c_mem m) = Some l' -> In n l' -> annotated n.
Proof.
  intros F R K. pose proof (rd_cls _ _ _ _ _ _ R) as EC.
  assert (EK : forall k sub m, Forall (wf_item ok_line) sub -> in_calendar_reads X zs k sub m -> keepable_entry X m ->
    storable_entry X m /\ wire X (wire_alarm X) m /\ annotated m /\ (forall k l m', dict_get k (c_mem m) = Some l -> In m' l -> annotated m') /\ c_cls m = match k with MEvent => CEvent | _ => CTodo end).
  { intros k sub m FS RS KS. destruct k; cbn in RS; try contradiction.
    - destruct (entry_kept CEvent sub m FS (or_introl eq_refl) RS KS) as (H1 & H2 & H3 & H4). repeat (split; [assumption|]). apply (rd_cls _ _ _ _ _ _ RS).
    - destruct (entry_kept CTodo sub m FS (or_intror eq_refl) RS KS) as (H1 & H2 & H3 & H4). repeat (split; [assumption|]). apply (rd_cls _ _ _ _ _ _ RS). }
  assert (MK : forall k l m, dict_get k (c_mem c) = Some l -> In m l -> exists k' sub, Forall (wf_item ok_line) sub /\ in_calendar_reads X zs k' sub m /\ keepable_entry X m).
  { intros k l m G I. destruct (mem_read _ _ _ _ _ _ _ F R G I) as (n & k' & sub & _ & _ & FS & RS). exists k', sub. split; [exact FS|]. split; [exact RS|]. now apply (ke_mem _ _ _ K k l). }
  split; [|split; [|split]].
  - split; [exact EC|]. eapply reads_storable; [exact HU|exact HT| |exact R|exact K|]; [intros l; now apply wf_nodup|].
    intros a n k sub m IM IS RS KS. destruct (EK k sub m) as (H1 & _ & _ & _ & H5); [now apply (subs_wf n its)|exact RS|exact KS|]. split; [exact H1|].
    rewrite H5. cbn in IM. destruct IM as [[= <- <- <-]|[[= <- <- <-]|[]]]; reflexivity.
  - eapply reads_wire; [exact HT|exact F|exact R|discriminate|]. intros k l m G I. destruct (MK k l m G I) as (k' & sub & FS & RS & KS). apply (EK k' sub m FS RS KS).
  - eapply reads_annotated. exact R.
  - intros k l m G I. destruct (MK k l m G I) as (k' & sub & FS & RS & KS). destruct (EK k' sub m FS RS KS) as (_ & _ & H3 & H4 & _). now split.
Qed.
End Loaded.

(** ** The theorems *)
Section Again.
Variable X : ext.
Variable hy : bool.
Variable resplit : list N -> list (list N).
Variable W : option nat.
Hypothesis HU : utc_env X.
Hypothesis HT : text_env X.
Hypothesis HS : splitter resplit.
Hypothesis HW : width_ok W.

Lemma container_again n its c : wf_item ok_line (ICont n its) -> load_calendar X n its = Ok c -> keepable_calendar X c -> zones_stored X c -> wire_ids X c ->
  exists txt d, calendar_serialize X hy resplit W c = Ok txt /\ read_calendar X (FromStr txt) = Ok d /\ equal_calendar X c d.
Proof.
  intros WF L K Z WI. apply calendar_sound in L as (_ & zs & _ & R).
  destruct (calendar_kept X zs HU HT its c (wf_items _ _ WF) R K) as (H1 & H2 & H3 & H4).
  destruct (calendar_text X HU hy resplit W HS HW c H1 Z (conj H2 WI)) as (txt & d & T1 & T2 & T3). exists txt, d. split; [exact T1|]. split; [exact T2|].
  now apply P_Calendar.calendar_exact.
Qed.
Lemma stream_again ls c : import_stream (load_calendar X) (lines_to_containers ls) = Ok c -> keepable_calendar X c -> zones_stored X c -> wire_ids X c ->
  exists txt d, calendar_serialize X hy resplit W c = Ok txt /\ read_calendar X (FromStr txt) = Ok d /\ equal_calendar X c d.
Proof.
  intros H. destruct (lines_to_containers ls) as [its e] eqn:E. unfold import_stream in H. destruct its as [|[l|n sub] rest]; [now destruct e|discriminate|].
  destruct (load_calendar X n sub) as [c'|] eqn:L; [|discriminate]. cbn [bind] in H. destruct rest; [|discriminate]. destruct e; [discriminate|]. injection H as <-.
  eapply container_again; [|exact L]. eapply lines_wf; [exact E|now left].
Qed.
Lemma text_again txt c : read_calendar X (FromStr txt) = Ok c -> keepable_calendar X c -> zones_stored X c -> wire_ids X c ->
  exists txt' d, calendar_serialize X hy resplit W c = Ok txt' /\ read_calendar X (FromStr txt') = Ok d /\ equal_calendar X c d.
Proof. apply stream_again. Qed.
Lemma lines_again ls c : read_calendar X (FromLines ls) = Ok c -> keepable_calendar X c -> zones_stored X c -> wire_ids X c ->
  exists txt' d, calendar_serialize X hy resplit W c = Ok txt' /\ read_calendar X (FromStr txt') = Ok d /\ equal_calendar X c d.
Proof. apply stream_again. Qed.
End Again.
