(** * Proofs: alarms, entries and calendars are read as specified *)
From Verif Require Import M_Base M_Text M_Line M_Codec M_Cal M_Time M_Span M_Dt M_Tree M_Comp.
From Verif Require Import S_Text S_Codec S_Dt S_Comp S_Multi S_Reorder P_Base P_Codec P_Comp P_Cat P_Frame P_Whole P_Keep P_Local P_Reorder P_ReadGen S_Read P_Value P_ReadVal P_ReadSpan P_Read.
From Coq Require Import Lia ZifyBool ZifyNat ZifyN.
Open Scope N_scope.

(** ** What the lines say is one thing only *)
Section Det.
Variable X : ext.
Variable M : Type.
Variable zs : zones.
Lemma kept_det r v w w' : kept X r v w -> kept X r v w' -> w = w'.
Proof.
  destruct r; cbn [kept].
  - congruence.
  - intros (s & -> & -> & _) (s' & [= <-] & -> & _). easy.
  - intros (d & e & -> & -> & E) (d' & e' & [= <-] & -> & E'). congruence.
  - intros (n & -> & -> & _) (n' & [= <-] & -> & _). easy.
Qed.
Lemma one_det c f its (x y : comp M) : In f (singles c) -> one_read X zs c f its x -> one_read X zs c f its y ->
  dict_get (g_attr f) (c_attrs x) = dict_get (g_attr f) (c_attrs y) /\ dict_get (upper (g_attr f)) (c_params x) = dict_get (upper (g_attr f)) (c_params y).
Proof.
  intros I (ls & [-> _] & H) (ls' & [-> _] & K). destruct (single_of X c f I) as (a & _ & _ & [_ _ (convs & r & s & _ & TO & _)]).
  unfold params_are in *. destruct (lines (g_name f) its) as [|l [|]]; [| |contradiction].
  - destruct H as (_ & -> & ->), K as (_ & -> & ->). easy.
  - destruct H as (t & v & w & rest & T & D & KE & -> & ->), K as (t' & v' & w' & rest' & T' & D' & KE' & -> & ->).
    pose proof (typed_det _ _ _ _ _ TO T T') as <-. destruct (denotes_det X zs _ _ _ _ _ _ _ D D') as [<- <-]. now rewrite (kept_det _ _ _ _ KE KE').
Qed.
Lemma values_det t ss : forall ps vs qs vs' qs', values_read X zs t ss ps vs qs -> values_read X zs t ss ps vs' qs' -> vs = vs' /\ qs = qs'.
Proof.
  intros ps vs qs vs' qs' H. revert vs' qs'. induction H as [w ps v rest HD|w ss ps v rest vs1 qs1 HD HR IH]; intros vs' qs' K.
  - inversion K as [? ? v' rest' HD'|? ? ? v' rest' vs2 qs2 HD' HR']; subst; [|inversion HR'].
    destruct (denotes_det X zs _ _ _ _ _ _ _ HD HD') as [<- <-]. easy.
  - inversion K as [? ? v' rest' HD'|? ? ? v' rest' vs2 qs2 HD' HR']; subst; [inversion HR|].
    destruct (denotes_det X zs _ _ _ _ _ _ _ HD HD') as [<- <-]. destruct (IH _ _ HR') as [<- <-]. easy.
Qed.
Lemma line_det ts convs l vs qs vs' qs' : types_ok ts convs -> line_read X zs ts l vs qs -> line_read X zs ts l vs' qs' -> vs = vs' /\ qs = qs'.
Proof.
  intros TO (t & ss & T & C & F & V) (t' & ss' & T' & C' & F' & V'). pose proof (typed_det _ _ _ _ _ TO T T') as <-.
  pose proof (proj2 (split_iff t (cl_value l) ss (values_text X zs _ _ _ _ _ V)) (conj C F)) as E.
  pose proof (proj2 (split_iff t (cl_value l) ss' (values_text X zs _ _ _ _ _ V')) (conj C' F')) as E'. rewrite E in E'. injection E' as <-.
  eapply values_det; eauto.
Qed.
Lemma lines_det ts convs ls : types_ok ts convs -> forall vs qs vs' qs', lines_read X zs ts ls vs qs -> lines_read X zs ts ls vs' qs' -> vs = vs' /\ qs = qs'.
Proof.
  intro TO. induction ls as [|l ls IH]; intros vs qs vs' qs' H K; inversion H; inversion K; subst; [easy|].
  match goal with A : line_read _ _ _ l ?v ?q, B : line_read _ _ _ l ?v' ?q' |- _ => destruct (line_det ts convs l v q v' q' TO A B) as [<- <-] end.
  match goal with A : lines_read _ _ _ ls ?v ?q, B : lines_read _ _ _ ls ?v' ?q' |- _ => destruct (IH v q v' q' A B) as [<- <-] end. easy.
Qed.
Lemma many_det c f its (x y : comp M) : In f (multiples c) -> many_read X zs f its x -> many_read X zs f its y ->
  dict_get (h_attr f) (c_attrs x) = dict_get (h_attr f) (c_attrs y) /\ dict_get (upper (h_attr f)) (c_params x) = dict_get (upper (h_attr f)) (c_params y).
Proof.
  intros I (ls & vs & qs & [-> _] & L & -> & ->) (ls' & vs' & qs' & [-> _] & L' & -> & ->). destruct (multi_of c f I) as (a & _ & _ & [_ _ (convs & _ & TO)]).
  destruct (lines_det _ _ _ TO _ _ _ _ L L') as [<- <-]. easy.
Qed.
Lemma time_params n key its (x y : comp M) p q o o' : time_read X zs n key its x p o -> time_read X zs n key its y q o' -> dict_get key (c_params x) = dict_get key (c_params y).
Proof.
  intros (ls & [-> _] & H) (ls' & [-> _] & K). unfold params_are in *. destruct (lines n its) as [|l [|]]; [| |contradiction].
  - destruct H as [_ ->], K as [_ ->]. easy.
  - destruct H as (p1 & d1 & r1 & T1 & _ & _ & ->), K as (p2 & d2 & r2 & T2 & _ & _ & ->). destruct (time_det _ _ _ _ _ _ _ _ _ T1 T2) as (_ & _ & ->). easy.
Qed.
Lemma length_params its (x y : comp M) o o' : length_read its x o -> length_read its y o' -> dict_get (py "DURATION") (c_params x) = dict_get (py "DURATION") (c_params y).
Proof.
  intros (ls & [-> _] & H) (ls' & [-> _] & K). unfold params_are in *. destruct (lines _ its) as [|l [|]]; [| |contradiction].
  - destruct H as [_ ->], K as [_ ->]. easy.
  - destruct H as (s1 & A1 & B1 & _ & ->), K as (s2 & A2 & B2 & _ & ->). easy.
Qed.
Lemma span_det c its (x y : comp M) : is_entry c = true -> span_read X zs c its x -> span_read X zs c its y ->
  dict_get (py "timespan") (c_attrs x) = dict_get (py "timespan") (c_attrs y) /\
  forall k, In k [py "BEGIN"; py "END"; py "DUE"; py "DURATION"] -> dict_get k (c_params x) = dict_get k (c_params y).
Proof.
  intro HE. unfold span_read. destruct c; try discriminate; intros (p & b & e & e' & d & H1 & H2 & H3 & H4 & H5 & H6 & H7 & H8) (p2 & b2 & e2 & e2' & d2 & K1 & K2 & K3 & K4 & K5 & K6 & K7 & K8).
  all: destruct (time_read_det _ _ _ _ _ _ _ _ _ _ _ _ H1 K1) as [<- P1]; destruct (time_read_det _ _ _ _ _ _ _ _ _ _ _ _ H2 K2) as [<- P2];
    pose proof (length_read_det _ _ _ _ _ _ H4 K4) as <-;
    assert (p = p2) as <- by (destruct b; [apply P1; discriminate|]; destruct e; [apply P2; discriminate|]; now rewrite H6, K6);
    (split; [rewrite H8, K8; easy|]); intros k [<-|[<-|[<-|[<-|[]]]]]; eauto using time_params, length_params.
Qed.
Lemma Unknown_det c its us us' : Unknown c its us -> Unknown c its us' -> us = us'.
Proof.
  intro H. revert us'. induction H as [|it its us K H IH|it its us K H IH]; intros us' H'; inversion H'; subst; try contradiction; auto. f_equal. auto.
Qed.
Variable RM : mkind -> list item -> M -> Prop.
Variable R : M -> M -> Prop.
Hypothesis RM_det : forall k l a b, RM k l a -> RM k l b -> R a b.
Lemma F2_det k l : forall ms ms', Forall2 (RM k) l ms -> Forall2 (RM k) l ms' -> Forall2 R ms ms'.
Proof. induction l as [|a l IH]; intros ms ms' H K; inversion H; inversion K; subst; constructor; eauto. Qed.
Lemma none_eq {V} k (a b : option V) (L : list (list N)) : (a <> None -> In k L) -> (b <> None -> In k L) -> (In k L -> a = b) -> a = b.
Proof.
  intros HA HB H. destruct (in_dec (list_eq_dec N.eq_dec) k L) as [I|I]; [auto|]. destruct a; [exfalso; apply I, HA; discriminate|]. destruct b; [exfalso; apply I, HB; discriminate|easy].
Qed.
Theorem reads_det c its (x y : comp M) : reads X zs RM c its x -> reads X zs RM c its y -> same R x y.
Proof.
  intros [X1 X2 X3 X4 X5 X6 X7 X8 X9 X10 X11] [Y1 Y2 Y3 Y4 Y5 Y6 Y7 Y8 Y9 Y10 Y11]. split.
  - congruence.
  - congruence.
  - eapply Unknown_det; eauto.
  - intro k. apply (none_eq k _ _ (S_Read.attr_names c)); auto. unfold S_Read.attr_names. rewrite !in_app_iff, !in_map_iff. intros [(f & <- & I)|[(f & <- & I)|I]].
    + apply (one_det c f its); auto.
    + apply (many_det c f its); auto.
    + destruct (is_entry c) eqn:E; [|destruct I]. destruct I as [<-|[]]. apply (span_det c its); auto.
  - intro k. destruct (in_dec (list_eq_dec N.eq_dec) k (map (fun m => fst (fst m)) (members c))) as [I|I].
    + apply in_map_iff in I as ([[a n] kd] & <- & I). cbn [fst]. destruct (X8 a n kd I) as (_ & ms & -> & F), (Y8 a n kd I) as (_ & ms' & -> & F'). eapply F2_det; eauto.
    + destruct (dict_get k (c_mem x)) eqn:E1; [exfalso; apply I, X11; congruence|]. destruct (dict_get k (c_mem y)) eqn:E2; [exfalso; apply I, Y11; congruence|]. easy.
  - intro k. apply (none_eq k _ _ (param_names c)); auto. unfold param_names. rewrite !in_app_iff, !in_map_iff. intros [(f & <- & I)|[(f & <- & I)|[I|I]]].
    + apply (one_det c f its); auto.
    + apply (many_det c f its); auto.
    + destruct (is_entry c) eqn:E; [|destruct I]. apply (span_det c its); auto.
    + destruct (is_alarm c) eqn:E; [|destruct I]. destruct I as [<-|[]]. destruct (X7 eq_refl) as (l & [L _] & _ & H), (Y7 eq_refl) as (l' & [L' _] & _ & K). rewrite <- L' in L. injection L as <-. unfold params_are in *. congruence.
Qed.
End Det.

(** ** Alarms *)
Section All.
Variable X : ext.
Lemma load_alarm_class n its zs x zs1 : load_alarm X n its zs = Ok (x, zs1) -> exists c, is_alarm c = true /\ acted c its /\ load_comp X Empty_set no_member c n its zs = Ok (x, zs1).
Proof.
  unfold load_alarm. intro H. apply bind_Ok in H as (v & HF & H). apply find_action_iff in HF as (l & HL & ->). exists (type_from_action (cl_value l)).
  split; [unfold type_from_action; repeat destruct (str_eqb _ _); easy|]. split; [|exact H]. intros _. eauto.
Qed.
Lemma alarm_sound zs zs' n its x zs1 : zeq X zs zs' -> load_alarm X n its zs' = Ok (x, zs1) -> n = py "VALARM" /\ alarm_reads X zs its x /\ zeq X zs zs1.
Proof.
  intros HZ H. apply load_alarm_class in H as (c & HC & HA & H).
  destruct (load_sound X Empty_set no_member c zs (@no_reads)) with (n := n) (its := its) (zs' := zs') (x := x) (zs1 := zs1) as (E & R & Z); auto.
  { intros a m k l z y z1 I. destruct c; now try destruct I. }
  split; [destruct c; try discriminate; exact E|]. split; [|exact Z]. now exists c.
Qed.
Lemma alarm_class_det zs c c' its (x y : alarm) : is_alarm c = true -> is_alarm c' = true -> reads X zs (@no_reads) c its x -> reads X zs (@no_reads) c' its y -> c = c'.
Proof.
  intros HC HC' H K. destruct (rd_action _ _ _ _ _ _ H HC) as (l & [L _] & A & _), (rd_action _ _ _ _ _ _ K HC') as (l' & [L' _] & A' & _).
  rewrite <- L' in L. injection L as <-. apply type_from_action_iff in A, A'. congruence.
Qed.
Lemma alarm_det zs its x y : alarm_reads X zs its x -> alarm_reads X zs its y -> same_alarm x y.
Proof.
  intros (c & HC & H) (c' & HC' & K). pose proof (alarm_class_det zs c c' its x y HC HC' H K) as <-. eapply (reads_det X Empty_set zs (@no_reads) eq); eauto.
  intros k l [].
Qed.
Lemma alarm_complete zs zs' its x : zeq X zs zs' -> alarm_reads X zs its x -> exists y zs1, load_alarm X (py "VALARM") its zs' = Ok (y, zs1).
Proof.
  intros HZ (c & HC & H). destruct (rd_action _ _ _ _ _ _ H HC) as (l & HL & A & _).
  assert (find_action its = Ok (cl_value l)) as EF by (apply find_action_iff; eauto). apply type_from_action_iff in A.
  destruct (load_complete X Empty_set no_member c zs (@no_reads)) with (its := its) (zs' := zs') (x := x) as (y & zs1 & E); auto.
  { intros a m k l0 z y z1 I. destruct c; now try destruct I. } { intros a m k l0 z [] I. }
  exists y, zs1. unfold load_alarm. rewrite EF. cbn [bind]. rewrite A. replace (py "VALARM") with (title c) by (now destruct c). exact E.
Qed.

(** ** Events and todos *)
Lemma entry_sound c zs zs' n its x zs1 : is_entry c = true -> zeq X zs zs' -> load_entry X c n its zs' = Ok (x, zs1) -> n = title c /\ entry_reads X zs c its x /\ zeq X zs zs1.
Proof.
  intros HC HZ H. eapply (load_sound X alarm (entry_member X) c zs (in_entry_reads X zs)); eauto.
  - intros a m k l z y z1 I Z E. assert (k = MAlarm) as -> by (destruct c; try discriminate; destruct I as [[= _ _ <-]|[]]; easy).
    apply (alarm_sound zs) in E as (_ & R & Z1); [|exact Z]. now split.
  - destruct c; easy.
Qed.
Lemma entry_det c zs its x y : entry_reads X zs c its x -> entry_reads X zs c its y -> same_entry x y.
Proof. apply (reads_det X alarm zs (in_entry_reads X zs) same_alarm). intros k l a b. apply alarm_det. Qed.
Lemma entry_complete c zs zs' its x : is_entry c = true -> zeq X zs zs' -> entry_reads X zs c its x -> exists y zs1, load_entry X c (title c) its zs' = Ok (y, zs1).
Proof.
  intros HC HZ H. eapply (load_complete X alarm (entry_member X) c zs (in_entry_reads X zs)); eauto.
  - intros a m k l z y z1 I Z E. assert (k = MAlarm) as -> by (destruct c; try discriminate; destruct I as [[= _ _ <-]|[]]; easy).
    apply (alarm_sound zs) in E as (_ & R & Z1); [|exact Z]. now split.
  - intros a m k l z y I Z E. assert (m = py "VALARM" /\ k = MAlarm) as [-> ->] by (destruct c; try discriminate; destruct I as [[= _ <- <-]|[]]; easy).
    eapply alarm_complete; eauto.
Qed.

(** ** Calendars *)
Definition first_wins (d : zones) (p : list N * tz) : zones := match dict_get (fst p) d with Some _ => d | None => dict_set (fst p) (snd p) d end.
Lemma load_zones_iff its : forall d d', load_zones X its d = Ok d' <->
  exists ps, Forall2 (fun sub p => x_tz_load X sub = Ok p) (subs (py "VTIMEZONE") its) ps /\ d' = fold_left first_wins ps d.
Proof.
  induction its as [|[l|n sub] its IH]; intros d d'; cbn [load_zones].
  - split; [intros [= <-]; exists []; split; [constructor|easy]|]. intros (ps & F & ->). now inversion F.
  - apply IH.
  - change (subs (py "VTIMEZONE") (ICont n sub :: its)) with ((if str_eqb n (py "VTIMEZONE") then [sub] else []) ++ subs (py "VTIMEZONE") its).
    destruct (str_eqb n (py "VTIMEZONE")); cbn [app]; [|apply IH]. split.
    + intro H. apply bind_Ok in H as ([id z] & HT & H). apply IH in H as (ps & F & ->). exists ((id, z) :: ps). split; [now constructor|easy].
    + intros (ps & F & ->). inversion F as [|? p ? ps' HT F']; subst. rewrite HT. destruct p as [id z]. cbn [bind]. apply IH. now exists ps'.
Qed.
Lemma dict_get_app {V} k (a b : dict V) : dict_get k (a ++ b) = match dict_get k a with Some v => Some v | None => dict_get k b end.
Proof. induction a as [|[j v] a IH]; [easy|]. cbn [app dict_get]. destruct (str_eqb k j); [easy|exact IH]. Qed.
Lemma fold_wins ps : forall d id, dict_get id (fold_left first_wins ps d) = dict_get id (d ++ ps).
Proof.
  induction ps as [|[j z] ps IH]; intros d id; cbn [fold_left]; [now rewrite app_nil_r|]. rewrite IH, !dict_get_app. unfold first_wins. cbn [fst snd].
  destruct (dict_get j d) as [z0|] eqn:E.
  - destruct (dict_get id d) eqn:E2; [easy|]. cbn [dict_get]. destruct (str_eqb id j) eqn:EQ; [|easy]. apply str_eqb_eq in EQ. congruence.
  - cbn [dict_get]. destruct (str_eqb id j) eqn:EQ.
    + apply str_eqb_eq in EQ as ->. rewrite dict_get_set_same, E. easy.
    + apply str_eqb_neq in EQ. rewrite dict_get_set_other by congruence. easy.
Qed.
Lemma wins_zeq ps : zeq X ps (fold_left first_wins ps []).
Proof. intro id. unfold zget. now rewrite fold_wins. Qed.
Lemma calendar_sound n its x : load_calendar X n its = Ok x -> n = py "VCALENDAR" /\ calendar_reads X its x.
Proof.
  unfold load_calendar, populate_calendar. destruct (str_eqb n (py "VCALENDAR")) eqn:EN; [|discriminate]. apply str_eqb_eq in EN. subst n. intro H. split; [easy|].
  apply bind_Ok in H as (d & HD & H). apply load_zones_iff in HD as (ps & F & ->). apply bind_Ok in H as ([y zs1] & H & [= <-]). exists ps. split; [exact F|].
  eapply (load_sound X entry (calendar_member X) CCalendar ps (in_calendar_reads X ps)); [| |apply wins_zeq|exact H].
  - intros a m k l z u z1 I Z E. destruct I as [[= _ _ <-]|[[= _ _ <-]|[]]]; cbn [calendar_member in_calendar_reads] in *;
      apply (entry_sound _ ps) in E as (_ & R & Z1); auto.
  - easy.
Qed.
Lemma zones_det its ps ps' : Forall2 (fun sub p => x_tz_load X sub = Ok p) its ps -> Forall2 (fun sub p => x_tz_load X sub = Ok p) its ps' -> ps = ps'.
Proof.
  intro H. revert ps'. induction H as [|s p its ps H F IH]; intros ps' K; inversion K; subst; [easy|]. f_equal; [congruence|auto].
Qed.
Lemma calendar_det its x y : calendar_reads X its x -> calendar_reads X its y -> same_calendar x y.
Proof.
  intros (ps & F & H) (ps' & F' & K). pose proof (zones_det _ _ _ F F') as <-. eapply (reads_det X entry ps (in_calendar_reads X ps) same_entry); eauto.
  intros [] l a b A B; [destruct A| |]; eapply entry_det; eauto.
Qed.
Lemma calendar_complete its x : calendar_reads X its x -> exists y, load_calendar X (py "VCALENDAR") its = Ok y.
Proof.
  intros (ps & F & H). unfold load_calendar, populate_calendar. rewrite str_eqb_refl.
  assert (load_zones X its [] = Ok (fold_left first_wins ps [])) as -> by (apply load_zones_iff; eauto). cbn [bind].
  destruct (load_complete X entry (calendar_member X) CCalendar ps (in_calendar_reads X ps)) with (its := its) (zs' := fold_left first_wins ps []) (x := x) as (y & zs1 & E);
    [| |apply wins_zeq|exact H|].
  - intros a m k l z u z1 I Z E. destruct I as [[= _ _ <-]|[[= _ _ <-]|[]]]; cbn [calendar_member in_calendar_reads] in *;
      apply (entry_sound _ ps) in E as (_ & R & Z1); auto.
  - intros a m k l z u I Z E. destruct I as [[= _ <- <-]|[[= _ <- <-]|[]]]; cbn [calendar_member in_calendar_reads] in *.
    + apply (entry_complete CEvent ps z l u); auto.
    + apply (entry_complete CTodo ps z l u); auto.
  - unfold load_comp in E. change (title CCalendar) with (py "VCALENDAR") in E. rewrite E. cbn [bind]. eauto.
Qed.

(** ** The theorems *)
Theorem alarm_exact its zs n : (forall x zs1, load_alarm X n its zs = Ok (x, zs1) -> n = py "VALARM" /\ alarm_reads X zs its x) /\
  (forall x, alarm_reads X zs its x -> exists y zs1, load_alarm X (py "VALARM") its zs = Ok (y, zs1) /\ same_alarm x y).
Proof.
  split.
  - intros x zs1 H. apply (alarm_sound zs) in H as (-> & R & _); [now split|apply zeq_refl].
  - intros x H. destruct (alarm_complete zs zs its x (zeq_refl X zs) H) as (y & zs1 & E). exists y, zs1. split; [exact E|].
    apply (alarm_sound zs) in E as (_ & R & _); [|apply zeq_refl]. eapply alarm_det; eauto.
Qed.
Theorem entry_exact c its zs n : c = CEvent \/ c = CTodo -> (forall x zs1, load_entry X c n its zs = Ok (x, zs1) -> n = title c /\ entry_reads X zs c its x) /\
  (forall x, entry_reads X zs c its x -> exists y zs1, load_entry X c (title c) its zs = Ok (y, zs1) /\ same_entry x y).
Proof.
  intro HC. assert (is_entry c = true) as HE by (destruct HC as [-> | ->]; easy). split.
  - intros x zs1 H. apply (entry_sound c zs) in H as (-> & R & _); [now split|exact HE|apply zeq_refl].
  - intros x H. destruct (entry_complete c zs zs its x HE (zeq_refl X zs) H) as (y & zs1 & E). exists y, zs1. split; [exact E|].
    apply (entry_sound c zs) in E as (_ & R & _); [|exact HE|apply zeq_refl]. eapply entry_det; eauto.
Qed.
Theorem calendar_exact its n : (forall x, load_calendar X n its = Ok x -> n = py "VCALENDAR" /\ calendar_reads X its x) /\
  (forall x, calendar_reads X its x -> exists y, load_calendar X (py "VCALENDAR") its = Ok y /\ same_calendar x y).
Proof.
  split; [apply calendar_sound|]. intros x H. destruct (calendar_complete its x H) as (y & E). exists y. split; [exact E|].
  apply calendar_sound in E as [_ R]. eapply calendar_det; eauto.
Qed.
End All.
