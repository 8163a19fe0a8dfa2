(** * Proofs: reading into a component that already has contents, calendars (C60) *)
From Verif Require Import M_Base M_Text M_Line M_Codec M_Cal M_Time M_Span M_Dt M_Fold M_Tree M_Comp M_Open M_Serial M_Merge.
From Verif Require Import S_Comp S_Multi S_Reorder S_Read S_Merge.
From Verif Require Import P_Base P_Comp P_ReadGen P_Read P_ReadAll P_Merge.
From Coq Require Import Lia ZifyBool ZifyNat ZifyN.
Open Scope N_scope.

Section Merge.
Variable X : ext.

Lemma merged_mergeable {M} its (x0 y x : comp M) : merged its x0 y x -> mergeable x.
Proof.
  intros [A1 _ _ _ _ A6 A7 A8 _ _ _]. constructor; rewrite A1.
  - intros f I. destruct (A6 f I) as (o & w & _ & _ & E). eauto.
  - intros f p I. now apply (A7 f I).
  - intros a n k I. destruct (A8 a n k I) as (o & w & _ & _ & E). congruence.
Qed.

Section Generic.
Variable M : Type.
Variable load_m : mkind -> list N -> list item -> zones -> res (M * zones).
Theorem merge_iff x0 n its zs : mergeable x0 ->
  (forall x zs', populate_instance X M load_m x0 n its zs = Ok (x, zs') -> exists y, load_comp X M load_m (c_cls x0) n its zs = Ok (y, zs') /\ merged its x0 y x) /\
  (forall y zs', load_comp X M load_m (c_cls x0) n its zs = Ok (y, zs') -> exists x, populate_instance X M load_m x0 n its zs = Ok (x, zs') /\ merged its x0 y x) /\
  (forall e, populate_instance X M load_m x0 n its zs = Err e <-> load_comp X M load_m (c_cls x0) n its zs = Err e).
Proof.
  intro HM. pose proof (merge_both X M load_m x0 n its zs HM) as B.
  destruct (populate_instance X M load_m x0 n its zs) as [[x z]|e], (load_comp X M load_m (c_cls x0) n its zs) as [[y z']|e']; cbn [both fst snd] in B; try contradiction.
  - destruct B as [B ->]. split; [|split]; intros.
    + injection H as <- <-. eauto.
    + injection H as <- <-. eauto.
    + split; discriminate.
  - subst. split; [|split]; intros; try discriminate. easy.
Qed.
End Generic.

(** ** Calendars *)
Lemma new_mergeable {M} c : mergeable (new_comp X M c).
Proof.
  constructor; cbn [new_comp c_cls c_params dict_get].
  - intros f I. exists []. destruct c; cbn in I; repeat destruct I as [<-|I]; try contradiction; reflexivity.
  - discriminate.
  - intros a n k I. destruct c; cbn in I; repeat destruct I as [[= <- <- <-]|I]; try contradiction; discriminate.
Qed.
Lemma made_mergeable evs tds cr : mergeable (made_calendar X evs tds cr).
Proof.
  constructor; cbn [made_calendar c_cls c_params new_comp dict_get c_mem c_attrs].
  - intros f [].
  - discriminate.
  - intros a n k I. cbn in I. repeat destruct I as [[= <- <- <-]|I]; try contradiction; discriminate.
Qed.

Lemma calendar_merge c0 n its : mergeable c0 -> c_cls c0 = CCalendar ->
  match populate_calendar X c0 n its, load_calendar X n its with
  | Ok x, Ok y => merged its c0 y x
  | Err e, Err e' => e = e'
  | _, _ => False
  end.
Proof.
  intros HM HC. unfold load_calendar, populate_calendar. destruct (str_eqb n (py "VCALENDAR")); [|reflexivity].
  destruct (load_zones X its []) as [zs|e]; cbn [bind]; [|reflexivity].
  pose proof (merge_both X entry (calendar_member X) c0 n its zs HM) as B. rewrite HC in B. unfold load_comp in B.
  destruct (populate_instance X entry (calendar_member X) c0 n its zs) as [[x z]|e], (populate_instance X entry (calendar_member X) (new_comp X entry CCalendar) n its zs) as [[y z']|e'];
    cbn [both fst snd bind] in *; try contradiction; [now destruct B|exact B].
Qed.
Theorem calendar_merge_iff c0 n its : mergeable c0 -> c_cls c0 = CCalendar ->
  (forall x, populate_calendar X c0 n its = Ok x -> exists y, load_calendar X n its = Ok y /\ merged its c0 y x) /\
  (forall y, load_calendar X n its = Ok y -> exists x, populate_calendar X c0 n its = Ok x /\ merged its c0 y x) /\
  (forall e, populate_calendar X c0 n its = Err e <-> load_calendar X n its = Err e).
Proof.
  intros HM HC. pose proof (calendar_merge c0 n its HM HC) as B. destruct (populate_calendar X c0 n its) as [x|e], (load_calendar X n its) as [y|e']; try contradiction.
  - split; [|split]; intros.
    + injection H as <-. eauto.
    + injection H as <-. eauto.
    + split; discriminate.
  - subst. split; [|split]; intros; try discriminate. easy.
Qed.

Lemma stream_merge c0 g : mergeable c0 -> c_cls c0 = CCalendar ->
  match import_stream (populate_calendar X c0) g, import_stream (load_calendar X) g with
  | Ok x, Ok y => exists n its, g = ([ICont n its], None) /\ merged its c0 y x
  | Err e, Err e' => e = e'
  | _, _ => False
  end.
Proof.
  intros HM HC. destruct g as [[|[l|n its] rest] e]; cbn [import_stream].
  - now destruct e.
  - reflexivity.
  - pose proof (calendar_merge c0 n its HM HC) as B. destruct (populate_calendar X c0 n its) as [x|e1], (load_calendar X n its) as [y|e2]; cbn [bind]; try contradiction; [|exact B].
    destruct rest as [|r rest]; [|reflexivity]. destruct e as [e|]; [reflexivity|]. eauto.
Qed.
Theorem open_merge c0 i : mergeable c0 -> c_cls c0 = CCalendar -> i <> FromNone ->
  (forall x, Calendar (populate_calendar X c0) c0 i = Ok x -> exists y n its, imported i n its /\ read_calendar X i = Ok y /\ merged its c0 y x) /\
  (forall y, read_calendar X i = Ok y -> exists x n its, imported i n its /\ Calendar (populate_calendar X c0) c0 i = Ok x /\ merged its c0 y x) /\
  (forall e, Calendar (populate_calendar X c0) c0 i = Err e <-> read_calendar X i = Err e).
Proof.
  intros HM HC HI. assert (B : match Calendar (populate_calendar X c0) c0 i, read_calendar X i with
    | Ok x, Ok y => exists n its, imported i n its /\ merged its c0 y x | Err e, Err e' => e = e' | _, _ => False end).
  { unfold read_calendar. destruct i as [|n its|t|ls|l]; cbn [Calendar imported]; [congruence| | | |].
    - pose proof (calendar_merge c0 n its HM HC) as B. destruct (populate_calendar X c0 n its), (load_calendar X n its); try contradiction; [|exact B]. exists n, its. auto.
    - exact (stream_merge c0 _ HM HC).
    - exact (stream_merge c0 _ HM HC).
    - reflexivity. }
  destruct (Calendar (populate_calendar X c0) c0 i) as [x|e], (read_calendar X i) as [y|e']; try contradiction.
  - destruct B as (n & its & B1 & B2). split; [|split]; intros.
    + injection H as <-. exists y, n, its. auto.
    + injection H as <-. exists x, n, its. auto.
    + split; discriminate.
  - subst. split; [|split]; intros; try discriminate. easy.
Qed.

(** ** Events and todos that were given are kept before those that are read *)
Lemma merged_under its (c0 y x : calendar) k : c_cls c0 = CCalendar -> In k [py "events"; py "todos"] -> merged its c0 y x -> under k x = under k c0 ++ under k y.
Proof.
  intros HC I [_ _ _ _ _ _ _ A8 _ _ _]. rewrite HC in A8. unfold under.
  destruct I as [<-|[<-|[]]]; [destruct (A8 (py "events") (py "VEVENT") MEvent) as (o & w & -> & -> & ->); [cbn; tauto|reflexivity]|
    destruct (A8 (py "todos") (py "VTODO") MTodo) as (o & w & -> & -> & ->); [cbn; tauto|reflexivity]].
Qed.
Theorem init_merge i evs tds cr : i <> FromNone ->
  (forall x, calendar_init X i evs tds cr = Ok x -> exists y, read_calendar X i = Ok y /\
     under (py "events") x = evs ++ under (py "events") y /\ under (py "todos") x = tds ++ under (py "todos") y) /\
  (forall y, read_calendar X i = Ok y -> exists x, calendar_init X i evs tds cr = Ok x) /\
  (forall e, calendar_init X i evs tds cr = Err e <-> read_calendar X i = Err e).
Proof.
  intro HI. unfold calendar_init. set (c0 := made_calendar X evs tds cr). destruct (open_merge c0 i (made_mergeable evs tds cr) eq_refl HI) as (A & B & C).
  split; [|split]; [| |exact C].
  - intros x H. destruct (A x H) as (y & n & its & _ & RY & MY). exists y. split; [exact RY|].
    rewrite (merged_under its c0 y x (py "events") eq_refl (or_introl eq_refl) MY), (merged_under its c0 y x (py "todos") eq_refl (or_intror (or_introl eq_refl)) MY). now split.
  - intros y H. destruct (B y H) as (x & n & its & _ & RX & _). eauto.
Qed.

Lemma made_attrs evs tds cr k : dict_get k (c_attrs (made_calendar X evs tds cr)) =
  if str_eqb k (py "version") then Some (AOne (VStr (py "2.0")))
  else if str_eqb k (py "prodid") then Some (AOne (VStr (match cr with Some s => s | None => py "ics.py 0.8.0.dev0 - http://git.io/lLljaA" end)))
  else if str_eqb k (py "scale") || str_eqb k (py "method") then Some ANone else None.
Proof.
  destruct cr as [s|]; unfold made_calendar; cbn [c_attrs];
    [change (dict_set (py "prodid") (AOne (VStr s)) (c_attrs (new_comp X entry CCalendar))) with [(py "version", AOne (VStr (py "2.0"))); (py "prodid", AOne (VStr s)); (py "scale", ANone); (py "method", ANone)]|
     change (c_attrs (new_comp X entry CCalendar)) with [(py "version", AOne (VStr (py "2.0"))); (py "prodid", AOne (VStr (py "ics.py 0.8.0.dev0 - http://git.io/lLljaA"))); (py "scale", ANone); (py "method", ANone)]];
    cbn [dict_get]; destruct (str_eqb k (py "version")), (str_eqb k (py "prodid")), (str_eqb k (py "scale")), (str_eqb k (py "method")); reflexivity.
Qed.
Theorem init_rest i evs tds cr x y : i <> FromNone -> calendar_init X i evs tds cr = Ok x -> read_calendar X i = Ok y ->
  (forall k, dict_get k (c_attrs x) = dict_get k (c_attrs y)) /\ (forall k, dict_get k (c_params x) = dict_get k (c_params y)) /\ c_extra x = c_extra y /\ c_name x = c_name y /\ c_cls x = c_cls y.
Proof.
  intros HI H R. unfold calendar_init in H. set (c0 := made_calendar X evs tds cr) in *. destruct (open_merge c0 i (made_mergeable evs tds cr) eq_refl HI) as (A & _).
  destruct (A x H) as (y' & n & its & IM & RY & MY). rewrite R in RY. injection RY as <-. assert (L : load_calendar X n its = Ok y).
  { destruct i as [|m l|t|ls|]; cbn [imported] in IM; try contradiction; [destruct IM as [-> ->]; exact R| |];
      unfold read_calendar, Calendar in R; rewrite IM in R; unfold import_stream in R; destruct (load_calendar X n its); cbn [bind] in R; [exact R|discriminate|exact R|discriminate]. }
  apply calendar_sound in L as (_ & zs & _ & RD). split; [|split; [|split; [|split]]].
  - intro k. destruct (in_dec (list_eq_dec N.eq_dec) k (attr_names CCalendar)) as [I|I].
    + assert (I' : exists f, In f (singles CCalendar) /\ g_attr f = k) by (change (attr_names CCalendar) with (map g_attr (singles CCalendar)) in I; apply in_map_iff in I as (f & <- & I); now exists f).
      destruct I' as (f & IF & <-). rewrite (me_one _ _ _ _ MY f IF). destruct (lines (g_name f) its) as [|l ls] eqn:E; [|reflexivity].
      destruct (rd_one _ _ _ _ _ _ RD f IF) as (ls & (OL & _) & HR). rewrite OL, E in HR. destruct HR as (NR & HR & _). rewrite HR.
      unfold c0. rewrite made_attrs. cbn in IF. destruct IF as [<-|[<-|[<-|[<-|[]]]]]; [exfalso; apply NR; now left|exfalso; apply NR; right; now left|reflexivity|reflexivity].
    + rewrite (me_attrs _ _ _ _ MY k I). unfold c0. rewrite made_attrs. destruct (dict_get k (c_attrs y)) eqn:E; [exfalso; apply I, (rd_attrs _ _ _ _ _ _ RD); congruence|].
      assert (HN : forall a, In a (attr_names CCalendar) -> str_eqb k a = false) by (intros a J; destruct (str_eqb k a) eqn:EQ; [apply str_eqb_eq in EQ; now subst|reflexivity]).
      rewrite !HN by (cbn; tauto). reflexivity.
  - intro k. rewrite (me_params _ _ _ _ MY k) by (intros f []). destruct (dict_get k (c_params y)); reflexivity.
  - rewrite (me_extra _ _ _ _ MY). reflexivity.
  - rewrite (me_name _ _ _ _ MY), (rd_name _ _ _ _ _ _ RD). reflexivity.
  - rewrite (me_cls _ _ _ _ MY), (rd_cls _ _ _ _ _ _ RD). reflexivity.
Qed.
Theorem init_new evs tds cr : exists x, calendar_init X FromNone evs tds cr = Ok x /\ c_cls x = CCalendar /\ c_name x = py "VCALENDAR" /\
  (forall k, dict_get k (c_attrs x) = if str_eqb k (py "version") then Some (AOne (VStr (py "2.0")))
    else if str_eqb k (py "prodid") then Some (AOne (VStr (match cr with Some s => s | None => py "ics.py 0.8.0.dev0 - http://git.io/lLljaA" end)))
    else if str_eqb k (py "scale") || str_eqb k (py "method") then Some ANone else None) /\
  c_mem x = [(py "events", evs); (py "todos", tds)] /\ c_extra x = [] /\ c_params x = [].
Proof. exists (made_calendar X evs tds cr). split; [reflexivity|]. split; [reflexivity|]. split; [reflexivity|]. split; [exact (made_attrs evs tds cr)|]. now repeat split. Qed.
Theorem from_container_exact c n its : c = CEvent \/ c = CTodo ->
  (forall x, entry_from_container X c n its = Ok x -> n = title c /\ entry_reads X [] c its x) /\
  (forall x, n = title c -> entry_reads X [] c its x -> exists y, entry_from_container X c n its = Ok y /\ same_entry x y).
Proof.
  intro HC. destruct (entry_exact X c its [] n HC) as [A B]. unfold entry_from_container, populate_entry. change (populate_instance X alarm (entry_member X) (new_comp X alarm c) n its []) with (load_entry X c n its []). split.
  - intros x H. destruct (load_entry X c n its []) as [[x' zs1]|]; [|discriminate]. injection H as <-. exact (A x' zs1 eq_refl).
  - intros x -> R. destruct (B x R) as (y & zs1 & E & S). exists y. rewrite E. now split.
Qed.

(** ** Several containers into one calendar *)
Theorem several conts : forall c0, mergeable c0 -> c_cls c0 = CCalendar ->
  (forall x, populate_all X c0 conts = Ok x -> exists ys, Forall2 (fun c y => load_calendar X (fst c) (snd c) = Ok y) conts ys /\
     forall k, In k [py "events"; py "todos"] -> under k x = under k c0 ++ flat_map (under k) ys) /\
  (forall ys, Forall2 (fun c y => load_calendar X (fst c) (snd c) = Ok y) conts ys -> exists x, populate_all X c0 conts = Ok x).
Proof.
  induction conts as [|[n its] conts IH]; intros c0 HM HC; cbn [populate_all].
  - split; [|intros; eauto]. intros x [= <-]. exists []. split; [constructor|]. intros. cbn. now rewrite app_nil_r.
  - pose proof (calendar_merge c0 n its HM HC) as B. split.
    + intros x H. destruct (populate_calendar X c0 n its) as [c1|e]; cbn [bind] in H; [|discriminate]. destruct (load_calendar X n its) as [y|e'] eqn:LY; [|contradiction].
      assert (HC1 : c_cls c1 = CCalendar) by (rewrite (me_cls _ _ _ _ B); exact HC).
      destruct (proj1 (IH c1 (merged_mergeable _ _ _ _ B) HC1) x H) as (ys & F & U). exists (y :: ys). split; [constructor; assumption|].
      intros k I. rewrite (U k I), (merged_under its c0 y c1 k HC I B), <- app_assoc. reflexivity.
    + intros ys F. inversion F as [|? y ? ys' LY F']. subst. cbn [fst snd] in LY. rewrite LY in B. destruct (populate_calendar X c0 n its) as [c1|e]; [|contradiction]. cbn [bind].
      assert (HC1 : c_cls c1 = CCalendar) by (rewrite (me_cls _ _ _ _ B); exact HC). exact (proj2 (IH c1 (merged_mergeable _ _ _ _ B) HC1) ys' F').
Qed.
End Merge.
