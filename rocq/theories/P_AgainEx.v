(** * Examples for C59 *)
From Verif Require Import M_Base M_Text M_Line M_Codec M_Cal M_Time M_Span M_Dt M_Fold M_Tree M_Comp M_Open M_Serial.
From Verif Require Import S_Text S_Codec S_Dt S_Line S_Fold S_Tree S_Comp S_Multi S_Store S_Ref S_Wire S_Read S_Toy S_Again.
From Verif Require Import P_Base P_Codec P_Comp P_Field P_StoreEx P_Calendar P_CalendarEx P_Again4.
From Coq Require Import Lia ZifyBool ZifyNat ZifyN.
Open Scope N_scope.

Lemma toy_text_env : text_env toy.
Proof.
  constructor.
  - intros s u c [= <-] _ H. cbn. now rewrite app_nil_r.
  - intros a c HC I. pose proof (dec_digits a) as D. rewrite forallb_forall in D. apply D in I. apply is_digit_spec in I. cbn in HC. lia.
  - eexists. split; reflexivity.
Qed.

Definition nl (s : list N) : list N := s ++ [13; 10].
Definition again_text : list N := flat_map nl [
  py "BEGIN:VCALENDAR"; py "PRODID;X-P=p:me"; py "VERSION:2.0"; py "X-C:1";
  py "BEGIN:VTIMEZONE"; py "TZID:Z3"; py "END:VTIMEZONE";
  py "BEGIN:VEVENT"; py "UID:u"; py "DTSTAMP:20200101T000000Z"; py "SUMMARY;LANGUAGE=en:a\, b"; py "DTSTART;TZID=Z3:20200102T030405";
  py "DTEND;TZID=Z3:20200102T040405"; py "CATEGORIES;X-Q=q:a,b"; py "CATEGORIES:c"; py "GEO:1;2"; py "URL:http://x";
  py "ATTENDEE;CN=Joe:mailto:joe"; py "BEGIN:VALARM"; py "ACTION:DISPLAY"; py "TRIGGER:-PT5M"; py "DESCRIPTION:d"; py "END:VALARM"; py "END:VEVENT";
  py "BEGIN:VTODO"; py "UID:v"; py "DTSTAMP:20200101T000000Z"; py "DUE;VALUE=DATE:20200103"; py "END:VTODO";
  py "END:VCALENDAR"].
Definition again_calendar : calendar :=
  Eval vm_compute in match read_calendar toy (FromStr again_text) with Ok c => c | Err _ => new_comp toy entry CCalendar end.
Lemma again_read : read_calendar toy (FromStr again_text) = Ok again_calendar.
Proof. vm_compute. reflexivity. Qed.
Definition again_event : entry := Eval vm_compute in match get_mem (py "events") again_calendar with [x] => x | _ => new_comp toy alarm CEvent end.
Definition again_todo : entry := Eval vm_compute in match get_mem (py "todos") again_calendar with [x] => x | _ => new_comp toy alarm CTodo end.
Definition again_alarm : alarm := Eval vm_compute in match get_mem (py "alarms") again_event with [x] => x | _ => new_comp toy Empty_set CDisplay end.
Lemma again_mem : c_mem again_calendar = [(py "events", [again_event]); (py "todos", [again_todo])] /\
  c_mem again_event = [(py "alarms", [again_alarm])] /\ c_mem again_todo = [(py "alarms", [])].
Proof. split; [|split]; reflexivity. Qed.

Ltac keep_dt := split; [reflexivity|split; [vm_compute; discriminate|first [exact I|left; reflexivity|right; eexists; eexists; split; [split; [reflexivity|split; reflexivity]|vm_compute; discriminate]]]].
Ltac keep_one := first [exact I|reflexivity|split; reflexivity|keep_dt|(intros ?d ?Hd; each Hd; subst; keep_dt)|
  (repeat (apply Forall_cons; [split; [first [exact I|reflexivity]|first [exact I|vm_compute; intuition discriminate]]|]); apply Forall_nil)].
Ltac keep_attrs := intros ?k ?a ?H; apply dict_get_In in H; each H; subst; keep_one.
Ltac keep_notes := intros ?k ?qs ?H; apply dict_get_In in H; each H; try discriminate H; injection H as <-;
  repeat (apply Forall_cons; [first [(exists [], [PRaw (py "FALSE")]; reflexivity)|(eexists [_], _; reflexivity)]|]); apply Forall_nil.
Lemma again_alarm_keep : keepable_alarm toy again_alarm.
Proof. constructor; [discriminate|keep_attrs|keep_notes|reflexivity|discriminate|easy]. Qed.
Lemma again_event_keep : keepable_entry toy again_event.
Proof.
  constructor; [discriminate|keep_attrs|keep_notes|reflexivity|reflexivity|]. intros k l m H Hm. apply dict_get_In in H. each H. subst l. destruct Hm as [<-|[]]. exact again_alarm_keep.
Qed.
Lemma again_todo_keep : keepable_entry toy again_todo.
Proof.
  constructor; [discriminate|keep_attrs|keep_notes|reflexivity|discriminate|]. intros k l m H Hm. apply dict_get_In in H. each H. subst l. destruct Hm.
Qed.
Lemma again_keep : keepable_calendar toy again_calendar.
Proof.
  constructor; [discriminate|keep_attrs|keep_notes|reflexivity|discriminate|]. intros k l m H Hm. apply dict_get_In in H. each H; subst l; destruct Hm as [<-|[]];
    [exact again_event_keep|exact again_todo_keep].
Qed.

(** ** Zones *)
Lemma again_alarm_use id z z' : ~ alarm_uses toy again_alarm id z z'.
Proof.
  intros [(k & a & d & H & Hd & HU)|(k & l & m & H & Hm & HU)]; [|contradiction].
  apply dict_get_In in H. each H; subst a; cbn in Hd; contradiction.
Qed.
Lemma again_event_use id z z' : entry_uses toy again_event id z z' -> id = 90 :: dec 3 /\ z = TzObj 3 /\ z' = TzObj 3.
Proof.
  intros [(k & a & d & H & Hd & HU)|(k & l & m & H & Hm & HU)].
  - apply dict_get_In in H. each H; subst a; cbn in Hd; repeat (destruct Hd as [Hd|Hd]); try contradiction; subst d;
      (eapply toy_use in HU as (HF & HU); [|reflexivity]); first [exact HU|discriminate HF].
  - apply dict_get_In in H. each H; subst l. destruct Hm as [<-|[]]. now apply again_alarm_use in HU.
Qed.
Lemma again_todo_use id z z' : ~ entry_uses toy again_todo id z z'.
Proof.
  intros [(k & a & d & H & Hd & HU)|(k & l & m & H & Hm & HU)].
  - apply dict_get_In in H. each H; subst a; cbn in Hd; repeat (destruct Hd as [Hd|Hd]); try contradiction; subst d;
      first [destruct HU as (HU & _); discriminate HU|(eapply toy_use in HU as (HF & _); [|reflexivity]); discriminate HF].
  - apply dict_get_In in H. each H; subst l. destruct Hm.
Qed.
Lemma again_use id z z' : calendar_uses toy again_calendar id z z' -> id = 90 :: dec 3 /\ z = TzObj 3 /\ z' = TzObj 3.
Proof.
  intros [(k & a & d & H & Hd & HU)|(k & l & m & H & Hm & HU)].
  - apply dict_get_In in H. each H; subst a; cbn in Hd; contradiction.
  - apply dict_get_In in H. each H; subst l; destruct Hm as [<-|[]]; [now apply again_event_use|now apply again_todo_use in HU].
Qed.
Lemma again_zones : zones_stored toy again_calendar.
Proof.
  split.
  - intros id z z' HU. apply again_use in HU as (-> & -> & ->). eexists. split; [reflexivity|]. split.
    + cbn [wf_item]. split; [discriminate|]. split; [reflexivity|]. split; [nob|]. split; [line_ok|exact I].
    + intros sub' HE. inversion HE as [|? it ? r H1 H2]; subst. inversion H2; subst. apply item_eq_line in H1 as (l & -> & _ & HV & _).
      cbn in HV. cbn. rewrite <- HV. reflexivity.
  - intros id z1 z1' z2 z2' H1 H2. apply again_use in H1 as (_ & _ & ->), H2 as (_ & _ & ->). reflexivity.
Qed.
Lemma again_ids : wire_ids toy again_calendar.
Proof. intros id z z' HU. apply again_use in HU as (-> & _). split; [discriminate|]. vm_compute. intuition discriminate. Qed.

(** ** What reading accepts and writing does not keep *)
Definition event_text (ls : list (list N)) : list N :=
  flat_map nl ([py "BEGIN:VCALENDAR"; py "PRODID:me"; py "VERSION:2.0"; py "BEGIN:VEVENT"; py "UID:u"; py "DTSTAMP:20200101T000000Z"] ++ ls ++ [py "END:VEVENT"; py "END:VCALENDAR"]).
Definition two_on_a_line : list N := event_text [py "ATTENDEE:mailto:joe,mailto:ann"].
Definition early_date : list N := event_text [py "DTSTART:09990102T030405"].
Definition custom_alarm : list N := event_text [py "BEGIN:VALARM"; py "ACTION:X-FOO"; py "TRIGGER:-PT5M"; py "END:VALARM"].
Definition end_params : list N := event_text [py "DTSTART:20200102T030405"; py "DTEND;X-P=p:20200102T040405"].
Definition write_again (txt : list N) : res (list N) :=
  do c <- read_calendar toy (FromStr txt); calendar_serialize toy true (fun t => [t]) (Some 75%nat) c.
Definition reread (txt : list N) : res calendar := do t <- write_again txt; read_calendar toy (FromStr t).
Definition was_read (txt : list N) : calendar := match read_calendar toy (FromStr txt) with Ok c => c | Err _ => new_comp toy entry CCalendar end.
Definition two_cal : calendar := Eval vm_compute in was_read two_on_a_line.
Definition early_cal : calendar := Eval vm_compute in was_read early_date.
Definition custom_cal : calendar := Eval vm_compute in was_read custom_alarm.
Definition end_cal : calendar := Eval vm_compute in was_read end_params.
Lemma unused (c : calendar) : (forall id z z', ~ calendar_uses toy c id z z') -> zones_stored toy c /\ wire_ids toy c.
Proof.
  intro H. split; [split|].
  - intros id z z' U. now apply H in U.
  - intros id z1 z1' z2 z2' U. now apply H in U.
  - intros id z z' U. now apply H in U.
Qed.
Ltac no_use_here H Hd HU a d := apply dict_get_In in H; each H; subst a; cbn in Hd; repeat (destruct Hd as [Hd|Hd]); try contradiction; subst d;
  first [destruct HU as (HU & _); discriminate HU|(eapply toy_use in HU as (HU & _); [|reflexivity]); discriminate HU].
Ltac in_members H Hm l := apply dict_get_In in H; each H; subst l; repeat (destruct Hm as [<-|Hm]); try contradiction.
Ltac no_use_alarm HU := destruct HU as [(?k & ?a & ?d & ?H & ?Hd & ?HU)|(?k & ?l & ?m & ?H & ?Hm & ?HU)];
  [match goal with H : dict_get _ _ = Some ?a, Hd : In ?d (attr_dts ?a), HU : dt_uses _ ?d _ _ _ |- _ => no_use_here H Hd HU a d end|contradiction].
Ltac no_use_entry HU := destruct HU as [(?k & ?a & ?d & ?H & ?Hd & ?HU)|(?k & ?l & ?m & ?H & ?Hm & ?HU)];
  [match goal with H : dict_get _ _ = Some ?a, Hd : In ?d (attr_dts ?a), HU : dt_uses _ ?d _ _ _ |- _ => no_use_here H Hd HU a d end
  |match goal with H : dict_get _ _ = Some ?l, Hm : In ?m ?l, HU : alarm_uses _ _ _ _ _ |- _ => (in_members H Hm l); no_use_alarm HU end].
Ltac no_use := intros id z z' [(k & a & d & H & Hd & HU)|(k & l & m & H & Hm & HU)];
  [no_use_here H Hd HU a d|(in_members H Hm l); no_use_entry HU].
Lemma two_unused id z z' : ~ calendar_uses toy two_cal id z z'. Proof. revert id z z'. no_use. Qed.
Lemma early_unused id z z' : ~ calendar_uses toy early_cal id z z'. Proof. revert id z z'. no_use. Qed.
Lemma custom_unused id z z' : ~ calendar_uses toy custom_cal id z z'. Proof. revert id z z'. no_use. Qed.
Lemma end_unused id z z' : ~ calendar_uses toy end_cal id z z'. Proof. revert id z z'. no_use. Qed.

Definition id_split (t : list N) : list (list N) := [t].
Lemma id_splitter : splitter id_split.
Proof. intro t. cbn. apply app_nil_r. Qed.
Lemma wide : width_ok (Some 75%nat).
Proof. repeat constructor. Qed.
(** It cannot always be written: two persons on one line. *)
Lemma write_refuted : ~ (forall X hy resplit W txt c, utc_env X -> text_env X -> splitter resplit -> width_ok W ->
  read_calendar X (FromStr txt) = Ok c -> zones_stored X c -> wire_ids X c -> exists txt', calendar_serialize X hy resplit W c = Ok txt').
Proof.
  intro H. destruct (unused _ two_unused) as [Z I].
  destruct (H toy true id_split (Some 75%nat) two_on_a_line two_cal toy_utc toy_text_env id_splitter wide ltac:(vm_compute; reflexivity) Z I) as (t & E).
  assert (F : calendar_serialize toy true id_split (Some 75%nat) two_cal = Err ValueError) by (vm_compute; reflexivity). congruence.
Qed.
(** What is written cannot always be read: an alarm of another kind, or a year before 1000. *)
Lemma reread_refuted txt c : txt = custom_alarm /\ c = custom_cal \/ txt = early_date /\ c = early_cal ->
  read_calendar toy (FromStr txt) = Ok c /\ zones_stored toy c /\ wire_ids toy c /\
  exists t, calendar_serialize toy true id_split (Some 75%nat) c = Ok t /\ read_calendar toy (FromStr t) = Err ValueError.
Proof.
  assert (S : forall c, match calendar_serialize toy true id_split (Some 75%nat) c with Ok t => read_calendar toy (FromStr t) = Err ValueError | Err _ => False end ->
    exists t, calendar_serialize toy true id_split (Some 75%nat) c = Ok t /\ read_calendar toy (FromStr t) = Err ValueError).
  { intros c' H. destruct (calendar_serialize toy true id_split (Some 75%nat) c') as [t|]; [|contradiction]. now exists t. }
  intros [[-> ->]|[-> ->]]; (split; [vm_compute; reflexivity|]); (split; [|split; [|apply S; vm_compute; reflexivity]]);
    first [apply (unused _ custom_unused)|apply (unused _ early_unused)].
Qed.
(** What is read again can differ: the parameters of an end. *)
Lemma params_lost : read_calendar toy (FromStr end_params) = Ok end_cal /\ zones_stored toy end_cal /\ wire_ids toy end_cal /\
  exists t d, calendar_serialize toy true id_split (Some 75%nat) end_cal = Ok t /\ read_calendar toy (FromStr t) = Ok d /\ ~ equal_calendar toy end_cal d.
Proof.
  split; [vm_compute; reflexivity|]. split; [apply (unused _ end_unused)|]. split; [apply (unused _ end_unused)|].
  assert (S : match calendar_serialize toy true id_split (Some 75%nat) end_cal with Ok t => match read_calendar toy (FromStr t) with
    Ok d => exists x, dict_get (py "events") (c_mem d) = Some [x] /\ dict_get (py "END") (c_params x) = None | Err _ => False end | Err _ => False end).
  { vm_compute. eexists. split; reflexivity. }
  destruct (calendar_serialize toy true id_split (Some 75%nat) end_cal) as [t|]; [|contradiction]. destruct (read_calendar toy (FromStr t)) as [d|] eqn:E; [|contradiction].
  exists t, d. split; [reflexivity|]. split; [exact E|]. destruct S as (x & S1 & S2). intro Q. pose proof (eq_mem _ _ _ _ Q (py "events")) as M. rewrite S1 in M.
  assert (Y : exists y, dict_get (py "events") (c_mem end_cal) = Some [y] /\ dict_get (py "END") (c_params y) <> None).
  { eexists. split; [vm_compute; reflexivity|]. vm_compute. discriminate. }
  destruct Y as (y & Y1 & Y2). rewrite Y1 in M. cbn [eq_opt] in M. inversion M as [|? ? ? ? M1 M2 E1 E2]. subst. pose proof (eq_params _ _ _ _ M1 (py "END")) as P. rewrite S2 in P.
  destruct (dict_get (py "END") (c_params y)); [contradiction|congruence].
Qed.
