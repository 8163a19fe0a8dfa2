(** * Worked examples for C75 *)
From Verif Require Import M_Base M_Line M_Codec M_Cal M_Time M_Span M_Dt M_Tree M_Comp.
From Verif Require Import S_Codec S_Dt S_Toy S_Read S_Order S_Write P_Base P_Comp P_Write.
From Coq Require Import Lia.
Open Scope N_scope.

Lemma attrs_real {M} (ok : M -> Prop) (x : comp M) :
  Forall (fun kv => real_attr (snd kv)) (c_attrs x) -> Forall (fun kv => Forall ok (snd kv)) (c_mem x) -> real_comp ok x.
Proof.
  assert (G : forall V (P : V -> Prop) (d : dict V) k v, Forall (fun kv => P (snd kv)) d -> dict_get k d = Some v -> P v).
  { intros V P d k v F. induction F as [|[k' v'] d H _ IH]; [discriminate|]. cbn. destruct (str_eqb k k'); [now intros [= <-]|exact IH]. }
  intros A B. split; intro a.
  - unfold get_attr. destruct (dict_get a (c_attrs x)) as [v|] eqn:D; [|exact I]. now apply (G _ _ _ _ _ A D).
  - unfold get_mem. destruct (dict_get a (c_mem x)) as [v|] eqn:D; [|constructor]. exact (G _ (Forall ok) _ _ _ B D).
Qed.

(** An alarm a quarter of an hour before, and an event of two hours in a named zone. *)
Definition C75_alarm_x : alarm :=
  mk_comp CDisplay [(py "trigger", AOne (VTd (-900000000))); (py "description", AOne (VStr (py "a;b")))] [] (py "VALARM") [] [].
Definition C75_time : datetime := mk_dt (86400000000 * 738000 + 3600000000)%Z false (Some (TzObj 3)).
Definition C75_event (name : list N) (summary : attr) (cats : list xp) : entry :=
  mk_comp CEvent
    [(py "timespan", AOne (VSpan (mk_ts KEvent (Some C75_time) None (Some 7200000000%Z) PSecond)));
     (py "summary", summary); (py "attach", AMany []); (py "attendees", AMany []);
     (py "categories", AMany [VStr (py "x"); VStr (py "y"); VStr (py "z")])]
    [(py "alarms", [C75_alarm_x])] name [ILine (mk_line (py "X-A") [] (py "1"))]
    [(py "CATEGORIES", XMany cats); (py "SUMMARY", XOne [(py "LANGUAGE", [PRaw (py "en")])])].
Definition C75_good : entry :=
  C75_event (py "vevent") (AOne (VStr (py "one, two"))) [[(py "__merge_next", [PRaw (py "TRUE")])]; []; []].
Definition C75_calendar_x (e : entry) : calendar :=
  mk_comp CCalendar [(py "version", AOne (VStr (py "2.0"))); (py "prodid", AOne (VStr (py "p")))] [(py "events", [e])] (py "VCALENDAR") [] [].

Lemma alarm_real : real_alarm C75_alarm_x.
Proof. split; [reflexivity|]. apply attrs_real; repeat constructor; vm_compute; discriminate. Qed.
Lemma event_real n s c : real_attr s -> real_entry (C75_event n s c).
Proof.
  intro H. split; [reflexivity|]. apply attrs_real.
  - apply Forall_cons; [|apply Forall_cons; [exact H|repeat constructor]]. split; [|split].
    + intros b [= <-]. vm_compute. reflexivity.
    + intros b [=].
    + intros d [= <-]. vm_compute. split; discriminate.
  - repeat constructor; cbn [snd]; apply alarm_real.
Qed.
Lemma calendar_real n s c : real_attr s -> real_calendar (C75_calendar_x (C75_event n s c)).
Proof.
  intro H. split; [reflexivity|]. apply attrs_real; [repeat constructor|]. apply Forall_cons; [|constructor]. constructor; [|constructor]. now apply event_real.
Qed.

Definition C75_alarm_items : item := ICont (py "VALARM") [
  line (py "ACTION") (py "DISPLAY"); line (py "TRIGGER") (py "-PT15M"); line (py "DESCRIPTION") (py "a\;b")].
Definition C75_event_items : item := ICont (py "VEVENT") [
  ILine (mk_line (py "DTSTART") [(py "TZID", [PRaw (py "Z3")])] (py "20210730T010000"));
  line (py "DURATION") (py "PT2H");
  ILine (mk_line (py "SUMMARY") [(py "LANGUAGE", [PRaw (py "en")])] (py "one\, two"));
  C75_alarm_items; line (py "CATEGORIES") (py "x,y"); line (py "CATEGORIES") (py "z"); line (py "X-A") (py "1")].
Lemma event_written_example : exists us, real_entry C75_good /\ entry_written toy C75_good (Ok (C75_event_items, us)) /\ collect [] us = [(py "Z3", TzObj 3)].
Proof.
  assert (R : real_entry C75_good) by (now apply event_real). destruct (entry_total toy _ R) as [r W]. pose proof (entry_exact toy _ _ W []) as E.
  assert (D : dump_entry toy C75_good [] = Ok (C75_event_items, [(py "Z3", TzObj 3)])) by (vm_compute; reflexivity).
  rewrite D in E. destruct r as [[it us]|e]; [|discriminate E]. cbn [with_zones] in E. injection E as <- E. exists us. split; [exact R|]. split; [exact W|now symmetry].
Qed.
Lemma calendar_written_example : real_calendar (C75_calendar_x C75_good) /\
  calendar_written toy (C75_calendar_x C75_good) (Ok (ICont (py "VCALENDAR") [line (py "VERSION") (py "2.0"); line (py "PRODID") (py "p");
    ICont (py "VTIMEZONE") [line (py "TZID") (py "Z3")]; C75_event_items])).
Proof.
  assert (R : real_calendar (C75_calendar_x C75_good)) by (now apply calendar_real). split; [exact R|]. destruct (calendar_total toy _ R) as [r W].
  pose proof (calendar_exact toy _ _ W) as E. vm_compute in E. rewrite <- E in W. exact W.
Qed.
(** A list for the summary, categories with different parameters on one line, the last
    one open, and no name. *)
Definition C75_bad : list (entry * exn) := [
  (C75_event (py "VEVENT") (AMany []) [], ValueError);
  (C75_event (py "VEVENT") ANone [[(py "__merge_next", [PRaw (py "TRUE")])]; [(py "LANGUAGE", [PRaw (py "de")])]; []], ValueError);
  (C75_event (py "VEVENT") ANone [[]; []; [(py "__merge_next", [PRaw (py "TRUE")])]], ValueError);
  (C75_event (py "VEVENT") ANone [[]; []], ValueError);
  (C75_event [] ANone [], ValueError)].
Lemma bad_examples : Forall (fun p => real_entry (fst p) /\ entry_written toy (fst p) (Err (snd p))) C75_bad.
Proof.
  assert (G : forall x e, real_entry x -> dump_entry toy x [] = Err e -> real_entry x /\ entry_written toy x (Err e)).
  { intros x e R D. split; [exact R|]. destruct (entry_total toy x R) as [r W]. pose proof (entry_exact toy _ _ W []) as E. rewrite D in E.
    destruct r as [[it us]|e']; [discriminate E|]. injection E as <-. exact W. }
  repeat (apply Forall_cons; [cbn [fst snd]; apply G; [apply event_real; repeat constructor|vm_compute; reflexivity]|]). constructor.
Qed.
(** A custom alarm without action cannot be written. *)
Definition C75_custom : alarm := mk_comp CCustom [] [] (py "VALARM") [] [].
Theorem writable_refuted : ~ (forall X (x : alarm), real_alarm x -> c_name x <> [] -> c_params x = [] -> exists it us, alarm_written X x (Ok (it, us))).
Proof.
  intro H. destruct (H toy C75_custom) as (it & us & W); [|easy|easy|].
  - split; [reflexivity|]. apply attrs_real; constructor.
  - apply alarm_exact with (zs := []) in W. vm_compute in W. discriminate.
Qed.
