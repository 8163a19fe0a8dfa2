(** * Example: a calendar whose zones are written as definitions *)
From Verif Require Import M_Base M_Text M_Line M_Codec M_Cal M_Time M_Span M_Dt M_Tree M_Comp M_Rrule M_Zone M_Vtz M_Fold M_Open M_Serial.
From Verif Require Import S_Text S_Codec S_Line S_Fold S_Dt S_Tree S_Comp S_Store S_Ref S_Wire S_Vtz S_Toy.
From Verif Require Import P_Base P_Text P_Codec P_Dt P_Comp P_Field P_Wire P_StoreEx P_Calendar P_CalendarEx P_Rrule P_Vtz P_Vtz2 P_VtzEx.
From Coq Require Import Lia.
Open Scope N_scope.

Lemma vx_toy_utc : utc_env vx_toy.
Proof.
  split; try reflexivity. intros z w f H. destruct z as [[|n]|n|]; try discriminate; reflexivity.
Qed.
Lemma vx_ex_alarm_storable : storable_alarm vx_toy ex_alarm.
Proof.
  split; [vm_compute; tauto|]. split; [split|].
  - reflexivity.
  - intros a s H. each H; injection H as <- <-.
    + some_attr Duration (VTd (- 600 * US_SEC)%Z); [|exact I]. constructor. split; [split; vm_compute; discriminate|reflexivity].
    + some_attr Int (VInt 3); [constructor|exact I].
    + no_attr.
    + some_attr Text (VStr (py "Soon; soon")); [constructor|exact I].
  - attrs_ok.
  - mems_ok.
  - intros a l [].
  - pars_ok.
  - repeat constructor. vm_compute. intuition discriminate.
  - vm_compute. split; [discriminate|easy].
Qed.
Lemma vx_ex_at_storable h z : (0 <= h <= 23)%Z -> storable_dt vx_toy (ex_at h z).
Proof.
  intro H. assert (HH : (h = 0 \/ h = 1 \/ h = 2 \/ h = 3 \/ h = 4 \/ h = 5 \/ h = 6 \/ h = 7 \/ h = 8 \/ h = 9 \/ h = 10 \/ h = 11 \/ h = 12 \/ h = 13 \/
    h = 14 \/ h = 15 \/ h = 16 \/ h = 17 \/ h = 18 \/ h = 19 \/ h = 20 \/ h = 21 \/ h = 22 \/ h = 23)%Z) by lia.
  split; [reflexivity|]. split; [|split; [|split]].
  - repeat (destruct HH as [-> |HH]; [vm_compute; reflexivity|]). subst. vm_compute. reflexivity.
  - repeat (destruct HH as [-> |HH]; [vm_compute; reflexivity|]). subst. vm_compute. reflexivity.
  - repeat (destruct HH as [-> |HH]; [vm_compute; discriminate|]). subst. vm_compute. discriminate.
  - cbn [ex_at dtz]. destruct z as [z|]; [|exact I]. destruct (z_is_utc (x_zdb vx_toy) z) eqn:E; [now left|right].
    exists (toy_id z), z. split; [|destruct z; discriminate]. split; [reflexivity|]. split; [exact E|reflexivity].
Qed.
Lemma vx_ex_event_storable : storable_entry vx_toy ex_event.
Proof.
  split.
  - reflexivity.
  - intros a s H. each H; injection H as <- <-.
    + exists (mk_ts KEvent (Some (ex_at 9 (Some (TzObj 1)))) (Some (ex_at 10 (Some (TzObj 1)))) None PSecond).
      split; [reflexivity|]. split; [reflexivity|]. split.
      { split; [vm_compute; reflexivity|]. cbn [ts_begin ts_end ts_dur ts_prec]. split; [|split; [|split; [easy|now right]]];
          intros ? [= <-]; apply vx_ex_at_storable; lia. }
      cbn [ts_begin ts_end ts_dur]. split; [par_ok|]. repeat (split; [easy|]). easy.
    + some_attr Text (VStr (py "Meeting")); [constructor|exact I|par_ok].
    + some_attr Text (VStr (py "u1")); [constructor|exact I].
    + no_attr.
    + no_attr.
    + some_attr Uri (VUrl [py "http://a/"]); [constructor; reflexivity|exact I].
    + some_attr Text (VStr (py "CONFIRMED")); [constructor|cbn; tauto].
    + some_attr Datetime (VDt (ex_at 8 (Some (TzObj 0)))); [constructor; apply vx_ex_at_storable; lia|eexists; reflexivity].
    + no_attr.
    + some_attr Datetime (VDt (ex_at 8 (Some (TzObj 0)))); [constructor; apply vx_ex_at_storable; lia|eexists; reflexivity].
    + discriminate.
    + exists []. split; [constructor|]. split; [reflexivity|]. now left.
    + no_attr.
    + some_attr Bool (VBool true); [constructor|exact I].
    + some_attr Organizer (VPerson ROrganizer (EUrl [py "mailto:a@b"]) [(py "CN", [PRaw (py "A")])]); [|exact I].
      constructor; [reflexivity|repeat constructor; easy|vm_compute; intuition discriminate].
    + some_attr Geo (VGeo 1 2); [|exact I]. constructor; [reflexivity|reflexivity|vm_compute; intuition discriminate].
    + exists []. split; [constructor|]. split; [reflexivity|]. now left.
    + exists [ex_line]. split; [|split; [reflexivity|now left]]. constructor; [|constructor]. cbn [storable_line ex_line].
      split; [now left|]. split; [discriminate|]. split; [intros v [<-|[<-|[]]]; (split; [constructor|exact I])|].
      split; [repeat constructor; easy|]. split; [vm_compute; intuition discriminate|]. split; [vm_compute; intuition discriminate|]. intros [E|E]; discriminate.
  - attrs_ok.
  - mems_ok.
  - intros a l m H Hm. cbn [ex_event c_mem dict_get] in H. destruct (str_eqb a (py "alarms")); [|discriminate]. injection H as <-.
    destruct Hm as [<-|[]]. exact vx_ex_alarm_storable.
  - pars_ok.
  - repeat constructor; vm_compute; intuition discriminate.
Qed.
Lemma vx_ex_todo_storable : storable_entry vx_toy ex_todo.
Proof.
  split.
  - reflexivity.
  - intros a s H. each H; injection H as <- <-.
    + exists (mk_ts KTodo (Some (ex_at 0 None)) (Some (mk_dt (mk_wall 2020 1 3 0 0 0 0) false None)) None PDay).
      split; [reflexivity|]. split; [reflexivity|]. split.
      { split; [vm_compute; reflexivity|]. cbn [ts_begin ts_end ts_dur ts_prec]. split; [|split; [|split; [easy|now left]]].
        - intros ? [= <-]. apply vx_ex_at_storable. lia.
        - intros ? [= <-]. apply ex_day_storable. }
      cbn [ts_begin ts_end ts_dur]. split; [exact I|]. split; [easy|]. split; [exact I|]. split; [easy|]. split; [par_ok|easy].
    + no_attr.
    + some_attr Text (VStr (py "u2")); [constructor|exact I].
    + no_attr. + no_attr. + no_attr. + no_attr. + no_attr. + no_attr.
    + some_attr Datetime (VDt (ex_at 8 (Some (TzObj 0)))); [constructor; apply vx_ex_at_storable; lia|eexists; reflexivity].
    + discriminate.
    + exists []. split; [constructor|]. split; [reflexivity|]. now left.
    + some_attr Int (VInt 50); [constructor|]. exists 50%Z. split; [easy|lia].
    + no_attr.
    + some_attr Datetime (VDt (ex_at 9 None)); [constructor; apply vx_ex_at_storable; lia|exact I].
  - attrs_ok.
  - mems_ok.
  - intros a l m H Hm. cbn [ex_todo c_mem dict_get] in H. destruct (str_eqb a (py "alarms")); [|discriminate]. injection H as <-. easy.
  - pars_ok.
  - constructor.
Qed.
Lemma vx_ex_alarm_zones id z z' : ~ alarm_uses vx_toy ex_alarm id z z'.
Proof.
  intros [(k & a & d & H & Hd & HU)|(k & l & m & H & _)]; [|discriminate]. apply dict_get_In in H. each H; subst a; cbn in Hd; contradiction.
Qed.
Lemma vx_toy_use d id n z z' : dtz d = Some (TzObj n) -> dt_uses vx_toy d id z z' -> z_is_utc (x_zdb vx_toy) (TzObj n) = false /\ id = 90 :: dec n /\ z = TzObj n /\ z' = TzObj n.
Proof.
  intros HD (H1 & H2 & H3). rewrite HD in H1. injection H1 as <-. change (Ok (Some (90 :: dec n, TzObj n)) = Ok (Some (id, z'))) in H3. injection H3 as <- <-. auto.
Qed.
Lemma vx_ex_event_use id z z' : entry_uses vx_toy ex_event id z z' -> id = 90 :: dec 1 /\ z = TzObj 1 /\ z' = TzObj 1.
Proof.
  intros [(k & a & d & H & Hd & HU)|(k & l & m & H & Hm & HU)].
  - apply dict_get_In in H. each H; subst a; cbn in Hd; repeat (destruct Hd as [Hd|Hd]); try contradiction; subst d;
      (eapply vx_toy_use in HU as (HF & HU); [|reflexivity]); first [exact HU|discriminate HF].
  - apply dict_get_In in H. each H; subst l. destruct Hm as [<-|[]]. now apply vx_ex_alarm_zones in HU.
Qed.
Lemma vx_ex_todo_use id z z' : ~ entry_uses vx_toy ex_todo id z z'.
Proof.
  intros [(k & a & d & H & Hd & HU)|(k & l & m & H & Hm & HU)].
  - apply dict_get_In in H. each H; subst a; cbn in Hd; repeat (destruct Hd as [Hd|Hd]); try contradiction; subst d;
      first [destruct HU as (HU & _); discriminate HU|(eapply vx_toy_use in HU as (HF & _); [|reflexivity]); discriminate HF].
  - apply dict_get_In in H. each H; subst l. destruct Hm.
Qed.
Lemma vx_ex_calendar_use id z z' : calendar_uses vx_toy ex_calendar id z z' -> id = 90 :: dec 1 /\ z = TzObj 1 /\ z' = TzObj 1.
Proof.
  intros [(k & a & d & H & Hd & HU)|(k & l & m & H & Hm & HU)].
  - apply dict_get_In in H. each H; subst a; cbn in Hd; contradiction.
  - apply dict_get_In in H. each H; subst l; destruct Hm as [<-|[]]; [now apply vx_ex_event_use|now apply vx_ex_todo_use in HU].
Qed.
Lemma vx_ex_calendar_storable : storable_calendar vx_toy ex_calendar.
Proof.
  split; [reflexivity|]. split.
  - reflexivity.
  - intros a s H. each H; injection H as <- <-.
    + some_attr Text (VStr (py "2.0")); [constructor|exact I|par_ok].
    + some_attr Text (VStr (py "me")); [constructor|exact I].
    + no_attr.
    + no_attr.
    + discriminate.
    + discriminate.
  - attrs_ok.
  - mems_ok.
  - intros a l m H Hm. cbn [ex_calendar c_mem dict_get] in H. destruct (str_eqb a (py "events")) eqn:E; [|destruct (str_eqb a (py "todos")) eqn:E2; [|discriminate]]; injection H as <-;
      destruct Hm as [<-|[]]; (split; [|reflexivity]); [exact vx_ex_event_storable|exact vx_ex_todo_storable].
  - pars_ok.
  - repeat constructor. vm_compute. intuition discriminate.
Qed.
Lemma vx_ex_alarm_wire : wire vx_toy (fun _ => True) ex_alarm.
Proof.
  split.
  - reflexivity.
  - discriminate.
  - wattrs.
  - intros k l m H. discriminate.
  - intros k p H. apply dict_get_In in H. each H; subst. wpar.
  - constructor; [line_ok|constructor].
Qed.
Lemma vx_ex_event_wire : wire vx_toy (wire_alarm vx_toy) ex_event.
Proof.
  split.
  - reflexivity.
  - discriminate.
  - wattrs; try (split; [nob|wpar]); try nob; try (split; nob). repeat constructor.
  - intros k l m H Hm. apply dict_get_In in H. each H; subst l. destruct Hm as [<-|[]]. exact vx_ex_alarm_wire.
  - intros k p H. apply dict_get_In in H. each H; subst; cbn; try wpar. repeat (constructor; [wpar|]). constructor.
  - constructor; [line_ok|]. constructor; [|constructor]. cbn. split; [discriminate|]. split; [reflexivity|]. split; [nob|exact I].
Qed.
Lemma vx_ex_todo_wire : wire vx_toy (wire_alarm vx_toy) ex_todo.
Proof.
  split.
  - reflexivity.
  - discriminate.
  - wattrs.
  - intros k l m H Hm. apply dict_get_In in H. each H; subst l. destruct Hm.
  - intros k p H. apply dict_get_In in H. each H; subst; cbn; wpar.
  - constructor.
Qed.
Lemma vx_ex_calendar_wire : wire_calendar vx_toy ex_calendar.
Proof.
  split; [split|].
  - reflexivity.
  - discriminate.
  - wattrs.
  - intros k l m H Hm. apply dict_get_In in H. each H; subst l; destruct Hm as [<-|[]]; [exact vx_ex_event_wire|exact vx_ex_todo_wire].
  - intros k p H. apply dict_get_In in H. each H; subst; cbn; wpar.
  - constructor; [line_ok|constructor].
  - intros id z z' HU. apply vx_ex_calendar_use in HU as (-> & _). exact ex_wire_id.
Qed.

(** ** Calendars with zone definitions *)
Lemma calendar_zones X hy resplit W c rule_parse date_parse zone_of tz_of : utc_env X -> reads_dates date_parse -> splitter resplit -> width_ok W ->
  storable_calendar X c -> wire_calendar X c -> distinct_zones X c -> defined_by X rule_parse date_parse zone_of tz_of ->
  (forall id z z', calendar_uses X c id z z' -> storable_zone X rule_parse (zone_of z') /\ wire_zone X (zone_of z') /\
     t_id (zone_of z') = id /\ forall t, zone_back (zone_of z') t -> tz_of t = z) ->
  exists txt d, calendar_serialize X hy resplit W c = Ok txt /\ read_calendar X (FromStr txt) = Ok d /\ back_calendar X c d.
Proof.
  intros UE RD HS HW H1 H2 H3 H4 H5. apply (calendar_text X UE hy resplit W HS HW c H1); [|exact H2]. split; [|exact H3].
  intros id z z' U. destruct (H5 id z z' U) as (A & B & C & D). eapply zone_contract; eauto.
Qed.
Lemma vx_defined : defined_by vx_toy vx_rule vx_date vx_fixed vx_tz.
Proof. split; reflexivity. Qed.
Lemma vx_set_ok : storable_rules vx_rule (mk_set [] [] [vx_extra] []).
Proof.
  constructor; [|repeat constructor; vm_compute; intuition discriminate|constructor|discriminate].
  exists None. now split.
Qed.
Lemma vx_uses id z z' : calendar_uses vx_toy ex_calendar id z z' -> storable_zone vx_toy vx_rule (vx_fixed z') /\ wire_zone vx_toy (vx_fixed z') /\
     t_id (vx_fixed z') = id /\ forall t, zone_back (vx_fixed z') t -> vx_tz t = z.
Proof.
  intro U. apply vx_ex_calendar_use in U as (-> & -> & ->). split; [|split; [|split; [reflexivity|]]].
  - constructor; try easy; [|constructor]. constructor; [|constructor].
    constructor; [split; reflexivity|split; reflexivity|exact vx_set_ok|intros k p H; discriminate H|constructor].
  - constructor; try easy; [|constructor]. constructor; [|constructor]. constructor; [intros r []|intros k p H; discriminate H|constructor].
  - intros t B. unfold vx_tz. rewrite (bz_id _ _ B). reflexivity.
Qed.
Lemma vx_distinct : distinct_zones vx_toy ex_calendar.
Proof. intros id z1 z1' z2 z2' H1 H2. apply vx_ex_calendar_use in H1 as (_ & _ & ->), H2 as (_ & _ & ->). reflexivity. Qed.
