(** * C33, C44, C45: time spans, alarms, events and todos survive writing and reading

    The lines that are read may be any that are equal to the written ones (equal names,
    values and parameters, quoting aside), as they are after passing through text (C10). *)
From Verif Require Import M_Base M_Text M_Line M_Codec M_Cal M_Time M_Span M_Dt M_Tree M_Comp.
From Verif Require Import S_Tree S_Comp S_Store S_Toy P_Rt P_Field P_Store P_Back P_StoreEx.
Open Scope N_scope.

(** C33. The lines of a time span give an equal span back (same begin, same end or
    duration, same precision), the parameters on the lines are kept under the keys they had,
    and the zones recorded for the calendar are those of the span's values. *)
Theorem C33_span : forall X M load_m dump_m (x : comp M) c k, utc_env X ->
  c = CEvent /\ k = KEvent \/ c = CTodo /\ k = KTodo ->
  storable_field X x (py "timespan") (Span k) ->
  no_par x (py "DTEND") -> no_par x (py "END") -> (k <> KTodo -> no_par x (py "DUE")) ->
  exists t its, dict_get (py "timespan") (c_attrs x) = Some (AOne (VSpan t)) /\
    (forall zs, exists zs', serialize_conv X M dump_m (span_field k) x zs = Ok (its, zs') /\
      wrote (fun id z z' => exists d, In d (val_dts (VSpan t)) /\ dt_uses X d id z z') zs zs') /\
    forall its' zs, Forall2 item_eq its its' ->
      (forall id z z' d, In d (val_dts (VSpan t)) -> dt_uses X d id z z' -> resolves X zs id z) ->
      exists st st' t', populate_all X M load_m (span_field k) its' (mk_lst (new_comp X M c) [] sc0 zs) = Ok st /\
        post_conv X M (span_field k) st = Ok st' /\
        dict_get (py "timespan") (c_attrs (l_comp st')) = Some (AOne (VSpan t')) /\ eq_span X t t' /\
        forall key, In key [py "BEGIN"; py "END"; py "DUE"; py "DURATION"] ->
          eq_opt eq_par (dict_get key (c_params x)) (dict_get key (c_params (l_comp st'))).
Proof.
  intros X M load_m dump_m x c k UE HC HF N1 N2 N3.
  destruct (span_back X UE load_m dump_m x c k HC HF N1 N2 N3) as (t & its & H1 & H2 & H3).
  exists t, its. split; [exact H1|]. split; [exact H2|]. intros its' zs HE HR. apply H3; [exact HE|].
  intros id z z' (d & Hd & HU). exact (HR id z z' d Hd HU).
Qed.
Print Assumptions C33_span.
Example C33_example : utc_env toy /\ storable_field toy ex_event (py "timespan") (Span KEvent) /\
  no_par ex_event (py "DTEND") /\ no_par ex_event (py "END") /\ no_par ex_event (py "DUE") /\
  rmap (fun r => length (fst r)) (serialize_conv toy alarm (dump_alarm toy) (span_field KEvent) ex_event []) = Ok 2%nat.
Proof.
  split; [exact toy_utc|]. split; [apply (st_fields _ _ _ ex_event_storable); now left|].
  split; [reflexivity|]. split; [reflexivity|]. split; [reflexivity|]. vm_compute. reflexivity.
Qed.

(** C33, findings. Parameters of an event's DTEND line are stored under END but written from
    DTEND: reading and writing loses them. *)
Definition C33_dtend : list item :=
  [line (py "DTSTART") (py "20200101T090000"); ILine (mk_line (py "DTEND") [(py "X-P", [PRaw (py "p")])] (py "20200101T100000"))].
Theorem C33_dtend_params_refuted : exists x its,
  event_from_container toy (py "VEVENT") C33_dtend = Ok x /\ M_Comp.to_container toy x = Ok (ICont (py "VEVENT") its) /\
  In (ILine (mk_line (py "DTEND") [] (py "20200101T100000"))) its /\
  dict_get (py "END") (c_params x) = Some (XOne [(py "X-P", [PRaw (py "p")])]).
Proof. eexists. eexists. split; [vm_compute; reflexivity|]. split; [vm_compute; reflexivity|]. split; [vm_compute; tauto|vm_compute; reflexivity]. Qed.
Print Assumptions C33_dtend_params_refuted.
(** A new event without times has precision "second" but is read back with precision None. *)
Theorem C33_no_begin_refuted : exists its x t,
  M_Comp.to_container toy (new_comp toy alarm CEvent) = Ok (ICont (py "VEVENT") its) /\
  event_from_container toy (py "VEVENT") its = Ok x /\
  get_attr (py "timespan") x = AOne (VSpan t) /\ ts_prec t = PNone /\
  get_attr (py "timespan") (new_comp toy alarm CEvent) = AOne (VSpan (mk_ts KEvent None None None PSecond)).
Proof. eexists. eexists. eexists. split; [vm_compute; reflexivity|]. split; [vm_compute; reflexivity|]. split; [vm_compute; reflexivity|]. split; vm_compute; reflexivity. Qed.
Print Assumptions C33_no_begin_refuted.
(** Precisions other than "day" and "second" are not written. *)
Definition C33_other : entry :=
  set_attrs (dict_set (py "timespan") (AOne (VSpan (mk_ts KEvent (Some (ex_at 9 None)) None None (POther 1))))
    (c_attrs (new_comp toy alarm CEvent))) (new_comp toy alarm CEvent).
Theorem C33_precision_refuted : exists its x t,
  validate toy_env (mk_ts KEvent (Some (ex_at 9 None)) None None (POther 1)) = Ok tt /\
  M_Comp.to_container toy C33_other = Ok (ICont (py "VEVENT") its) /\
  event_from_container toy (py "VEVENT") its = Ok x /\ get_attr (py "timespan") x = AOne (VSpan t) /\ ts_prec t = PSecond.
Proof. eexists. eexists. eexists. split; [vm_compute; reflexivity|]. split; [vm_compute; reflexivity|]. split; [vm_compute; reflexivity|]. split; vm_compute; reflexivity. Qed.
Print Assumptions C33_precision_refuted.

(** C44. Alarms of the four standard kinds are read back with the same kind and action, and
    everything else they had. *)
Theorem C44_alarm : forall X m, utc_env X -> storable_alarm X m -> exists its,
  (forall zs, exists zs', dump_alarm X m zs = Ok (ICont (py "VALARM") its, zs') /\ wrote (alarm_uses X m) zs zs') /\
  forall its' zs, Forall2 item_eq its its' -> (forall id z z', alarm_uses X m id z z' -> resolves X zs id z) ->
    exists y zs', load_alarm X (py "VALARM") its' zs = Ok (y, zs') /\
      c_cls y = c_cls m /\ action y = action m /\ back_alarm X m y.
Proof.
  intros X m UE HS. destruct (alarm_rt X UE m HS) as (its & W & R). exists its. split; [exact W|].
  intros its' zs HE HR. destruct (R its' zs HE HR) as (y & zs' & L & B & _). exists y, zs'. split; [exact L|].
  assert (E : c_cls y = c_cls m) by (symmetry; exact (eq_cls _ _ _ _ B)). split; [exact E|]. split; [|exact B].
  apply action_same; [apply HS|exact E].
Qed.
Print Assumptions C44_alarm.
Example C44_example : storable_alarm toy ex_alarm /\
  (exists its y, rmap fst (dump_alarm toy ex_alarm []) = Ok (ICont (py "VALARM") its) /\
    rmap fst (load_alarm toy (py "VALARM") its []) = Ok y /\ y = ex_alarm).
Proof.
  split; [exact ex_alarm_storable|]. eexists. eexists. split; [vm_compute; reflexivity|]. split; [vm_compute; reflexivity|]. vm_compute. reflexivity.
Qed.
(** C44, finding: no custom alarm that can be written can be read: its ACTION is written
    twice, and two ACTION lines are an error when reading. *)
Theorem C44_custom_refuted : forall X m zs n its zs', c_cls m = CCustom ->
  dump_alarm X m zs = Ok (ICont n its, zs') ->
  forall its' zs2, Forall2 item_eq its its' -> load_alarm X n its' zs2 = Err ValueError.
Proof. exact custom_twice. Qed.
Print Assumptions C44_custom_refuted.
Definition C44_custom : alarm :=
  mk_comp CCustom [(py "trigger", ANone); (py "repeat", ANone); (py "duration", ANone); (py "_action", AOne (VStr (py "X-BEEP")))] [] (py "VALARM") [] [].
Example C44_custom_example : c_cls C44_custom = CCustom /\ rmap fst (dump_alarm toy C44_custom []) =
  Ok (ICont (py "VALARM") [line (py "ACTION") (py "X-BEEP"); line (py "ACTION") (py "X-BEEP")]).
Proof. split; vm_compute; reflexivity. Qed.

(** C45. An event with storable values is read back equal, up to the notes that reading
    adds to list attributes (which value shares a line with the next). *)
Theorem C45_event : forall X x, utc_env X -> c_cls x = CEvent -> storable_entry X x ->
  (forall id z z', entry_uses X x id z z' -> resolves X [] id z) ->
  exists its, M_Comp.to_container X x = Ok (ICont (py "VEVENT") its) /\
    forall its', Forall2 item_eq its its' ->
      exists y, event_from_container X (py "VEVENT") its' = Ok y /\ back_entry X x y.
Proof. exact event_back. Qed.
Print Assumptions C45_event.
(** The same for todos. *)
Theorem C45_todo : forall X x, utc_env X -> c_cls x = CTodo -> storable_entry X x ->
  (forall id z z', entry_uses X x id z z' -> resolves X [] id z) ->
  exists its, M_Comp.to_container X x = Ok (ICont (py "VTODO") its) /\
    forall its', Forall2 item_eq its its' ->
      exists y, todo_from_container X (py "VTODO") its' = Ok y /\ back_entry X x y.
Proof. exact todo_back. Qed.
Print Assumptions C45_todo.
(** If all list attributes have their notes, as they have in components that were read, the
    result is equal without exception. *)
Theorem C45_exact : forall X x y, annotated x ->
  (forall k l m, dict_get k (c_mem x) = Some l -> In m l -> annotated m) ->
  back_entry X x y -> eq_comp X (eq_comp X (fun _ _ => True)) x y.
Proof. exact back_exact. Qed.
Print Assumptions C45_exact.
Example C45_example : c_cls ex_event = CEvent /\ storable_entry toy ex_event /\ annotated ex_event /\
  (exists its y, M_Comp.to_container toy ex_event = Ok (ICont (py "VEVENT") its) /\ length its = 15%nat /\
    event_from_container toy (py "VEVENT") its = Ok y /\ get_attr (py "categories") y = get_attr (py "categories") ex_event).
Proof.
  split; [reflexivity|]. split; [exact ex_event_storable|]. split; [exact ex_event_annotated|].
  eexists. eexists. split; [vm_compute; reflexivity|]. split; [vm_compute; reflexivity|]. split; [vm_compute; reflexivity|]. vm_compute. reflexivity.
Qed.
Example C45_example_zones : forall id z z', entry_uses toy ex_event id z z' -> resolves toy [] id z.
Proof. exact ex_event_zones. Qed.
Example C45_example_todo : c_cls ex_todo = CTodo /\ storable_entry toy ex_todo /\
  forall id z z', entry_uses toy ex_todo id z z' -> resolves toy [] id z.
Proof. split; [reflexivity|]. split; [exact ex_todo_storable|]. exact ex_todo_zones. Qed.

(** C45, findings. A new event with two categories is read back with notes in
    [extra_params], so the two are not equal. *)
Definition with_attr (k : list N) (v : attr) (x : entry) : entry := set_attrs (dict_set k v (c_attrs x)) x.
Definition C45_base : entry :=
  with_attr (py "timespan") (AOne (VSpan (mk_ts KEvent (Some (ex_at 9 None)) None None PSecond))) (new_comp toy alarm CEvent).
Definition C45_again (x : entry) : res entry :=
  match M_Comp.to_container toy x with Ok (ICont n its) => event_from_container toy n its | Ok _ => Err TypeError | Err e => Err e end.
Theorem C45_notes_refuted : exists x y, x = with_attr (py "categories") (AMany [VStr (py "a"); VStr (py "b")]) C45_base /\
  C45_again x = Ok y /\ c_params x = [] /\ dict_get (py "CATEGORIES") (c_params y) = Some (XMany [[(py "__merge_next", [PRaw (py "FALSE")])]; [(py "__merge_next", [PRaw (py "FALSE")])]]).
Proof. eexists. eexists. split; [reflexivity|]. split; [vm_compute; reflexivity|]. split; vm_compute; reflexivity. Qed.
Print Assumptions C45_notes_refuted.
(** An attachment whose URL contains a comma becomes two attachments. *)
Theorem C45_comma_refuted : exists y,
  C45_again (with_attr (py "attach") (AMany [VUrl [py "http://a/b,c"]]) C45_base) = Ok y /\
  get_attr (py "attach") y = AMany [VUrl [py "http://a/b"]; VUrl [py "c"]].
Proof. eexists. split; vm_compute; reflexivity. Qed.
Print Assumptions C45_comma_refuted.
(** An event without UID is given one. *)
Theorem C45_uid_refuted : exists y, C45_again (with_attr (py "uid") ANone C45_base) = Ok y /\ get_attr (py "uid") y = AOne (VStr (x_uid toy)).
Proof. eexists. split; vm_compute; reflexivity. Qed.
Print Assumptions C45_uid_refuted.
(** A status in lower case cannot occur (the setter converts it), so it is no exception. A
    fold mark on a zoned time is lost. *)
Theorem C45_fold_refuted : exists y t,
  C45_again (with_attr (py "timespan") (AOne (VSpan (mk_ts KEvent (Some (mk_dt (wall (ex_at 9 None)) true (Some (TzObj 1)))) None None PSecond))) C45_base) = Ok y /\
  get_attr (py "timespan") y = AOne (VSpan t) /\ ts_begin t = Some (ex_at 9 (Some (TzObj 1))).
Proof. eexists. eexists. split; [vm_compute; reflexivity|]. split; vm_compute; reflexivity. Qed.
Print Assumptions C45_fold_refuted.
