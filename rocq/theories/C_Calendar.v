(** * C45, C46: events, todos and calendars survive writing to text and reading the text *)
From Verif Require Import M_Base M_Text M_Line M_Codec M_Cal M_Time M_Span M_Dt M_Fold M_Tree M_Comp M_Open M_Serial.
From Verif Require Import S_Fold S_Tree S_Comp S_Store S_Ref S_Wire S_Toy P_Back P_StoreEx P_Calendar P_CalendarEx C_Ref.
Open Scope N_scope.

(** C46. Reading the text of a calendar gives the calendar back, for every width and every
    choice of word boundaries, up to the notes that reading adds to list attributes. *)
Theorem C46_calendar : forall X hy resplit W c, utc_env X -> splitter resplit -> width_ok W ->
  storable_calendar X c -> zones_stored X c -> wire_calendar X c ->
  exists txt d, calendar_serialize X hy resplit W c = Ok txt /\ read_calendar X (FromStr txt) = Ok d /\ back_calendar X c d.
Proof. intros X hy resplit W c H1 H2 H3. exact (calendar_text X H1 hy resplit W H2 H3 c). Qed.
Print Assumptions C46_calendar.
(** With notes already there, as in calendars that were read, the result is equal. *)
Theorem C46_exact : forall X c d,
  (forall k l m, dict_get k (c_mem c) = Some l -> In m l -> annotated m /\
    forall k' l' n, dict_get k' (c_mem m) = Some l' -> In n l' -> annotated n) ->
  annotated c -> back_calendar X c d -> eq_comp X (eq_comp X (eq_comp X (fun _ _ => True))) c d.
Proof. exact calendar_exact. Qed.
Print Assumptions C46_exact.
(** The same at the level of containers. *)
Theorem C46_container : forall X c, utc_env X -> storable_calendar X c -> zones_stored X c ->
  exists it, dump_calendar X c = Ok it /\
    forall it', item_eq it it' -> exists its' d, it' = ICont (py "VCALENDAR") its' /\
      load_calendar X (py "VCALENDAR") its' = Ok d /\ back_calendar X c d.
Proof. intros X c H. exact (calendar_rt X H c). Qed.
Print Assumptions C46_container.
(** Several calendars, each followed by a line break, are read back together. *)
Theorem C46_several : forall X hy resplit W cs, utc_env X -> splitter resplit -> width_ok W ->
  Forall (fun c => storable_calendar X c /\ zones_stored X c /\ wire_calendar X c) cs ->
  exists txts ds, Forall2 (fun c t => calendar_serialize X hy resplit W c = Ok t) cs txts /\
    read_calendars X (flat_map (fun t => t ++ [13; 10]) txts) = Ok ds /\ Forall2 (back_calendar X) cs ds.
Proof. intros X hy resplit W cs H1 H2 H3. exact (calendars_text X H1 hy resplit W H2 H3 cs). Qed.
Print Assumptions C46_several.
(** Iterating over a calendar gives the lines of its text, in order and complete. *)
Theorem C46_iter : forall X hy resplit W c ls, calendar_iter X hy resplit W c = Ok ls ->
  exists txt, calendar_serialize X hy resplit W c = Ok txt /\ concat ls = txt /\ Pieces txt ls.
Proof. exact iter_text. Qed.
Print Assumptions C46_iter.
Theorem C46_iter_fails : forall X hy resplit W c e,
  calendar_iter X hy resplit W c = Err e <-> calendar_serialize X hy resplit W c = Err e.
Proof. exact iter_fails. Qed.
Print Assumptions C46_iter_fails.
Example C46_example : utc_env toy /\ splitter (fun t => [t]) /\ width_ok (Some 75%nat) /\
  storable_calendar toy ex_calendar /\ zones_stored toy ex_calendar /\ wire_calendar toy ex_calendar /\
  exists ls d, calendar_iter toy true (fun t => [t]) (Some 75%nat) ex_calendar = Ok ls /\ length ls = 40%nat /\
    read_calendar toy (FromStr (concat ls)) = Ok d /\ map c_cls (get_mem (py "events") d) = [CEvent].
Proof.
  split; [exact toy_utc|]. split; [intro t; cbn; apply app_nil_r|]. split; [repeat constructor|]. split; [exact ex_calendar_storable|].
  split; [exact ex_zones_stored|]. split; [exact ex_calendar_wire|]. eexists. eexists. split; [vm_compute; reflexivity|].
  split; [vm_compute; reflexivity|]. split; vm_compute; reflexivity.
Qed.
Example C46_example_exact : (forall k l m, dict_get k (c_mem ex_calendar) = Some l -> In m l -> annotated m /\
    forall k' l' n, dict_get k' (c_mem m) = Some l' -> In n l' -> annotated n) /\ annotated ex_calendar.
Proof. exact ex_calendar_annotated. Qed.

(** C45 for text. *)
Theorem C45_text : forall X hy resplit W x, utc_env X -> splitter resplit -> width_ok W ->
  c_cls x = CEvent \/ c_cls x = CTodo -> storable_entry X x -> wire_entry X x ->
  (forall id z z', entry_uses X x id z z' -> resolves X [] id z) ->
  exists txt its' y, entry_serialize X hy resplit W x = Ok txt /\
    string_to_containers txt = ([ICont (NAME (c_cls x)) its'], None) /\
    rmap fst (load_entry X (c_cls x) (NAME (c_cls x)) its' []) = Ok y /\ back_entry X x y.
Proof. intros X hy resplit W x H1 H2 H3. exact (entry_text X H1 hy resplit W H2 H3 x). Qed.
Print Assumptions C45_text.
Example C45_text_example : storable_entry toy ex_event /\ wire_entry toy ex_event.
Proof. split; [exact ex_event_storable|exact ex_event_wire_entry]. Qed.

(** C46, findings. If two zones have the same identifier, values of the second are read
    back with the first. *)
Theorem C46_clash_refuted : exists txt d e t, calendar_serialize clash true (fun t => [t]) (Some 75%nat) C43_two = Ok txt /\
  read_calendar clash (FromStr txt) = Ok d /\ nth_error (get_mem (py "events") d) 1 = Some e /\
  get_attr (py "timespan") e = AOne (VSpan t) /\ ts_begin t = Some (ex_at 9 (Some (TzObj 1))) /\
  get_attr (py "timespan") (C43_event 2) = AOne (VSpan (mk_ts KEvent (Some (ex_at 9 (Some (TzObj 2)))) None None PSecond)).
Proof.
  eexists. eexists. eexists. eexists. split; [vm_compute; reflexivity|]. split; [vm_compute; reflexivity|]. split; [vm_compute; reflexivity|].
  split; [vm_compute; reflexivity|]. split; vm_compute; reflexivity.
Qed.
Print Assumptions C46_clash_refuted.
(** A calendar whose name was changed cannot be read back (nothing but the class name is
    accepted), although it can be written. *)
Theorem C46_name_refuted : exists txt,
  calendar_serialize toy true (fun t => [t]) (Some 75%nat) (mk_comp CCalendar [] [] (py "X-CAL") [] []) = Ok txt /\
  read_calendar toy (FromStr txt) = Err ValueError.
Proof. eexists. split; [vm_compute; reflexivity|]. vm_compute. reflexivity. Qed.
Print Assumptions C46_name_refuted.
