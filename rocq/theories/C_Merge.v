(** * C60: reading into a component that already has contents *)
From Verif Require Import M_Base M_Text M_Line M_Codec M_Cal M_Time M_Span M_Dt M_Fold M_Tree M_Comp M_Open M_Serial M_Merge.
From Verif Require Import S_Comp S_Multi S_Store S_Reorder S_Read S_Toy S_Merge P_AgainEx P_Merge2 P_MergeEx.
Open Scope N_scope.

(** Reading into a component fails exactly if reading a new one fails, with the same error;
    if it succeeds, the result is [merged] from the old contents and the new component. *)
Theorem C60_component : forall X M load_m (x0 : comp M) n its zs, mergeable x0 ->
  (forall x zs', populate_instance X M load_m x0 n its zs = Ok (x, zs') -> exists y, load_comp X M load_m (c_cls x0) n its zs = Ok (y, zs') /\ merged its x0 y x) /\
  (forall y zs', load_comp X M load_m (c_cls x0) n its zs = Ok (y, zs') -> exists x, populate_instance X M load_m x0 n its zs = Ok (x, zs') /\ merged its x0 y x) /\
  (forall e, populate_instance X M load_m x0 n its zs = Err e <-> load_comp X M load_m (c_cls x0) n its zs = Err e).
Proof. exact merge_iff. Qed.
Print Assumptions C60_component.
Example C60_component_example : mergeable again_event /\ populate_entry toy again_event (py "VEVENT") more_items = Ok more_event /\
  entry_from_container toy CEvent (py "VEVENT") more_items = Ok only_event.
Proof. split; [exact event_mergeable|exact more_ok]. Qed.

(** [calendar.populate(container)] *)
Theorem C60_calendar : forall X c0 n its, mergeable c0 -> c_cls c0 = CCalendar ->
  (forall x, populate_calendar X c0 n its = Ok x -> exists y, load_calendar X n its = Ok y /\ merged its c0 y x) /\
  (forall y, load_calendar X n its = Ok y -> exists x, populate_calendar X c0 n its = Ok x /\ merged its c0 y x) /\
  (forall e, populate_calendar X c0 n its = Err e <-> load_calendar X n its = Err e).
Proof. exact calendar_merge_iff. Qed.
Print Assumptions C60_calendar.
(** [Calendar(imports, **kwargs)] for any start [c0], from a container, a text or lines. *)
Theorem C60_open : forall X c0 i, mergeable c0 -> c_cls c0 = CCalendar -> i <> FromNone ->
  (forall x, Calendar (populate_calendar X c0) c0 i = Ok x -> exists y n its, imported i n its /\ read_calendar X i = Ok y /\ merged its c0 y x) /\
  (forall y, read_calendar X i = Ok y -> exists x n its, imported i n its /\ Calendar (populate_calendar X c0) c0 i = Ok x /\ merged its c0 y x) /\
  (forall e, Calendar (populate_calendar X c0) c0 i = Err e <-> read_calendar X i = Err e).
Proof. exact open_merge. Qed.
Print Assumptions C60_open.
Example C60_open_example : mergeable again_calendar /\ c_cls again_calendar = CCalendar /\ read_calendar toy (FromStr again_text) = Ok again_calendar.
Proof. split; [exact calendar_mergeable|split; [reflexivity|exact again_read]]. Qed.
(** Events and todos that are given to the constructor stand before those that are read. *)
Theorem C60_given : forall X i events todos creator, i <> FromNone ->
  (forall x, calendar_init X i events todos creator = Ok x -> exists y, read_calendar X i = Ok y /\
     under (py "events") x = events ++ under (py "events") y /\ under (py "todos") x = todos ++ under (py "todos") y) /\
  (forall y, read_calendar X i = Ok y -> exists x, calendar_init X i events todos creator = Ok x) /\
  (forall e, calendar_init X i events todos creator = Err e <-> read_calendar X i = Err e).
Proof. exact init_merge. Qed.
Print Assumptions C60_given.
Example C60_given_example : FromStr again_text <> FromNone /\ read_calendar toy (FromStr again_text) = Ok again_calendar.
Proof. split; [discriminate|exact again_read]. Qed.
(** Everything else is that of the imports, the [creator] too: PRODID is required. *)
Theorem C60_given_rest : forall X i events todos creator x y, i <> FromNone -> calendar_init X i events todos creator = Ok x -> read_calendar X i = Ok y ->
  (forall k, dict_get k (c_attrs x) = dict_get k (c_attrs y)) /\ (forall k, dict_get k (c_params x) = dict_get k (c_params y)) /\
  c_extra x = c_extra y /\ c_name x = c_name y /\ c_cls x = c_cls y.
Proof. exact init_rest. Qed.
Print Assumptions C60_given_rest.
Example C60_given_rest_example : exists x, calendar_init toy (FromStr again_text) [] [] (Some (py "me")) = Ok x.
Proof. destruct (init_merge toy (FromStr again_text) [] [] (Some (py "me")) ltac:(discriminate)) as (_ & H & _). exact (H _ again_read). Qed.
(** Without imports the calendar has the events, the todos and the creator that are given,
    and nothing else. *)
Theorem C60_new : forall X events todos creator, exists x, calendar_init X FromNone events todos creator = Ok x /\
  c_cls x = CCalendar /\ c_name x = py "VCALENDAR" /\
  (forall k, dict_get k (c_attrs x) =
     if str_eqb k (py "version") then Some (AOne (VStr (py "2.0")))
     else if str_eqb k (py "prodid") then Some (AOne (VStr (match creator with Some s => s | None => py "ics.py 0.8.0.dev0 - http://git.io/lLljaA" end)))
     else if str_eqb k (py "scale") || str_eqb k (py "method") then Some ANone else None) /\
  c_mem x = [(py "events", events); (py "todos", todos)] /\ c_extra x = [] /\ c_params x = [].
Proof. exact init_new. Qed.
Print Assumptions C60_new.
(** [Event.from_container], [Todo.from_container]: exactly what the items say. *)
Theorem C60_entry : forall X c n its, c = CEvent \/ c = CTodo ->
  (forall x, entry_from_container X c n its = Ok x -> n = title c /\ entry_reads X [] c its x) /\
  (forall x, n = title c -> entry_reads X [] c its x -> exists y, entry_from_container X c n its = Ok y /\ same_entry x y).
Proof. exact from_container_exact. Qed.
Print Assumptions C60_entry.
Example C60_entry_example : entry_from_container toy CEvent (py "VEVENT") more_items = Ok only_event.
Proof. exact (proj2 more_ok). Qed.
(** Several containers read one after the other into one calendar: possible exactly if each
    can be read alone, and nothing of their events and todos is lost or reordered. *)
Theorem C60_several : forall X conts c0, mergeable c0 -> c_cls c0 = CCalendar ->
  (forall x, populate_all X c0 conts = Ok x -> exists ys, Forall2 (fun c y => load_calendar X (fst c) (snd c) = Ok y) conts ys /\
     forall k, In k [py "events"; py "todos"] -> under k x = under k c0 ++ flat_map (under k) ys) /\
  (forall ys, Forall2 (fun c y => load_calendar X (fst c) (snd c) = Ok y) conts ys -> exists x, populate_all X c0 conts = Ok x).
Proof. exact several. Qed.
Print Assumptions C60_several.
(** New components, and all that was merged, can be read into again. *)
Theorem C60_again : forall X M c, mergeable (new_comp X M c) /\ forall its (x0 y x : comp M), merged its x0 y x -> mergeable x.
Proof. intros X M c. split; [exact (new_mergeable X c)|intros its x0 y x; exact (merged_mergeable its x0 y x)]. Qed.
Print Assumptions C60_again.

(** That what no line mentions is kept is false of the time span. *)
Theorem C60_span_refuted : ~ (forall X x0 n its x, mergeable x0 -> populate_entry X x0 n its = Ok x ->
  (forall l, In (ILine l) its -> ~ In (cl_name l) [py "DTSTART"; py "DTEND"; py "DUE"; py "DURATION"]) ->
  dict_get (py "timespan") (c_attrs x) = dict_get (py "timespan") (c_attrs x0)).
Proof. exact span_refuted. Qed.
Print Assumptions C60_span_refuted.
(** A value that is replaced can keep the parameters of the old value. *)
Theorem C60_params_refuted : ~ (forall X x0 n its x y f, mergeable x0 -> populate_entry X x0 n its = Ok x -> entry_from_container X (c_cls x0) n its = Ok y ->
  In f (singles (c_cls x0)) -> lines (g_name f) its <> [] -> dict_get (upper (g_attr f)) (c_params x) = dict_get (upper (g_attr f)) (c_params y)).
Proof. exact params_refuted. Qed.
Print Assumptions C60_params_refuted.
(** An event that can be written and lines that can be read and written can give an event
    that cannot be written: categories that were set by hand, and a CATEGORIES line. *)
Theorem C60_write_refuted : ~ (forall X x0 n its x y, mergeable x0 -> populate_entry X x0 n its = Ok x -> entry_from_container X (c_cls x0) n its = Ok y ->
  (exists it, M_Comp.to_container X x0 = Ok it) -> (exists it, M_Comp.to_container X y = Ok it) -> exists it, M_Comp.to_container X x = Ok it).
Proof. exact write_lost. Qed.
Print Assumptions C60_write_refuted.
