(** * Cloning components (C35) *)
From Verif Require Import M_Base M_Line M_Tree M_Time M_Dt M_Span M_Comp M_Clone S_Line S_Tree S_Toy S_Clone.
From Verif Require Import P_Clone.

(** Cloning any component a program can have in hand succeeds and gives the same class,
    attributes and members, but never its unknown properties or extra parameters. [UTC]
    is one object and new events are stamped in it. *)
Theorem C35_component : forall X n M load_m (x : comp M), x_utc X = TzObj n -> dtz (x_now X) = Some (x_utc X) ->
  made X load_m x ->
  exists y, clone X x = Ok y /\ c_cls y = c_cls x /\ c_attrs y = c_attrs x /\ c_mem y = c_mem x /\
    c_name y = NAME (c_cls x) /\ c_extra y = [] /\ c_params y = [].
Proof. intros X n M load_m x HU HN. exact (clone_made X n HU load_m HN x). Qed.
Print Assumptions C35_component.

(** So the clone is equal to the original exactly when there is nothing unknown in it. *)
Theorem C35_component_equal_iff : forall X n M load_m (x : comp M), x_utc X = TzObj n -> dtz (x_now X) = Some (x_utc X) ->
  made X load_m x -> forall y, clone X x = Ok y ->
  (comp_eq y x <-> c_name x = NAME (c_cls x) /\ c_extra x = [] /\ c_params x = []).
Proof. intros X n M load_m x HU HN. exact (clone_equal_iff X n HU load_m HN x). Qed.
Print Assumptions C35_component_equal_iff.

(** A class that copies its lists: the clone's lists have the same elements, and no change
    to a list of one is seen in the other. *)
Theorem C35_component_lists : forall A c refs (h : heap A) refs' h', c <> CEmail ->
  Forall (fun kv => (snd kv < length h)%nat) refs -> clone_lists c refs h = (refs', h') ->
  map (fun kv => (fst kv, contents h' (snd kv))) refs' = map (fun kv => (fst kv, contents h (snd kv))) refs /\
  forall k i k' i' l, In (k, i) refs -> In (k', i') refs' ->
    contents (write i' l h') i = contents h i /\ contents (write i l h') i' = contents h' i'.
Proof. exact @lists_independent. Qed.
Print Assumptions C35_component_lists.

(** An EmailAlarm and its clone have the same list objects: adding an attendee to one
    adds it to the other. *)
Theorem C35_component_lists_refuted : forall A refs (h : heap A), clone_lists CEmail refs h = (refs, h).
Proof. exact @lists_shared. Qed.
Print Assumptions C35_component_lists_refuted.

(** An event read with an unknown property. *)
Theorem C35_component_refuted : exists (x y : entry) zs,
  load_entry toy CEvent (py "VEVENT")
    [ILine (mk_line (py "SUMMARY") [] (py "Hi")); ILine (mk_line (py "X-COLOR") [] (py "red"))] [] = Ok (x, zs) /\ clone toy x = Ok y /\ ~ comp_eq y x.
Proof. exact clone_refuted. Qed.
Print Assumptions C35_component_refuted.
Example C35_example_equal :
  match load_entry toy CEvent (py "VEVENT") [ILine (mk_line (py "SUMMARY") [] (py "Hi"))] [] with
  | Ok (x, _) => clone toy x = Ok x
  | Err _ => False
  end.
Proof. vm_compute. reflexivity. Qed.
