(** * C23-C25: interval predicates and ordering *)
From Verif Require Import M_Base P_Base M_Codec M_Cal M_Time M_Span S_Span P_Span M_Cmp S_Cmp P_Cmp P_CmpEq.
Open Scope Z_scope.

(** ** C23. [interval E P s B N]: the span [s] runs from the instant [B] to the instant
    [N], and its begin and end belong to the well-behaved datetimes [P]. *)
Theorem C23_exact : forall E P s B N o B' N', good_local E -> tame E P ->
  interval E P s B N -> interval E P o B' N' ->
  (starts_within E s o = Ok true <-> inside B B' N') /\
  (ends_within E s o = Ok true <-> inside N B' N') /\
  (intersects E s o = Ok true <-> inside B B' N' \/ inside N B' N' \/ inside B' B N \/ inside N' B N) /\
  (includes E s o = Ok true <-> B <= B' /\ N' < N) /\
  (is_included_in E s o = Ok true <-> B' <= B /\ N < N') /\
  (forall p, In p [starts_within; ends_within; intersects; includes; is_included_in] -> exists b, p E s o = Ok b).
Proof. exact predicates_prop. Qed.
Print Assumptions C23_exact.
(** [includes] on a single instant. *)
Theorem C23_instant : forall E P s B N d, good_local E -> tame E P -> interval E P s B N -> convertible E d -> P d ->
  exists b, includes_dt E s d = Ok b /\ (b = true <-> inside (moment E d) B N).
Proof. exact includes_dt_prop. Qed.
Print Assumptions C23_instant.
(** Symmetry and converse hold over all zones. *)
Theorem C23_symmetric : forall E s b e o c f, good_local E -> runs E s b e -> runs E o c f ->
  intersects E s o = intersects E o s.
Proof. exact (fun E s b e o c f GL => intersects_symm E GL s b e o c f). Qed.
Print Assumptions C23_symmetric.
Theorem C23_converse : forall E s b e o c f, good_local E -> runs E s b e -> runs E o c f ->
  is_included_in E s o = includes E o s.
Proof. exact (fun E s b e o c f GL => included_converse E GL s b e o c f). Qed.
Print Assumptions C23_converse.
Theorem C23_transitive : forall E P s o r B N B' N' B'' N'', good_local E -> tame E P ->
  interval E P s B N -> interval E P o B' N' -> interval E P r B'' N'' ->
  includes E s o = Ok true -> includes E o r = Ok true -> includes E s r = Ok true.
Proof. exact (fun E P s o r B N B' N' B'' N'' GL HT => includes_trans E GL P HT s o r B N B' N' B'' N''). Qed.
Print Assumptions C23_transitive.
Theorem C23_includes_intersects : forall E P s o B N B' N', good_local E -> tame E P ->
  interval E P s B N -> interval E P o B' N' -> validate E o = Ok tt ->
  includes E s o = Ok true -> intersects E s o = Ok true.
Proof. exact (fun E P s o B N B' N' GL HT => includes_intersects E GL P HT s o B N B' N'). Qed.
Print Assumptions C23_includes_intersects.
(** Where offsets are constant, all datetimes are well behaved. *)
Theorem C23_steady : forall E P, steady E -> tame E P.
Proof. exact steady_tame. Qed.
Print Assumptions C23_steady.

Definition cx_at (h : Z) (z : option tz) := mk_dt (ref + h * hour) false z.
Definition cx_s := mk_ts KEvent (Some (cx_at 0 None)) (Some (cx_at 9 None)) None PSecond.
Definition cx_o := mk_ts KEvent (Some (cx_at 1 (Some (TzObj 1)))) None (Some (4 * hour)) PSecond.
Definition cx_r := mk_ts KBase (Some (cx_at 0 (Some (TzObj 0)))) (Some (cx_at 3 (Some (TzObj 0)))) None PSecond.
Example C23_example : good_local env_ex /\ tame env_ex ex_tame /\
  interval env_ex ex_tame cx_s (ref - 2 * hour) (ref + 8 * hour) /\
  interval env_ex ex_tame cx_o (ref - hour) (ref + 4 * hour) /\
  interval env_ex ex_tame cx_r ref (ref + 3 * hour) /\
  validate env_ex cx_o = Ok tt /\
  includes env_ex cx_s cx_o = Ok true /\ includes env_ex cx_o cx_r = Ok true.
Proof.
  split; [exact good_local_ex|]. split; [exact tame_ex|].
  split; [exists (cx_at 0 None), (cx_at 9 None); split; [|split; [|split; [|split]]]|].
  2-5: unfold ex_tame; vm_compute; intuition discriminate.
  { split; [discriminate|]. split; [reflexivity|]. split; [vm_compute; reflexivity|]. split; (split; [discriminate|]); intros _; split; vm_compute; reflexivity. }
  split; [exists (cx_at 1 (Some (TzObj 1))), (cx_at 5 (Some (TzObj 1))); split; [|split; [|split; [|split]]]|].
  2-5: unfold ex_tame; vm_compute; intuition discriminate.
  { split; [discriminate|]. split; [reflexivity|]. split; [vm_compute; reflexivity|]. split; (split; [discriminate|]); intros H; discriminate H. }
  split; [exists (cx_at 0 (Some (TzObj 0))), (cx_at 3 (Some (TzObj 0))); split; [|split; [|split; [|split]]]|].
  2-5: unfold ex_tame; vm_compute; intuition discriminate.
  { split; [discriminate|]. split; [reflexivity|]. split; [vm_compute; reflexivity|]. split; (split; [discriminate|]); intros H; discriminate H. }
  split; [vm_compute; reflexivity|]. split; vm_compute; reflexivity.
Qed.

(** Findings. Datetimes of one zone are compared by the clock, so around a clock change
    [includes] is not transitive. *)
Definition cx_a := mk_dt (ref + 2 * hour + 45 * 60 * US_SEC) false (Some (TzObj 1)).
Definition cx_b := mk_dt (ref + 2 * hour + 30 * 60 * US_SEC) true (Some (TzObj 1)).
Definition cx_c := cx_at 1 (Some (TzObj 0)).
Definition cx_since (d : Z) (e : datetime) := mk_ts KEvent (Some (cx_at d (Some (TzObj 0)))) (Some e) None PSecond.
Theorem C23_zones_refuted : exists E s o r, good_local E /\
  validate E s = Ok tt /\ validate E o = Ok tt /\ validate E r = Ok tt /\
  includes E s o = Ok true /\ includes E o r = Ok true /\ includes E s r = Ok false.
Proof.
  exists env_ex, (cx_since (-3) cx_a), (cx_since (-2) cx_b), (cx_since (-1) cx_c). split; [exact good_local_ex|].
  repeat match goal with |- _ /\ _ => split end; vm_compute; reflexivity.
Qed.
Print Assumptions C23_zones_refuted.
(** The predicates do not work on the spans of todos: AttributeError whenever the todo
    has begin and end. *)
Theorem C23_todo_refuted : forall E s o b e c f, good_local E ->
  ts_kind s = KTodo -> ts_begin s = Some b -> eff_end E s = Ok (Some e) -> convertible E b -> convertible E e ->
  runs E o c f ->
  starts_within E s o = Err AttributeError /\ ends_within E s o = Err AttributeError /\
  intersects E s o = Err AttributeError /\ includes E s o = Err AttributeError /\ is_included_in E s o = Err AttributeError.
Proof. exact todo_predicates. Qed.
Print Assumptions C23_todo_refuted.
(** Without a begin they raise ValueError. *)
Theorem C23_no_begin : forall E o s c f, good_local E -> ts_kind s <> KTodo -> ts_begin s = None -> ts_end s = None -> ts_dur s = None ->
  runs E o c f ->
  starts_within E s o = Err ValueError /\ ends_within E s o = Err ValueError /\
  intersects E s o = Err ValueError /\ includes E s o = Err ValueError /\ is_included_in E s o = Err ValueError.
Proof. exact no_begin_predicates. Qed.
Print Assumptions C23_no_begin.
(** Exactly: the begin or end they speak of has to be there. *)
Theorem C23_required : forall E s o sb se ob oe, good_local E -> ends E s sb se -> ends E o ob oe ->
  (starts_within E s o = Err ValueError <-> sb = None \/ ob = None \/ oe = None) /\
  (ends_within E s o = Err ValueError <-> se = None \/ ob = None \/ oe = None) /\
  (intersects E s o = Err ValueError <-> sb = None \/ se = None \/ ob = None \/ oe = None) /\
  (includes E s o = Err ValueError <-> sb = None \/ se = None \/ ob = None \/ oe = None) /\
  (is_included_in E s o = Err ValueError <-> sb = None \/ se = None \/ ob = None \/ oe = None).
Proof. exact required_predicates. Qed.
Print Assumptions C23_required.
(** So does [includes] of an instant; of a todo it is an AttributeError. *)
Theorem C23_required_instant : forall E s sb se d, good_local E -> ends E s sb se -> convertible E d ->
  includes_dt E s d = Err ValueError <-> sb = None \/ se = None.
Proof. exact required_instant. Qed.
Print Assumptions C23_required_instant.
Theorem C23_todo_instant_refuted : forall E s b e d, good_local E -> ts_kind s = KTodo -> ts_begin s = Some b -> eff_end E s = Ok (Some e) ->
  convertible E b -> convertible E e -> convertible E d -> includes_dt E s d = Err AttributeError.
Proof. exact todo_instant. Qed.
Print Assumptions C23_todo_instant_refuted.
Example C23_todo_instant_example : let s := mk_ts KTodo (Some (cx_at 0 None)) (Some (cx_at 9 None)) None PSecond in
  eff_end env_ex s = Ok (Some (cx_at 9 None)) /\ convertible env_ex (cx_at 0 None) /\ convertible env_ex (cx_at 9 None).
Proof. split; [reflexivity|]. split; (split; [discriminate|]); intros _; vm_compute; easy. Qed.
Example C23_example_required : good_local env_ex /\ (forall b e, ends env_ex (mk_ts KBase None None None PNone) b e <-> b = None /\ e = None) /\
  ends env_ex (mk_ts KBase (Some (cx_at 0 None)) None None PSecond) (Some (cx_at 0 None)) None.
Proof.
  split; [exact good_local_ex|]. split.
  - intros b e. split; [intros (_ & <- & [= <-] & _); easy|]. intros [-> ->]. repeat split; discriminate.
  - split; [discriminate|]. split; [easy|]. split; [easy|]. split; [|discriminate]. intros d [= <-]. split; [discriminate|]. intros _. vm_compute. easy.
Qed.

(** ** C24. Against the half-open intervals. [intersects] also accepts spans that only
    touch, [includes] demands an earlier end. *)
Theorem C24_intersects : forall E P s o B N B' N', good_local E -> tame E P ->
  interval E P s B N -> interval E P o B' N' -> B < N -> B' < N' ->
  (intersects E s o = Ok true <-> (exists x, inside x B N /\ inside x B' N') \/ N = B' \/ N' = B).
Proof. exact (fun E P s o B N B' N' GL HT => intersects_instants E GL P HT s o B N B' N'). Qed.
Print Assumptions C24_intersects.
Theorem C24_includes : forall E P s o B N B' N', good_local E -> tame E P ->
  interval E P s B N -> interval E P o B' N' -> B' < N' ->
  (includes E s o = Ok true <-> (forall x, inside x B' N' -> inside x B N) /\ N' <> N).
Proof. exact (fun E P s o B N B' N' GL HT => includes_instants E GL P HT s o B N B' N'). Qed.
Print Assumptions C24_includes.
(** A span without length intersects another exactly when it lies inside. *)
Theorem C24_empty : forall E P s o B B' N', good_local E -> tame E P ->
  interval E P s B B -> interval E P o B' N' -> (intersects E s o = Ok true <-> inside B B' N').
Proof. exact (fun E P s o B B' N' GL HT => intersects_empty E GL P HT s o B B' N'). Qed.
Print Assumptions C24_empty.
(** Findings: two spans that share no instant intersect; no span includes itself. *)
Definition cx_t1 := mk_ts KEvent (Some (cx_at 4 None)) None (Some hour) PSecond.
Definition cx_t2 := mk_ts KEvent (Some (cx_at 5 None)) None (Some hour) PSecond.
Theorem C24_touching_refuted : exists E P s o B N B' N', good_local E /\ tame E P /\
  interval E P s B N /\ interval E P o B' N' /\ B < N /\ B' < N' /\
  ~ (exists x, inside x B N /\ inside x B' N') /\ intersects E s o = Ok true.
Proof.
  exists env_ex, ex_tame, cx_t1, cx_t2, (ref + 3 * hour), (ref + 4 * hour), (ref + 4 * hour), (ref + 5 * hour).
  split; [exact good_local_ex|]. split; [exact tame_ex|].
  split; [exists (cx_at 4 None), (cx_at 5 None); split; [|split; [|split; [|split]]]|].
  2-5: unfold ex_tame; vm_compute; intuition discriminate.
  { split; [discriminate|]. split; [reflexivity|]. split; [vm_compute; reflexivity|]. split; (split; [discriminate|]); intros _; split; vm_compute; reflexivity. }
  split; [exists (cx_at 5 None), (cx_at 6 None); split; [|split; [|split; [|split]]]|].
  2-5: unfold ex_tame; vm_compute; intuition discriminate.
  { split; [discriminate|]. split; [reflexivity|]. split; [vm_compute; reflexivity|]. split; (split; [discriminate|]); intros _; split; vm_compute; reflexivity. }
  split; [vm_compute; reflexivity|]. split; [vm_compute; reflexivity|].
  split; [|vm_compute; reflexivity]. unfold inside. intros (x & [H1 H2] & [H3 H4]). apply (Z.lt_irrefl x). now apply (Z.lt_le_trans _ _ _ H2).
Qed.
Print Assumptions C24_touching_refuted.
Theorem C24_self_refuted : forall E P s B N, good_local E -> tame E P -> interval E P s B N ->
  includes E s s = Ok false.
Proof. exact includes_self. Qed.
Print Assumptions C24_self_refuted.
Example C24_example : intersects env_ex cx_s cx_o = Ok true /\ intersects env_ex cx_t1 cx_r = Ok true /\
  intersects env_ex cx_t2 cx_r = Ok false /\ includes env_ex cx_t1 cx_t2 = Ok false.
Proof. repeat match goal with |- _ /\ _ => split end; vm_compute; reflexivity. Qed.

(** ** C25. On spans with a sort key (which is defined whenever begin and end can be
    computed and converted) the operators form one strict weak order: that of the keys. *)
Theorem C25_key : forall E P s t k l, good_local E -> tame E P -> sort_key E P s k -> sort_key E P t l ->
  exists x, span_op E CLt s t = Ok x /\ (x = true <-> key_lt k l).
Proof. exact (fun E P s t k l GL HT => span_lt_key E GL P HT s t k l). Qed.
Print Assumptions C25_key.
Theorem C25_weak_order : forall E P, good_local E -> tame E P ->
  weak_order (fun t => exists k, sort_key E P t k) (span_op E CLt) /\
  consistent_ops (fun t => exists k, sort_key E P t k) (span_op E).
Proof. exact (fun E P GL HT => conj (span_weak E GL P HT) (span_consistent E GL P HT)). Qed.
Print Assumptions C25_weak_order.
(** Entries: then by summary. *)
Theorem C25_entry_key : forall E P x y k l, good_local E -> tame E P ->
  sort_key E P (en_span x) k -> sort_key E P (en_span y) l ->
  exists r, entry_op E CLt x y = Ok r /\ (r = true <-> key_lt k l \/ k = l /\ str_lt (en_name x) (en_name y)).
Proof. exact (fun E P x y k l GL HT => entry_lt_key E GL P HT x y k l). Qed.
Print Assumptions C25_entry_key.
Theorem C25_entries : forall E P, good_local E -> tame E P ->
  weak_order (fun x => exists k, sort_key E P (en_span x) k) (entry_op E CLt) /\
  consistent_ops (fun x => exists k, sort_key E P (en_span x) k) (entry_op E).
Proof. exact (fun E P GL HT => conj (entry_weak E GL P HT) (entry_consistent E GL P HT)). Qed.
Print Assumptions C25_entries.
(** Over all zones: only the class, begin and end count, not how the end was given. *)
Theorem C25_representation : forall E o x x' y,
  ts_kind (en_span x') = ts_kind (en_span x) -> ts_begin (en_span x') = ts_begin (en_span x) ->
  eff_end E (en_span x') = eff_end E (en_span x) -> en_name x' = en_name x ->
  span_op E o (en_span x') (en_span y) = span_op E o (en_span x) (en_span y) /\
  span_op E o (en_span y) (en_span x') = span_op E o (en_span y) (en_span x) /\
  entry_op E o x' y = entry_op E o x y /\ entry_op E o y x' = entry_op E o y x.
Proof. exact all_repr. Qed.
Print Assumptions C25_representation.
Definition cx_o' := mk_ts KEvent (Some (cx_at 1 (Some (TzObj 1)))) (Some (cx_at 5 (Some (TzObj 1)))) None PSecond.
Example C25_example : sort_key env_ex ex_tame cx_o (ref - hour, ref + 4 * hour) /\
  (exists k, sort_key env_ex ex_tame cx_s k) /\ sort_key env_ex ex_tame (mk_ts KEvent None None None PSecond)
     (moment env_ex CMP_DEFAULT, moment env_ex CMP_DEFAULT) /\
  span_op env_ex CLt cx_s cx_o = Ok true /\ span_op env_ex CGe cx_s cx_o = Ok false /\
  eff_end env_ex cx_o' = eff_end env_ex cx_o /\ span_op env_ex CLe cx_o' cx_o = Ok true.
Proof.
  split; [exists (Some (cx_at 5 (Some (TzObj 1))))|split; [exists (ref - 2 * hour, ref + 8 * hour), (Some (cx_at 9 None))|split; [exists None|]]].
  1-3: split; [vm_compute; reflexivity|]; split; [unfold ex_tame; vm_compute; intuition discriminate|]; split; [unfold ex_tame; vm_compute; intuition discriminate|].
  1-3: split; [split; [discriminate|]; intros H; first [discriminate H | split; vm_compute; reflexivity]|].
  1-3: split; [split; [discriminate|]; intros H; first [discriminate H | split; vm_compute; reflexivity]|vm_compute; reflexivity].
  repeat match goal with |- _ /\ _ => split end; vm_compute; reflexivity.
Qed.

Definition cx_ev' (b : datetime) := mk_ts KEvent (Some b) (Some (cx_at 9 (Some (TzObj 0)))) None PSecond.
(** [==] of spans and entries compares the class, begin, end and duration as they are
    given (not the computed end), the precision, the summary and all the rest; datetimes
    by the clock within one zone and by the instant across zones. *)
Theorem C25_equal : forall E s t, span_eqb E s t = true <-> same_span E s t.
Proof. exact span_eqb_spec. Qed.
Print Assumptions C25_equal.
Theorem C25_equal_entries : forall E x y, entry_eqb E x y = true <->
  same_span E (en_span x) (en_span y) /\ en_summary x = en_summary y /\ en_rest x = en_rest y.
Proof. exact entry_eqb_spec. Qed.
Print Assumptions C25_equal_entries.
Example C25_example_equal :
  span_eqb env_ex (cx_ev' (cx_at 1 (Some (TzObj 1)))) (cx_ev' (cx_at 1 (Some (TzObj 1)))) = true /\
  span_eqb env_ex cx_o cx_o' = false /\
  entry_eqb env_ex (mk_entry cx_s (Some (py "a")) 0) (mk_entry cx_s None 0) = false.
Proof. repeat match goal with |- _ /\ _ => split end; vm_compute; reflexivity. Qed.

(** Findings. Around a clock change three events can be in a circle ... *)
Definition cx_ev (b : datetime) (h : Z) := mk_ts KEvent (Some b) (Some (cx_at h (Some (TzObj 0)))) None PSecond.
Theorem C25_cycle_refuted : exists E a b c, good_local E /\
  validate E a = Ok tt /\ validate E b = Ok tt /\ validate E c = Ok tt /\
  span_op E CLt a c = Ok true /\ span_op E CLt c b = Ok true /\ span_op E CLt b a = Ok true.
Proof.
  exists env_ex, (cx_ev cx_a 5), (cx_ev cx_b 5), (cx_ev cx_c 5). split; [exact good_local_ex|].
  repeat match goal with |- _ /\ _ => split end; vm_compute; reflexivity.
Qed.
Print Assumptions C25_cycle_refuted.
(** ... and an ambiguous begin hides the comparison of the ends, since a datetime in the
    repeated hour is never [==] to one of another zone. *)
Definition cx_amb := mk_dt (ref + 2 * hour + 30 * 60 * US_SEC) false (Some (TzObj 1)).
Definition cx_ambu := mk_dt (ref + 30 * 60 * US_SEC) false (Some (TzObj 0)).
Theorem C25_fold_refuted : exists E a b c, good_local E /\
  validate E a = Ok tt /\ validate E b = Ok tt /\ validate E c = Ok tt /\
  span_op E CLt a b = Ok false /\ span_op E CLt b a = Ok false /\
  span_op E CLt b c = Ok false /\ span_op E CLt c b = Ok false /\ span_op E CLt a c = Ok true.
Proof.
  exists env_ex, (cx_ev cx_amb 4), (cx_ev cx_ambu 5), (cx_ev cx_amb 6). split; [exact good_local_ex|].
  repeat match goal with |- _ /\ _ => split end; vm_compute; reflexivity.
Qed.
Print Assumptions C25_fold_refuted.
