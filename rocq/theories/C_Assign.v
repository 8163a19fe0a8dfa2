(** * C74: assigning to attributes of events and todos *)
From Verif Require Import M_Base P_Base M_Codec M_Cal M_Time M_Span S_Span P_Span M_Event S_Event P_Event S_Assign P_Assign P_Assign2 P_Assign3.
Open Scope Z_scope.

(** Which values are taken for a point in time, as which, and with which exception others
    are refused. *)
Theorem C74_datetime : forall v r, ensure_datetime v = r <-> dt_meant v r.
Proof. exact dt_meant_iff. Qed.
Print Assumptions C74_datetime.
Example C74_example_datetime :
  dt_meant (VTuple [VInt 2020; VInt 2; VInt 29]) (Ok (Some (mk_dt (mk_wall 2020 2 29 0 0 0 0) false None))) /\
  dt_meant (VDict [(py "day", VInt 29); (py "year", VInt 2020); (py "month", VInt 2); (py "fold", VInt 1); (py "tzinfo", VTz (TzObj 1))])
    (Ok (Some (mk_dt (mk_wall 2020 2 29 0 0 0 0) true (Some (TzObj 1))))) /\
  dt_meant (VTuple [VInt (2 ^ 31); VStr []; VInt 29]) (Err OverflowError) /\
  dt_meant (VTuple [VInt 2021; VInt 2; VInt 29]) (Err ValueError) /\
  dt_meant (VStr (py "2020-02-29")) (Err ValueError).
Proof. repeat split; apply C74_datetime; vm_compute; reflexivity. Qed.
(** The same for lengths of time. *)
Theorem C74_timedelta : forall v r, ensure_timedelta v = r <-> td_meant v r.
Proof. exact td_meant_iff. Qed.
Print Assumptions C74_timedelta.
Example C74_example_timedelta :
  td_meant (VTuple [VInt 1; VInt (-60)]) (Ok (Some (86340 * 10 ^ 6))) /\
  td_meant (VDict [(py "weeks", VInt 2); (py "hours", VInt 1)]) (Ok (Some (1213200 * 10 ^ 6))) /\
  td_meant (VDict [(py "week", VInt 2)]) (Err TypeError) /\ td_meant (VTuple [VInt (10 ^ 9)]) (Err OverflowError) /\
  td_meant (VInt 5) (Err ValueError).
Proof. repeat split; apply C74_timedelta; vm_compute; reflexivity. Qed.

(** An attribute takes exactly the values of its kind; what is stored and which exception
    is raised. *)
Theorem C74_assign : forall E utc o k v o' x, reachable E utc o -> ~ In k (special (o_cls o)) ->
  (run E utc (OSet k v) o = (o', x) <->
   exists K r, has_kind (o_cls o) k K /\ taken E utc (o_cls o) K v r /\ (o', x) = after o k r).
Proof. exact assign_exact. Qed.
Print Assumptions C74_assign.
(** Computed properties replace the time span by one that differs in one respect, if that
    is valid. *)
Theorem C74_computed : forall E utc o k v t r, reachable E utc o -> In k (computed (o_cls o)) ->
  dict_get (py "timespan") (o_attrs o) = Some (VSpan t) -> reset_span t k v r ->
  run E utc (OSet k v) o =
    match r with
    | Err x => (o, Err x)
    | Ok t' => match validate E t' with Ok _ => (with_attr o (py "timespan") (VSpan t'), Ok tt) | Err x => (o, Err x) end
    end.
Proof. exact set_computed. Qed.
Print Assumptions C74_computed.
Theorem C74_computed_total : forall c t k v, In k (computed c) -> exists r, reset_span t k v r.
Proof. exact (fun c t k v H => ex_intro _ _ (reset_exists c t k v H)). Qed.
Print Assumptions C74_computed_total.
(** Read-only properties. *)
Theorem C74_unwritable : forall E utc o k v, In k (unwritable (o_cls o)) -> run E utc (OSet k v) o = (o, Err AttributeError).
Proof. exact unwritable_run. Qed.
Print Assumptions C74_unwritable.
(** [add_attendee]: events append an attendee to their list and refuse anything
    else, todos do not have it. *)
Theorem C74_add_attendee : forall E utc o v l, reachable E utc o -> o_cls o = CEvent ->
  dict_get (py "attendees") (o_attrs o) = Some (VList l) ->
  run E utc (OAddAttendee v) o = after o (py "attendees")
    (match v with VObj 2 _ => Ok (VList (l ++ [v])) | _ => Err TypeError end).
Proof. exact add_attendee_exact. Qed.
Print Assumptions C74_add_attendee.
Theorem C74_add_attendee_todo : forall E utc o v, o_cls o = CTodo -> run E utc (OAddAttendee v) o = (o, Err AttributeError).
Proof. exact add_attendee_todo. Qed.
Print Assumptions C74_add_attendee_todo.
(** Every attribute has one kind, and every value of it one outcome. *)
Theorem C74_kinds : forall c k, exists K, has_kind c k K /\ forall K', has_kind c k K' -> K' = K.
Proof. exact (fun c k => match kind_exists c k with ex_intro _ K H => ex_intro _ K (conj H (fun K' H' => has_kind_one c k K' K H' H)) end). Qed.
Print Assumptions C74_kinds.
Theorem C74_outcome : forall E utc c k K v, has_kind c k K ->
  exists r, taken E utc c K v r /\ forall r', taken E utc c K v r' -> r' = r.
Proof.
  exact (fun E utc c k K v H => match taken_total E utc c K v (ex_intro _ k H) with
    ex_intro _ r T => ex_intro _ r (conj T (fun r' T' => taken_one E utc c K v r' r T' T)) end).
Qed.
Print Assumptions C74_outcome.

(** The constructors: what an object is made of, and that nothing else stops them. *)
Theorem C74_new : forall E utc c b e d uid ds kw o, new E utc c b e d uid ds kw = Ok o -> made_from E utc c b e d uid ds kw o.
Proof. exact (fun E utc c b e d uid ds kw => proj1 (new_exact E utc c b e d uid ds kw)). Qed.
Print Assumptions C74_new.
Theorem C74_new_succeeds : forall E utc c b e d uid ds kw o, made_from E utc c b e d uid ds kw o ->
  exists o', new E utc c b e d uid ds kw = Ok o'.
Proof. exact (fun E utc c b e d uid ds kw => proj2 (new_exact E utc c b e d uid ds kw)). Qed.
Print Assumptions C74_new_succeeds.

Definition as_todo := new env_ex (TzObj 0) CTodo (VDt (mk_dt ref false (Some (TzObj 1)))) VNone VNone
  (VStr (py "u")) (VDt (mk_dt ref false (Some (TzObj 0)))) [(py "percent", VInt 30); (py "status", VStr (py "tentative"))].
Example C74_example : exists o, as_todo = Ok o /\ reachable env_ex (TzObj 0) o /\
  ~ In (py "percent") (special (o_cls o)) /\ In (py "due") (computed (o_cls o)) /\
  dict_get (py "status") (o_attrs o) = Some (VStr (py "TENTATIVE")) /\
  run env_ex (TzObj 0) (OSet (py "percent") (VInt 101)) o = (o, Err ValueError) /\
  run env_ex (TzObj 0) (OSet (py "status") (VInt 1)) o = (o, Err TypeError) /\
  run env_ex (TzObj 0) (OSet (py "due_representation") VNone) o = (o, Err AttributeError) /\
  snd (run env_ex (TzObj 0) (OSet (py "due") (VTuple [VInt 9999; VInt 1; VInt 1; VInt 0; VInt 0; VInt 0; VInt 0; VTz (TzObj 1)])) o) = Ok tt.
Proof.
  destruct as_todo as [o|] eqn:EO; [|vm_compute in EO; discriminate]. exists o. split; [reflexivity|]. split.
  { unfold as_todo in EO. do 7 eexists. exists o, []. split; [exact EO|]. split; [constructor|reflexivity]. }
  vm_compute in EO. injection EO as <-. split; [apply not_in; vm_compute; reflexivity|].
  split; [cbn [computed o_cls app In]; tauto|]. repeat split; vm_compute; reflexivity.
Qed.

(** Findings. A calendar entry whose attribute is free takes anything, also values that
    cannot be written: nothing checks summary, uid, description, location, url and
    transparent. *)
Theorem C74_unchecked_refuted : forall E utc o k v, reachable E utc o ->
  In k [py "summary"; py "uid"; py "description"; py "location"; py "url"] ->
  run E utc (OSet k v) o = (with_attr o k v, Ok tt).
Proof. exact free_assign. Qed.
Print Assumptions C74_unchecked_refuted.
(** A position that is neither a tuple nor a dict is dropped without notice. *)
Theorem C74_geo_refuted : forall E utc c a b, taken E utc c KGeo (VList [a; b]) (Ok VNone).
Proof. exact (fun E utc c a b => TK_geo_other E utc c (VList [a; b]) (fun H => H)). Qed.
Print Assumptions C74_geo_refuted.
(** A text given for a list is taken apart into letters. *)
Theorem C74_letters_refuted : forall E utc c s, taken E utc c KList (VStr s) (Ok (VList (map (fun x => VStr [x]) s))).
Proof. exact (fun E utc c s => TK_list E utc c (VStr s) _ (IO_str s)). Qed.
Print Assumptions C74_letters_refuted.
