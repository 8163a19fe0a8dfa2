(** * C39: normalising timezones *)
From Verif Require Import M_Base P_Base M_Codec M_Cal M_Time M_Span S_Span P_Span M_Cmp M_Event S_Event P_Event M_Norm S_Norm P_Norm.
Open Scope Z_scope.

(** ** Datetimes *)
Theorem C39_unselected : forall E N d, selected N (naive d) = AIgnore -> normalize_dt E N d = Ok d.
Proof. exact norm_ignore. Qed.
Print Assumptions C39_unselected.
Theorem C39_replace : forall E N d, selected N (naive d) = AReplace ->
  exists d', normalize_dt E N d = Ok d' /\ kept_wall (nm_repl N) d d'.
Proof. exact norm_replace. Qed.
Print Assumptions C39_replace.
Theorem C39_convert : forall E N d d', selected N (naive d) = AConvert -> repl_ok E N ->
  normalize_dt E N d = Ok d' -> kept_instant E (nm_repl N) d d'.
Proof. exact norm_convert. Qed.
Print Assumptions C39_convert.
Theorem C39_idempotent : forall E N d d', repl_ok E N -> ~ mixed_none N ->
  normalize_dt E N d = Ok d' -> normalize_dt E N d' = Ok d'.
Proof. exact norm_idem. Qed.
Print Assumptions C39_idempotent.
(** ** Valid spans *)
Theorem C39_span : forall E N t t', validate E t = Ok tt -> repl_ok E N -> normalize_span E N t = Ok t' ->
  normalized E N t t' /\ validate E t' = Ok tt.
Proof. exact span_normalized. Qed.
Print Assumptions C39_span.
Theorem C39_span_idempotent : forall E N t t', validate E t = Ok tt -> repl_ok E N -> ~ mixed_none N ->
  normalize_span E N t = Ok t' -> normalize_span E N t' = Ok t'.
Proof. exact span_idem. Qed.
Print Assumptions C39_span_idempotent.
(** ** Calendars: same number, same order, every entry normalised. *)
Theorem C39_calendar : forall E utc N ev td ev' td', repl_ok E N ->
  Forall (reachable E utc) ev -> Forall (reachable E utc) td ->
  normalize_calendar E utc N ev td = ((ev', td'), Ok tt) ->
  Forall2 (entry_normalized E N) ev ev' /\ Forall2 (entry_normalized E N) td td'.
Proof. exact calendar_normalized. Qed.
Print Assumptions C39_calendar.
Theorem C39_calendar_idempotent : forall E utc N ev td ev' td', repl_ok E N -> ~ mixed_none N ->
  Forall (reachable E utc) ev -> Forall (reachable E utc) td ->
  normalize_calendar E utc N ev td = ((ev', td'), Ok tt) ->
  normalize_calendar E utc N ev' td' = ((ev', td'), Ok tt).
Proof. exact calendar_idem. Qed.
Print Assumptions C39_calendar_idempotent.

Definition nx_utc := TzObj 0.
Definition nx_ev (w : Z) (z : option tz) := new env_ex nx_utc CEvent (VDt (mk_dt w false z)) VNone VNone
  (VStr (py "u")) (VDt (mk_dt ref false (Some nx_utc))) [].
Definition nx_obj (w : Z) (z : option tz) : obj := match nx_ev w z with Ok o => o | Err _ => mk_obj CEvent [] end.
Definition nx_setting := mk_norm (Some (TzObj 0)) AReplace AConvert.
Lemma nx_reachable : reachable env_ex nx_utc (nx_obj (ref + hour) (Some (TzObj 1))).
Proof.
  exists CEvent, (VDt (mk_dt (ref + hour) false (Some (TzObj 1)))), VNone, VNone, (VStr (py "u")),
    (VDt (mk_dt ref false (Some nx_utc))), [], (nx_obj (ref + hour) (Some (TzObj 1))), [].
  split; [vm_compute; reflexivity|split; [constructor|reflexivity]].
Qed.
Example C39_example : repl_ok env_ex nx_setting /\ ~ mixed_none nx_setting /\
  normalize_dt env_ex nx_setting (mk_dt (ref + hour) false (Some (TzObj 1))) = Ok (mk_dt (ref - hour) false (Some (TzObj 0))) /\
  normalize_dt env_ex nx_setting (mk_dt (ref + hour) false None) = Ok (mk_dt (ref + hour) false (Some (TzObj 0))) /\
  Forall (reachable env_ex nx_utc) [nx_obj (ref + hour) (Some (TzObj 1))] /\
  snd (normalize_calendar env_ex nx_utc nx_setting [nx_obj (ref + hour) (Some (TzObj 1))] []) = Ok tt.
Proof.
  split; [intros u; cbn; apply Z.sub_0_r|]. split; [intros [H _]; discriminate H|].
  split; [vm_compute; reflexivity|]. split; [vm_compute; reflexivity|].
  split; [constructor; [exact nx_reachable|constructor]|]. vm_compute. reflexivity.
Qed.

(** Findings. With replacement None, CONVERT does not strip the timezone (as the
    docstring, timespan.py:50-58, says) but yields a value in a fixed local offset ... *)
Theorem C39_strip_refuted : forall E N d d', nm_repl N = None -> selected N (naive d) = AConvert ->
  normalize_dt E N d = Ok d' -> dtz d' <> None.
Proof. exact (fun E N d d' HN HS H => convert_none E N d d' HN HS H). Qed.
Print Assumptions C39_strip_refuted.
(** ... hence converting floating values and replacing the others alternates. *)
Definition nx_mixed := mk_norm None AConvert AReplace.
Theorem C39_idempotent_refuted : exists E N d d', repl_ok E N /\
  normalize_dt E N d = Ok d' /\ normalize_dt E N d' <> Ok d'.
Proof.
  exists env_ex, nx_mixed, (mk_dt ref false (Some (TzObj 0))), (mk_dt ref false None).
  split; [exact I|]. split; [vm_compute; reflexivity|]. vm_compute. discriminate.
Qed.
Print Assumptions C39_idempotent_refuted.
(** A selected all-day span raises, while a calendar passes over its all-day entries. *)
Theorem C39_all_day_refuted : forall E N t, selected N (is_floating t) <> AIgnore -> is_all_day t = true ->
  normalize_span E N t = Err ValueError.
Proof. exact span_all_day. Qed.
Print Assumptions C39_all_day_refuted.
(** An exception on one entry of a calendar leaves the earlier ones changed. *)
Theorem C39_atomic_refuted : exists E utc N ev ev', normalize_calendar E utc N ev [] = ((ev', []), Err OverflowError) /\ ev' <> ev.
Proof.
  exists env_ex, nx_utc, (mk_norm (Some (TzObj 2)) AIgnore AConvert),
    [nx_obj (ref + hour) (Some (TzObj 1)); nx_obj 0 (Some (TzObj 0))],
    (fst (fst (normalize_calendar env_ex nx_utc (mk_norm (Some (TzObj 2)) AIgnore AConvert)
       [nx_obj (ref + hour) (Some (TzObj 1)); nx_obj 0 (Some (TzObj 0))] []))).
  split; [vm_compute; reflexivity|]. vm_compute. discriminate.
Qed.
Print Assumptions C39_atomic_refuted.
