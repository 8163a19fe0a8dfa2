(** * Property C77: converters called without parameters or context *)
From Verif Require Import M_Base M_Codec M_Cal M_Time M_Span S_Span M_Dt M_Empty S_Empty P_Empty P_EmptyEx.
Open Scope Z_scope.

(** C77. However it is used, [EmptyDict] stays as it is: it has every key with the value
    None (never a default), takes nothing and has no items. *)
Theorem C77_empty : forall V (os : list (mop V)), m_run V os MEmpty = (map empty_answer os, MEmpty).
Proof. exact @run_empty. Qed.
Print Assumptions C77_empty.
(** A dict of parameters does what a dict does. *)
Theorem C77_dict : forall V (d : dict V) (o : mop V), NoDup (keys d) -> exists r, dict_does d o r /\
  m_do V o (MDict d) = match r with Ok (a, d') => Ok (a, MDict d') | Err e => Err e end.
Proof. exact @do_dict. Qed.
Print Assumptions C77_dict.
Example C77_dict_example : NoDup (keys [(py "A", 1%N)]).
Proof. repeat constructor. easy. Qed.
(** Finding: it is no mapping, as it has keys that are not among its items. *)
Theorem C77_mapping_refuted : ~ forall (k : list N) (d : N) (m : mapping N),
  (m_contains N k m = Ok true -> exists v, In (k, v) (m_items N m)) /\
  (m_items N m = [] -> m_get N k (Some d) m = Ok (Some d)).
Proof. exact no_mapping. Qed.
Print Assumptions C77_mapping_refuted.

(** C77. With a dict of parameters the converters are those of C12, C16 and C47. *)
Theorem C77_with_dict : forall D E d t F v ps zs,
  serialize_dt_m D d (MDict ps) zs = in_dict (serialize_dt D d ps zs) /\
  time_serialize_m D d (MDict ps) zs = in_dict (time_serialize D d ps zs) /\
  parse_dt_m D F v (MDict ps) zs = in_dict (parse_dt D F v ps zs) /\
  period_parse_m D E v (MDict ps) zs = in_dict (period_parse D E v ps zs) /\
  period_serialize_m D E t (MDict ps) zs = in_dict (period_serialize D E t ps zs).
Proof.
  exact (fun D E d t F v ps zs => conj (serialize_dict D d ps zs) (conj (time_dict D d ps zs) (conj (parse_dict D F v ps zs)
    (conj (period_parse_dict D E v ps zs) (period_serialize_dict D E t ps zs))))).
Qed.
Print Assumptions C77_with_dict.

(** C77. Without parameters a zone is not told, and without a context a named zone fails. *)
Theorem C77_serialize : forall D d zs r, clock_dropped D true fmt_datetime d zs r <-> serialize_dt_m D d MEmpty zs = r.
Proof. exact serialize_empty. Qed.
Print Assumptions C77_serialize.
Theorem C77_time : forall D d zs r, clock_dropped D false (fun w => fmt_time (fields_of w)) d zs r <-> time_serialize_m D d MEmpty zs = r.
Proof. exact time_empty. Qed.
Print Assumptions C77_time.
(** C77. Reading without parameters never gives a zone but UTC. *)
Theorem C77_parse : forall D F v zs, parse_dt_m D F v MEmpty zs = read_plain D F v zs.
Proof. exact parse_empty. Qed.
Print Assumptions C77_parse.
Example C77_zone_example :
  clock_dropped me_db true fmt_datetime me_time (Some []) (Ok (py "20200229T123015", MEmpty, Some [(py "Paris", TzObj 1)])) /\
  clock_dropped me_db true fmt_datetime me_time None (Err AttributeError) /\
  parse_dt_m me_db FDatetime (py "20200229T123015") MEmpty None = Ok (mk_dt (wall me_time) false None, MEmpty, None).
Proof. exact zone_example. Qed.
(** Finding: what is written without parameters is read back without its zone. *)
Theorem C77_zone_refuted : ~ forall D d zs s m zs' d' m' zs'', serialize_dt_m D d MEmpty zs = Ok (s, m, zs') ->
  parse_dt_m D FDatetime s m zs' = Ok (d', m', zs'') -> dtz d' = dtz d.
Proof. exact zone_lost. Qed.
Print Assumptions C77_zone_refuted.

(** C77. Periods: the end must not have a zone with a name; the begin may, and loses it. *)
Theorem C77_period_parse : forall D E v zs, period_parse_m D E v MEmpty zs =
  match period_parse D E v [] zs with Ok (t, _, z) => Ok (t, MEmpty, z) | Err e => Err e end.
Proof. exact period_parse_empty. Qed.
Print Assumptions C77_period_parse.
Theorem C77_period : forall D E t zs r, period_dropped D E t zs r <-> period_serialize_m D E t MEmpty zs = r.
Proof. exact period_empty. Qed.
Print Assumptions C77_period.
Example C77_period_example :
  period_dropped me_db env_ex me_span (Some []) (Ok (py "20200229T123015/20200229T133015Z", MEmpty, Some [(py "Paris", TzObj 1)])) /\
  period_serialize me_db env_ex me_span [] (Some []) = Err ValueError /\
  period_dropped me_db env_ex (mk_ts KBase (Some me_time) (Some me_time) None PSecond) (Some []) (Err ValueError).
Proof. exact period_example. Qed.

(** C77. Persons: extra parameters are read from and written to a dict only. *)
Theorem C77_person : forall v email extra ps,
  person_parse_m v MEmpty = (v, [], MEmpty) /\ person_serialize_m email extra MEmpty = (email, MEmpty) /\
  person_parse_m v (MDict ps) = (v, ps, MDict []) /\ person_serialize_m email extra (MDict ps) = (email, MDict (dict_update ps extra)).
Proof.
  exact (fun v email extra ps => conj (proj1 (person_empty v email extra)) (conj (proj2 (person_empty v email extra)) (person_dict v email extra ps))).
Qed.
Print Assumptions C77_person.
