(** * Worked examples for C77 *)
From Verif Require Import M_Base P_Base M_Codec M_Cal M_Time M_Span S_Span M_Dt M_Empty S_Empty P_Empty.
Open Scope Z_scope.

(** Every zone has the name Paris; zone 0 is UTC. *)
Definition me_db : zone_db :=
  mk_zdb (fun z => match z with TzObj 0%N => true | _ => false end) (fun z => Ok (Some (py "Paris", z)))
    (fun _ => Err ValueError) (fun _ => None) (TzObj 0).
Definition me_time : datetime := mk_dt (mk_wall 2020 2 29 12 30 15 0) false (Some (TzObj 1)).
Definition me_end : datetime := mk_dt (mk_wall 2020 2 29 13 30 15 0) false (Some (TzObj 0)).
Lemma zone_example :
  clock_dropped me_db true fmt_datetime me_time (Some []) (Ok (py "20200229T123015", MEmpty, Some [(py "Paris", TzObj 1)])) /\
  clock_dropped me_db true fmt_datetime me_time None (Err AttributeError) /\
  parse_dt_m me_db FDatetime (py "20200229T123015") MEmpty None = Ok (mk_dt (wall me_time) false None, MEmpty, None).
Proof. split; [|split]; [apply serialize_empty | apply serialize_empty |]; vm_compute; reflexivity. Qed.
(** With a begin in Paris and an end in UTC the period is written, though the parameters
    of the two differ: an ordinary dict of parameters has it refused. *)
Definition me_span : timespan := mk_ts KBase (Some me_time) (Some me_end) None PSecond.
Lemma period_example :
  period_dropped me_db env_ex me_span (Some []) (Ok (py "20200229T123015/20200229T133015Z", MEmpty, Some [(py "Paris", TzObj 1)])) /\
  period_serialize me_db env_ex me_span [] (Some []) = Err ValueError /\
  period_dropped me_db env_ex (mk_ts KBase (Some me_time) (Some me_time) None PSecond) (Some []) (Err ValueError).
Proof. split; [|split]; [apply period_empty | | apply period_empty]; vm_compute; reflexivity. Qed.
Lemma zone_lost : ~ forall D d zs s m zs' d' m' zs'', serialize_dt_m D d MEmpty zs = Ok (s, m, zs') ->
  parse_dt_m D FDatetime s m zs' = Ok (d', m', zs'') -> dtz d' = dtz d.
Proof.
  intros H. specialize (H me_db me_time (Some []) (py "20200229T123015") MEmpty (Some [(py "Paris", TzObj 1)])
    (mk_dt (wall me_time) false None) MEmpty (Some [(py "Paris", TzObj 1)])).
  assert (X : dtz (mk_dt (wall me_time) false None) = dtz me_time) by (apply H; vm_compute; reflexivity). discriminate X.
Qed.
Lemma no_mapping : ~ forall (k : list N) (d : N) (m : mapping N),
  (m_contains N k m = Ok true -> exists v, In (k, v) (m_items N m)) /\
  (m_items N m = [] -> m_get N k (Some d) m = Ok (Some d)).
Proof. intros H. destruct (H (py "A") 1%N MEmpty) as [H1 _]. destruct (H1 eq_refl) as [v []]. Qed.
