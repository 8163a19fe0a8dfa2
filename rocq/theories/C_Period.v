(** * Property C47, continued: exactly what is read as a period *)
From Verif Require Import M_Base M_Codec M_Cal M_Time M_Span M_Dt S_Dt S_Period P_Period.
Open Scope Z_scope.

(** Only days are read, never times (the finding of C47); a duration or a further day
    follows. Without TZID the parameters and the known zones stay as they are. *)
Theorem C47_period : forall D E n, z_utc D = TzObj n -> forall v ps zs r, dict_get (py "TZID") ps = None ->
  period_gives D v r -> period_parse D E v ps zs = match r with Ok t => Ok (t, ps, zs) | Err e => Err e end.
Proof. exact period_exact. Qed.
Print Assumptions C47_period.
Theorem C47_period_total : forall D v, exists r, period_gives D v r.
Proof. exact period_total. Qed.
Print Assumptions C47_period_total.
Example C47_example_period D E n : z_utc D = TzObj n ->
  period_parse D E (py "20200229/20200301") [] None =
    Ok (mk_ts KBase (Some (mk_dt (mk_wall 2020 2 29 0 0 0 0) false None)) (Some (mk_dt (mk_wall 2020 3 1 0 0 0 0) false None)) None PSecond, [], None) /\
  period_parse D E (py "20200229") [] None = Err ValueError /\
  period_parse D E (py "20200229/") [] None = Err IndexError /\
  period_parse D E (py "20200229/20200301Z") [] None = Err TypeError /\
  period_parse D E (py "20200229/20200228") [] None = Err ValueError.
Proof. intros H. destruct D as [f1 f2 f3 f4 u]. cbn in H. subst u. repeat split; vm_compute; reflexivity. Qed.
