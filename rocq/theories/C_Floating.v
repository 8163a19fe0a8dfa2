(** * Property C39: which spans are floating *)
From Verif Require Import M_Base M_Codec M_Cal M_Time M_Span S_Span P_Floating.
Open Scope Z_scope.

(** C39. The spans that are normalised as floating are those without a zone at either end. *)
Theorem C39_floating : forall E t, validate E t = Ok tt ->
  (is_floating t = true <-> forall d, ts_begin t = Some d \/ ts_end t = Some d -> dtz d = None).
Proof. exact floating_exact. Qed.
Print Assumptions C39_floating.
Example C39_floating_example : forall E, validate E (mk_ts KTodo None None None PSecond) = Ok tt.
Proof. intros E. reflexivity. Qed.
Theorem C39_all_day : forall t, is_all_day t = true <-> ts_prec t = PDay.
Proof. exact all_day_exact. Qed.
Print Assumptions C39_all_day.
