(** * Proofs about floating and all-day spans, and calls without an instant *)
From Verif Require Import M_Base P_Base M_Codec M_Cal P_Cal M_Time M_Span S_Span P_Span M_Norm P_Norm.
Open Scope Z_scope.
Lemma floating_exact E t : validate E t = Ok tt ->
  (is_floating t = true <-> forall d, ts_begin t = Some d \/ ts_end t = Some d -> dtz d = None).
Proof.
  intros HV. destruct (valid_floating E t HV) as (HB & HE). split.
  - intros HF d [H|H]; [specialize (HB d H)|specialize (HE d H)]; unfold naive in *; destruct (dtz d); congruence.
  - intros H. unfold is_floating. destruct (ts_begin t) as [b|] eqn:B; [unfold naive; now rewrite (H b (or_introl eq_refl))|].
    destruct (ts_end t) as [e|]; [unfold naive; now rewrite (H e (or_intror eq_refl))|reflexivity].
Qed.
Lemma all_day_exact t : is_all_day t = true <-> ts_prec t = PDay.
Proof. unfold is_all_day. destruct (ts_prec t); split; intros H; try reflexivity; discriminate H. Qed.
