(** * A fraction that is rounded away *)
From Verif Require Import M_Base P_Base M_Codec M_Float M_Seconds.
Open Scope Z_scope.
Definition late : Z := 2 ^ 46 * US_SEC + 999999.
Lemma late_td : TD_MIN <= late <= TD_MAX.
Proof. split; vm_compute; discriminate. Qed.
Lemma late_text : str_eqb (offset_text late) (utcoffset_serialize late) = false.
Proof. vm_compute. reflexivity. Qed.
Lemma late_total : (duration_total late =? Z.abs late / 1000000) = false.
Proof. vm_compute. reflexivity. Qed.
Lemma rounded_up : ~ forall us, TD_MIN <= us <= TD_MAX -> offset_text us = utcoffset_serialize us.
Proof. intros H. pose proof late_text as Q. rewrite (H late late_td), str_eqb_refl in Q. discriminate. Qed.
Lemma duration_up : ~ forall us, TD_MIN <= us <= TD_MAX -> duration_total us = Z.abs us / 1000000.
Proof. intros H. pose proof late_total as Q. rewrite (H late late_td), Z.eqb_refl in Q. discriminate. Qed.
