(** * The parameters of persons *)
From Verif Require Import M_Base M_Codec M_Line M_Tree M_Comp M_Person S_People.
Lemma params_known r : Forall2 is_param (props r) (known_params (match r with RAttendee => true | ROrganizer => false end)).
Proof. destruct r; repeat constructor. Qed.
