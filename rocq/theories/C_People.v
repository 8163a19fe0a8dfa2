(** * Property C42: the parameters of organizers and attendees *)
From Verif Require Import M_Base M_Codec M_Line M_Tree M_Comp M_Person S_People P_People.

(** C42. The attributes are those of RFC 5545, with their types and defaults; only members
    and delegations have several values. *)
Theorem C42_parameters : forall r,
  Forall2 is_param (props r) (known_params (match r with RAttendee => true | ROrganizer => false end)).
Proof. exact params_known. Qed.
Print Assumptions C42_parameters.
