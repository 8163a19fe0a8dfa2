(** * Property C17: the mark of complete objects *)
From Verif Require Import M_Base M_Codec M_Cal M_Time M_Span S_Span M_Event S_Event S_Mark P_Mark.
Open Scope Z_scope.

(** C17. Storing a value that counts as false in the mark switches the checks off: any span is
    stored. With any other value the next assignment does what it did before. *)
Theorem C17_mark : forall E utc o m v o1, reachable E utc o -> o1 = fst (run E utc (OSet (py "__post_init__") m) o) ->
  (falsy m -> exists o2, run E utc (OSet (py "timespan") v) o1 = (o2, Ok tt) /\ dict_get (py "timespan") (o_attrs o2) = Some v) /\
  (~ falsy m -> snd (run E utc (OSet (py "timespan") v) o1) = snd (run E utc (OSet (py "timespan") v) o) /\
    dict_get (py "timespan") (o_attrs (fst (run E utc (OSet (py "timespan") v) o1))) =
    dict_get (py "timespan") (o_attrs (fst (run E utc (OSet (py "timespan") v) o)))).
Proof. exact mark_exact. Qed.
Print Assumptions C17_mark.
Example C17_mark_example : falsy (VTd 0) /\ ~ falsy (VTd 1).
Proof. split; [constructor|]. intros H. inversion H. Qed.
