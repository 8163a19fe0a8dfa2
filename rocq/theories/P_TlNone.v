(** * Proofs about timelines asked for no instant *)
From Verif Require Import M_Base P_Base M_Codec M_Cal P_Cal M_Time M_Span S_Span P_Span M_Event M_Cmp S_Cmp P_Cmp M_CmpObj P_CmpObj M_Heap P_Heap M_Timeline S_Timeline P_Timeline.
Open Scope Z_scope.
Lemma asks_nothing E N v : ensure_datetime v = Ok None -> tl_datetime E N v = Ok None.
Proof. intros H. unfold tl_datetime. rewrite H. cbn [bind]. now destruct N. Qed.
Lemma at_none E P N events r v : good_local E -> tl_iterator E N events = (r, None) -> timed E P r ->
  ensure_datetime v = Ok None ->
  tl_at E N events v = match r with [] => ([], None) | _ => ([], Some AttributeError) end.
Proof.
  intros GL HR TD HV. unfold tl_at. rewrite (asks_nothing E N v HV), HR. cbn [gstart]. unfold gmap, gfilter. cbn [fst snd].
  destruct r as [|p r]; [reflexivity|]. cbn [gfilter_list]. destruct (TD p (or_introl eq_refl)) as (_ & B & M & HI).
  destruct (tuple_ok E P (fst p) B M GL HI) as (q & ->). reflexivity.
Qed.
Lemma start_after_none E P N events r v : tl_iterator E N events = (r, None) -> timed E P r -> ensure_datetime v = Ok None ->
  tl_start_after E N events v = match r with [] => ([], None) | _ => ([], Some TypeError) end.
Proof.
  intros HR TD HV. unfold tl_start_after. rewrite (asks_nothing E N v HV), HR. cbn [gstart]. unfold gmap, gfilter. cbn [fst snd].
  destruct r as [|p r]; [reflexivity|]. cbn [gfilter_list]. destruct (TD p (or_introl eq_refl)) as (_ & B & M & (b & e & (_ & HB & _) & _)).
  rewrite HB. reflexivity.
Qed.
Lemma on_none E N events v strict : ensure_datetime v = Ok None -> tl_on E N events v strict = Err TypeError.
Proof. intros H. unfold tl_on, tl_day. rewrite H. reflexivity. Qed.
