(** * Worked examples for C53 and C54 *)
From Verif Require Import M_Base M_Line M_Tree M_Comp S_Comp S_Multi S_Reorder S_Toy S_Read P_Base P_Comp P_ReadAll.
Open Scope N_scope.

Definition C53_line (n : list N) (ps : list (list N * list N)) (v : list N) : item :=
  ILine (mk_line n (map (fun p => (fst p, [PRaw (snd p)])) ps) v).
Definition C53_alarm_items : list item :=
  [C53_line (py "ACTION") [] (py "DISPLAY"); C53_line (py "TRIGGER") [(py "X-P", py "1")] (py "-PT5M"); C53_line (py "X-Y") [] (py "1")].
Definition C53_items : list item := [
  C53_line (py "DTSTART") [(py "TZID", py "Z3"); (py "X-P", py "1")] (py "20200101T120000");
  C53_line (py "SUMMARY") [(py "LANGUAGE", py "en")] (py "a\, b");
  C53_line (py "DTEND") [(py "TZID", py "Z3")] (py "20200101T130000");
  C53_line (py "CATEGORIES") [(py "X-P", py "2")] (py "a\,b,c");
  C53_line (py "ATTENDEE") [(py "CN", py "Joe")] (py "mailto:joe,mailto:ann");
  C53_line (py "X-FOO") [] (py "bar");
  ICont (py "VALARM") C53_alarm_items].
Definition C53_calendar_items : list item := [
  C53_line (py "VERSION") [] (py "2.0"); ICont (py "VEVENT") C53_items; C53_line (py "PRODID") [] (py "p");
  ICont (py "VTIMEZONE") [line (py "TZID") (py "Z3")]].

Lemma read_alarm_example : exists x zs, load_alarm toy (py "VALARM") C53_alarm_items [] = Ok (x, zs) /\
  dict_get (py "trigger") (c_attrs x) = Some (AOne (VTd (-300000000)%Z)) /\ alarm_reads toy [] C53_alarm_items x.
Proof.
  assert (H : match load_alarm toy (py "VALARM") C53_alarm_items [] with
              | Ok (x, zs) => dict_get (py "trigger") (c_attrs x) = Some (AOne (VTd (-300000000)%Z)) | Err _ => False end) by (vm_compute; reflexivity).
  destruct (load_alarm toy (py "VALARM") C53_alarm_items []) as [[x zs]|] eqn:E; [|destruct H]. exists x, zs. split; [easy|]. split; [exact H|].
  now apply (proj1 (alarm_exact toy C53_alarm_items [] (py "VALARM"))) in E.
Qed.
Lemma read_entry_example : exists x zs, load_entry toy CEvent (py "VEVENT") C53_items [] = Ok (x, zs) /\
  dict_get (py "categories") (c_attrs x) = Some (AMany [VStr (py "a,b"); VStr (py "c")]) /\ entry_reads toy [] CEvent C53_items x.
Proof.
  assert (H : match load_entry toy CEvent (py "VEVENT") C53_items [] with
              | Ok (x, zs) => dict_get (py "categories") (c_attrs x) = Some (AMany [VStr (py "a,b"); VStr (py "c")]) | Err _ => False end) by (vm_compute; reflexivity).
  destruct (load_entry toy CEvent (py "VEVENT") C53_items []) as [[x zs]|] eqn:E; [|destruct H]. exists x, zs. split; [easy|]. split; [exact H|].
  now apply (proj1 (entry_exact toy CEvent C53_items [] (py "VEVENT") (or_introl eq_refl))) in E.
Qed.
Lemma read_calendar_example : exists x, load_calendar toy (py "VCALENDAR") C53_calendar_items = Ok x /\
  dict_get (py "prodid") (c_attrs x) = Some (AOne (VStr (py "p"))) /\ calendar_reads toy C53_calendar_items x.
Proof.
  assert (H : match load_calendar toy (py "VCALENDAR") C53_calendar_items with
              | Ok x => dict_get (py "prodid") (c_attrs x) = Some (AOne (VStr (py "p"))) | Err _ => False end) by (vm_compute; reflexivity).
  destruct (load_calendar toy (py "VCALENDAR") C53_calendar_items) as [x|] eqn:E; [|destruct H]. exists x. split; [easy|]. split; [exact H|].
  now apply (proj1 (calendar_exact toy C53_calendar_items (py "VCALENDAR"))) in E.
Qed.

(** Not everyone on a line has the parameters of the line. *)
Lemma shared_params_refuted : ~ (forall X its zs x zs1 l vs k v, load_entry X CEvent (py "VEVENT") its zs = Ok (x, zs1) ->
  lines (py "ATTENDEE") its = [l] -> dict_get (py "attendees") (c_attrs x) = Some (AMany vs) -> dict_get k (cl_params l) = Some v -> k <> py "VALUE" ->
  forall r e ps, In (VPerson r e ps) vs -> dict_get k ps = Some v).
Proof.
  intro H.
  assert (K : match load_entry toy CEvent (py "VEVENT") C53_items [] with
              | Ok (x, zs) => match dict_get (py "attendees") (c_attrs x) with
                              | Some (AMany [_; VPerson r e ps]) => dict_get (py "CN") ps = None | _ => False end | Err _ => False end) by (vm_compute; reflexivity).
  destruct (load_entry toy CEvent (py "VEVENT") C53_items []) as [[x zs]|] eqn:E; [|destruct K].
  destruct (dict_get (py "attendees") (c_attrs x)) as [[| |vs]|] eqn:EA; try contradiction K. destruct vs as [|v0 [|[] [|]]]; try contradiction K.
  specialize (H toy C53_items [] x zs _ _ (py "CN") _ E eq_refl EA eq_refl ltac:(discriminate) _ _ _ (or_intror (or_introl eq_refl))). congruence.
Qed.
Lemma read_examples : (exists x, alarm_reads toy [] C53_alarm_items x) /\ (exists x, entry_reads toy [] CEvent C53_items x) /\
  exists x, calendar_reads toy C53_calendar_items x.
Proof.
  destruct read_alarm_example as (x & zs & _ & _ & H), read_entry_example as (y & zs' & _ & _ & K), read_calendar_example as (z & _ & _ & L).
  split; [|split]; eauto.
Qed.
