(** * C67: equal calendars and entries are written alike *)
From Verif Require Import M_Base M_Text M_Line M_Codec M_Cal M_Time M_Span M_Dt M_Fold M_Tree M_Comp M_Open M_Serial.
From Verif Require Import S_Line S_Fold S_Tree S_Comp S_Store S_Ref S_Wire S_Again S_Toy S_Same.
From Verif Require Import P_StoreEx P_CalendarEx P_AgainEx P_Same P_Same2 P_SameEx.
Open Scope N_scope.

(** Equal calendars become equal containers, or fail in the same way. *)
Theorem C67_calendar : forall X c d, equal_calendar X c d -> alike item_eq (dump_calendar X c) (dump_calendar X d).
Proof. exact calendar_same. Qed.
Print Assumptions C67_calendar.
(** So do equal events and todos; they use the same zones. *)
Theorem C67_entry : forall X x y zs, equal_entry X x y ->
  alike (fun a b => item_eq (fst a) (fst b) /\ snd a = snd b) (dump_entry X x zs) (dump_entry X y zs).
Proof. exact entry_same. Qed.
Print Assumptions C67_entry.
(** And equal alarms. *)
Theorem C67_alarm : forall X x y zs, equal_alarm X x y ->
  alike (fun a b => item_eq (fst a) (fst b) /\ snd a = snd b) (dump_alarm X x zs) (dump_alarm X y zs).
Proof. exact alarm_same. Qed.
Print Assumptions C67_alarm.
Example C67_calendar_example : equal_calendar toy again_calendar quoted_calendar /\ again_calendar <> quoted_calendar.
Proof. split; [exact quoted_equal|]. intro H. apply (f_equal (fun c => c_params c)) in H. vm_compute in H. discriminate H. Qed.
(** The texts are the same if parameter values are only quoted where they have to be. *)
Theorem C67_text : forall X hy resplit W c d it it', equal_calendar X c d -> dump_calendar X c = Ok it -> dump_calendar X d = Ok it' -> tight it -> tight it' ->
  calendar_serialize X hy resplit W c = calendar_serialize X hy resplit W d.
Proof. exact text_same. Qed.
Print Assumptions C67_text.
Example C67_text_example : equal_calendar toy again_calendar again_calendar /\ dump_calendar toy again_calendar = Ok again_item /\ tight again_item.
Proof. split; [apply comp_refl, entry_refl|]. split; [exact again_item_is|exact again_tight]. Qed.
(** Otherwise they can differ. *)
Theorem C67_quotes_refuted : exists c d t u, equal_calendar toy c d /\ calendar_serialize toy true id_split (Some 75%nat) c = Ok t /\
  calendar_serialize toy true id_split (Some 75%nat) d = Ok u /\ t <> u.
Proof. exact quotes_refuted. Qed.
Print Assumptions C67_quotes_refuted.
(** Writing a calendar that was read is stable: what is read from its text is written as
    an equal container, and as the same text if there are no needless quotes. *)
Theorem C67_stable : forall X hy resplit W, utc_env X -> text_env X -> splitter resplit -> width_ok W -> forall txt c,
  read_calendar X (FromStr txt) = Ok c -> keepable_calendar X c -> zones_stored X c -> wire_ids X c ->
  exists txt' d it it', calendar_serialize X hy resplit W c = Ok txt' /\ read_calendar X (FromStr txt') = Ok d /\
    dump_calendar X c = Ok it /\ dump_calendar X d = Ok it' /\ item_eq it it' /\
    (tight it -> tight it' -> calendar_serialize X hy resplit W d = Ok txt').
Proof. exact stable_text. Qed.
Print Assumptions C67_stable.
Example C67_stable_example : utc_env toy /\ text_env toy /\ splitter id_split /\ width_ok (Some 75%nat) /\
  read_calendar toy (FromStr again_text) = Ok again_calendar /\ keepable_calendar toy again_calendar /\
  zones_stored toy again_calendar /\ wire_ids toy again_calendar /\
  exists t d it', calendar_serialize toy true id_split (Some 75%nat) again_calendar = Ok t /\ read_calendar toy (FromStr t) = Ok d /\
    dump_calendar toy d = Ok it' /\ tight it' /\ calendar_serialize toy true id_split (Some 75%nat) d = Ok t.
Proof.
  split; [exact toy_utc|]. split; [exact toy_text_env|]. split; [exact id_splitter|]. split; [exact wide|]. split; [exact again_read|].
  split; [exact again_keep|]. split; [exact again_zones|]. split; [exact again_ids|]. eexists. eexists. eexists. split; [vm_compute; reflexivity|]. split; [vm_compute; reflexivity|].
  split; [vm_compute; reflexivity|]. split; [apply tightb_ok; vm_compute; reflexivity|vm_compute; reflexivity].
Qed.
