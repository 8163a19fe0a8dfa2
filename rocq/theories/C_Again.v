(** * C59: what was read can be written, and reading it again gives the same *)
From Verif Require Import M_Base M_Text M_Line M_Codec M_Cal M_Time M_Span M_Dt M_Fold M_Tree M_Comp M_Open M_Serial.
From Verif Require Import S_Fold S_Tree S_Comp S_Store S_Ref S_Wire S_Toy S_Again P_StoreEx P_Again4 P_AgainEx.
Open Scope N_scope.

(** For any text that could be read: the result can be written, and what is read from what
    was written is equal to it, if it is [keepable] and its zones can be written. *)
Theorem C59_text : forall X hy resplit W txt c, utc_env X -> text_env X -> splitter resplit -> width_ok W ->
  read_calendar X (FromStr txt) = Ok c -> keepable_calendar X c -> zones_stored X c -> wire_ids X c ->
  exists txt' d, calendar_serialize X hy resplit W c = Ok txt' /\ read_calendar X (FromStr txt') = Ok d /\ equal_calendar X c d.
Proof. intros X hy resplit W txt c H1 H2 H3 H4. exact (text_again X hy resplit W H1 H2 H3 H4 txt c). Qed.
Print Assumptions C59_text.
(** The same if it was read from lines, of a file for example. *)
Theorem C59_lines : forall X hy resplit W ls c, utc_env X -> text_env X -> splitter resplit -> width_ok W ->
  read_calendar X (FromLines ls) = Ok c -> keepable_calendar X c -> zones_stored X c -> wire_ids X c ->
  exists txt' d, calendar_serialize X hy resplit W c = Ok txt' /\ read_calendar X (FromStr txt') = Ok d /\ equal_calendar X c d.
Proof. intros X hy resplit W ls c H1 H2 H3 H4. exact (lines_again X hy resplit W H1 H2 H3 H4 ls c). Qed.
Print Assumptions C59_lines.
(** The same if it was read from a container with lines that can be written. *)
Theorem C59_container : forall X hy resplit W n its c, utc_env X -> text_env X -> splitter resplit -> width_ok W ->
  wf_item ok_line (ICont n its) -> load_calendar X n its = Ok c -> keepable_calendar X c -> zones_stored X c -> wire_ids X c ->
  exists txt' d, calendar_serialize X hy resplit W c = Ok txt' /\ read_calendar X (FromStr txt') = Ok d /\ equal_calendar X c d.
Proof. intros X hy resplit W n its c H1 H2 H3 H4. exact (container_again X hy resplit W H1 H2 H3 H4 n its c). Qed.
Print Assumptions C59_container.
(** Every container read from lines has only lines that can be written. *)
Theorem C59_written_lines : forall ls its n sub, lines_to_containers ls = (its, None) -> In (ICont n sub) its -> wf_item ok_line (ICont n sub).
Proof. exact lines_wf. Qed.
Print Assumptions C59_written_lines.
Example C59_example : utc_env toy /\ text_env toy /\ splitter id_split /\ width_ok (Some 75%nat) /\
  read_calendar toy (FromStr again_text) = Ok again_calendar /\ keepable_calendar toy again_calendar /\
  zones_stored toy again_calendar /\ wire_ids toy again_calendar.
Proof.
  split; [exact toy_utc|]. split; [exact toy_text_env|]. split; [exact id_splitter|]. split; [exact wide|]. split; [exact again_read|].
  split; [exact again_keep|]. split; [exact again_zones|exact again_ids].
Qed.

(** Without [keepable] this is false. What was read cannot always be written: two persons
    on one ATTENDEE line. *)
Theorem C59_write_refuted : ~ (forall X hy resplit W txt c, utc_env X -> text_env X -> splitter resplit -> width_ok W ->
  read_calendar X (FromStr txt) = Ok c -> zones_stored X c -> wire_ids X c -> exists txt', calendar_serialize X hy resplit W c = Ok txt').
Proof. exact write_refuted. Qed.
Print Assumptions C59_write_refuted.
(** What is written cannot always be read: an alarm whose action is not a standard one; a
    date in a year before 1000. *)
Theorem C59_reread_refuted : forall txt c, txt = custom_alarm /\ c = custom_cal \/ txt = early_date /\ c = early_cal ->
  read_calendar toy (FromStr txt) = Ok c /\ zones_stored toy c /\ wire_ids toy c /\
  exists t, calendar_serialize toy true id_split (Some 75%nat) c = Ok t /\ read_calendar toy (FromStr t) = Err ValueError.
Proof. exact reread_refuted. Qed.
Print Assumptions C59_reread_refuted.
(** What is read again can differ: the parameters of DTEND are lost. *)
Theorem C59_end_refuted : read_calendar toy (FromStr end_params) = Ok end_cal /\ zones_stored toy end_cal /\ wire_ids toy end_cal /\
  exists t d, calendar_serialize toy true id_split (Some 75%nat) end_cal = Ok t /\ read_calendar toy (FromStr t) = Ok d /\ ~ equal_calendar toy end_cal d.
Proof. exact params_lost. Qed.
Print Assumptions C59_end_refuted.
