(** * Time zone definitions that were read can be written and read again (C62) *)
From Verif Require Import M_Base M_Text M_Line M_Codec M_Cal M_Time M_Span M_Dt M_Fold M_Tree M_Comp M_Open M_Serial M_Rrule M_Vtz.
From Verif Require Import S_Fold S_Tree S_Comp S_Store S_Ref S_Wire S_Toy S_Vtz S_Again S_ZoneRead S_ZoneAgain.
From Verif Require Import P_StoreEx P_CalendarEx P_VtzEx P_AgainEx P_ZoneAgain P_ZoneAgainEx.
Open Scope N_scope.

(** ** C62. For any text a zone was read from: the zone can be written, and what is read from what was written is the same up
    to the starts of its rules; it is the same, recurrence sets included, if rules come with a DTSTART. *)
Theorem C62_text : forall X rule_parse date_parse hy resplit W nl txt0 n its z, utc_env X -> text_env X -> reads_dates date_parse -> rules_env rule_parse ->
  splitter resplit -> width_ok W -> string_to_containers txt0 = ([ICont n its], None) -> load_zone X rule_parse date_parse n its = Ok z -> keepable_zone X z ->
  exists it txt sub z', dump_zone X z = Ok it /\ item_serialize hy resplit W it nl = Ok txt /\
    string_to_containers txt = ([ICont (py "VTIMEZONE") sub], None) /\ load_zone X rule_parse date_parse (py "VTIMEZONE") sub = Ok z' /\
    zone_back z z' /\ (started its -> zone_kept z z').
Proof. intros X rule_parse date_parse hy resplit W nl txt0 n its z H1 H2 H3 H4. exact (zone_text_again X H1 H2 rule_parse date_parse H3 H4 hy resplit W nl txt0 n its z). Qed.
Print Assumptions C62_text.
(** The same if it was read from a container with lines that can be written. *)
Theorem C62_container : forall X rule_parse date_parse hy resplit W nl n its z, utc_env X -> text_env X -> reads_dates date_parse -> rules_env rule_parse ->
  splitter resplit -> width_ok W -> wf_item ok_line (ICont n its) -> load_zone X rule_parse date_parse n its = Ok z -> keepable_zone X z ->
  exists it txt sub z', dump_zone X z = Ok it /\ item_serialize hy resplit W it nl = Ok txt /\
    string_to_containers txt = ([ICont (py "VTIMEZONE") sub], None) /\ load_zone X rule_parse date_parse (py "VTIMEZONE") sub = Ok z' /\
    zone_back z z' /\ (started its -> zone_kept z z').
Proof. intros X rule_parse date_parse hy resplit W nl n its z H1 H2 H3 H4. exact (zone_again X H1 H2 rule_parse date_parse H3 H4 hy resplit W nl n its z). Qed.
Print Assumptions C62_container.
(** All rules of an observance with a DTSTART line start at the same date, and it is one of the dates. *)
Theorem C62_start : forall rule_parse date_parse its rs, rules_env rule_parse -> set_read rule_parse date_parse its rs ->
  (exists l, In (ILine l) its /\ cl_name l = py "DTSTART") ->
  exists d, In d (rs_dates rs) /\ forall r, In r (rs_rules rs ++ rs_exrules rs) -> r_start r = Some d.
Proof. intros rule_parse date_parse its rs H. exact (set_starts rule_parse date_parse H its rs). Qed.
Print Assumptions C62_start.
Example C62_example : utc_env toy /\ text_env toy /\ reads_dates vx_date /\ rules_env vx_rule /\ splitter id_split /\ width_ok (Some 75%nat) /\
  string_to_containers za_text = ([ICont (py "VTIMEZONE") za_items], None) /\ load_zone toy vx_rule vx_date (py "VTIMEZONE") za_items = Ok za_zone /\
  keepable_zone toy za_zone /\ started za_items.
Proof.
  split; [exact toy_utc|]. split; [exact toy_text_env|]. split; [exact vx_reads|]. split; [exact vx_rules_env|]. split; [exact id_splitter|]. split; [exact wide|].
  split; [apply za_read|]. split; [apply za_read|]. split; [exact za_keep|exact za_started].
Qed.

(** Offsets are read with two digits for hours and minutes each, and minutes can be more than 59: an offset of more than
    100 hours is read, and written with three digits, which cannot be read. *)
Theorem C62_offset_refuted : exists its z it txt sub, string_to_containers za_far = ([ICont (py "VTIMEZONE") its], None) /\ load_zone toy vx_rule vx_date (py "VTIMEZONE") its = Ok z /\ started its /\
  dump_zone toy z = Ok it /\ item_serialize true (fun t => [t]) (Some 75%nat) it true = Ok txt /\ string_to_containers txt = ([ICont (py "VTIMEZONE") sub], None) /\
  load_zone toy vx_rule vx_date (py "VTIMEZONE") sub = Err ValueError.
Proof. exact far_lost. Qed.
Print Assumptions C62_offset_refuted.
(** Without DTSTART lines the recurrence sets change: the start of a rule, which dateutil takes to be the current time,
    becomes a date. *)
Theorem C62_dates_refuted : rules_env now_rule /\ exists its z it txt sub z', string_to_containers za_bare = ([ICont (py "VTIMEZONE") its], None) /\ load_zone toy now_rule vx_date (py "VTIMEZONE") its = Ok z /\ keepable_zone toy z /\
  dump_zone toy z = Ok it /\ item_serialize true (fun t => [t]) (Some 75%nat) it true = Ok txt /\ string_to_containers txt = ([ICont (py "VTIMEZONE") sub], None) /\
  load_zone toy now_rule vx_date (py "VTIMEZONE") sub = Ok z' /\ map (fun o => rs_dates (o_rules o)) (t_obs z) = [[vx_extra; vx_summer]] /\ map (fun o => rs_dates (o_rules o)) (t_obs z') = [[vx_extra; vx_summer; vx_winter]].
Proof. exact (conj now_rules_env bare_changed). Qed.
Print Assumptions C62_dates_refuted.
