(** * Reading time zone definitions (C61) *)
From Verif Require Import M_Base M_Text M_Line M_Codec M_Cal M_Time M_Span M_Dt M_Fold M_Tree M_Comp M_Rrule M_Vtz.
From Verif Require Import S_Text S_Codec S_Dt S_Comp S_Multi S_Read S_Vtz S_ZoneRead S_Toy.
From Verif Require Import P_Base P_VtzEx P_ZoneRead P_ZoneRead2 P_ZoneRead3.
Open Scope N_scope.

(** ** C61. Recurrence sets: what is read is what the lines say, and what the lines say is read. *)
Theorem C61_set : forall rule_parse date_parse its rs,
  (forall n l, In n S_ZoneRead.RULE_NAMES -> ~ In (ICont n l) its) ->
  (read_rules rule_parse date_parse (match rule_lines its with [] => None | ls => Some ls end) = Ok rs <-> set_read rule_parse date_parse its rs).
Proof. exact rules_exact. Qed.
Print Assumptions C61_set.
(** Observances and zones, up to the order in which parameters are stored. *)
Theorem C61_obs : forall X rule_parse date_parse n its,
  (forall o, load_obs X rule_parse date_parse n its = Ok o -> obs_reads rule_parse date_parse n its o) /\
  (forall o, obs_reads rule_parse date_parse n its o -> exists o', load_obs X rule_parse date_parse n its = Ok o' /\ same_obs o o').
Proof. exact obs_exact. Qed.
Print Assumptions C61_obs.
Theorem C61_zone : forall X rule_parse date_parse n its,
  (forall z, load_zone X rule_parse date_parse n its = Ok z -> n = py "VTIMEZONE" /\ zone_reads X rule_parse date_parse its z) /\
  (forall z, zone_reads X rule_parse date_parse its z ->
     exists z', load_zone X rule_parse date_parse (py "VTIMEZONE") its = Ok z' /\ same_zone z z').
Proof. exact zone_exact. Qed.
Print Assumptions C61_zone.
(** The order of lines of different names does not matter. *)
Theorem C61_obs_order : forall X rule_parse date_parse n its its' o, reordered OBS_NAMES its its' ->
  load_obs X rule_parse date_parse n its = Ok o -> exists o', load_obs X rule_parse date_parse n its' = Ok o' /\ same_obs o o'.
Proof. exact obs_reordered. Qed.
Print Assumptions C61_obs_order.
Theorem C61_zone_order : forall X rule_parse date_parse its its' z, reordered ZONE_NAMES its its' ->
  load_zone X rule_parse date_parse (py "VTIMEZONE") its = Ok z ->
  exists z', load_zone X rule_parse date_parse (py "VTIMEZONE") its' = Ok z' /\ same_zone z z'.
Proof. exact zone_reordered. Qed.
Print Assumptions C61_zone_order.

Definition C61_summer : list item :=
  [ILine (mk_line (py "DTSTART") [(py "VALUE", [PRaw (py "Date-Time")])] (py "19960331T020000")); line (py "RRULE") (py "FREQ=YEARLY;BYMONTH=3;BYDAY=-1SU"); line (py "RDATE") (py "19800406T020000,19960331T020000");
   line (py "X-A") (py "x"); line (py "TZOFFSETTO") (py "+0200"); line (py "TZOFFSETFROM") (py "+0100"); line (py "TZNAME") (py "CE\,ST")].
Definition C61_summer' : list item :=
  [line (py "TZNAME") (py "CE\,ST"); line (py "TZOFFSETFROM") (py "+0100"); line (py "X-A") (py "x"); line (py "RDATE") (py "19800406T020000,19960331T020000");
   line (py "TZOFFSETTO") (py "+0200"); line (py "RRULE") (py "FREQ=YEARLY;BYMONTH=3;BYDAY=-1SU"); ILine (mk_line (py "DTSTART") [(py "VALUE", [PRaw (py "Date-Time")])] (py "19960331T020000"))].
Definition C61_items : list item :=
  [line (py "TZID") (py "Europe/Berlin"); ICont (py "DAYLIGHT") C61_summer; line (py "LAST-MODIFIED") (py "20200101T000000Z"); line (py "TZURL") (py "http://x.org/")].
Definition C61_items' : list item :=
  [line (py "LAST-MODIFIED") (py "20200101T000000Z"); line (py "TZURL") (py "http://x.org/"); ICont (py "DAYLIGHT") C61_summer; line (py "TZID") (py "Europe/Berlin")].
Definition C61_obs_read : observance := mk_observance true vx_hour (2 * vx_hour)%Z
  (mk_set [vx_rule_s] [] [vx_extra; vx_summer] []) (Some (py "CE,ST")) None [line (py "X-A") (py "x")] [].
Example C61_example :
  obs_reads vx_rule vx_date (py "DAYLIGHT") C61_summer C61_obs_read /\
  (exists z, zone_reads toy vx_rule vx_date C61_items z /\ t_id z = py "Europe/Berlin" /\ t_obs z = [C61_obs_read]) /\
  reordered OBS_NAMES C61_summer C61_summer' /\ reordered ZONE_NAMES C61_items C61_items'.
Proof.
  split; [apply (proj1 (obs_exact toy vx_rule vx_date (py "DAYLIGHT") C61_summer)); vm_compute; reflexivity|]. split.
  - destruct (load_zone toy vx_rule vx_date (py "VTIMEZONE") C61_items) as [z|] eqn:E; [|vm_compute in E; discriminate E].
    exists z. split; [exact (proj2 (proj1 (zone_exact toy vx_rule vx_date (py "VTIMEZONE") C61_items) z E))|]. vm_compute in E. injection E as <-. split; reflexivity.
  - split; (constructor; [|intros n l|reflexivity|vm_compute; reflexivity]).
    + intro n. unfold C61_summer, C61_summer', lines, line. cbn [flat_map cl_name app].
      repeat match goal with |- context [if str_eqb ?a n then _ else _] => let E := fresh in destruct (str_eqb a n) eqn:E; [apply str_eqb_eq in E; subst n; vm_compute; reflexivity|] end. reflexivity.
    + unfold C61_summer, C61_summer', line. cbn [In]. split; intro H; repeat destruct H as [H|H]; try discriminate H; destruct H.
    + intro n. unfold C61_items, C61_items', lines, line. cbn [flat_map cl_name app].
      repeat match goal with |- context [if str_eqb ?a n then _ else _] => let E := fresh in destruct (str_eqb a n) eqn:E; [apply str_eqb_eq in E; subst n; vm_compute; reflexivity|] end. reflexivity.
    + unfold C61_items, C61_items', line. cbn [In]. split; intro H; repeat destruct H as [H|H]; try discriminate H; try tauto; destruct H.
Qed.

(** RFC 5545 (3.6.5, 3.8.2.4, 3.8.5.3) allows more than is read. Any other parameter at a line of the recurrence set makes
    the definition unreadable, whatever dateutil does with the values; *)
Theorem C61_params_refuted : forall X rule_parse date_parse,
  load_obs X rule_parse date_parse (py "STANDARD")
    [ILine (mk_line (py "DTSTART") [(py "X-NOTE", [PRaw (py "a")])] (py "19961027T030000"));
     line (py "TZOFFSETFROM") (py "+0200"); line (py "TZOFFSETTO") (py "+0100")] = Err ValueError.
Proof. intros. vm_compute. reflexivity. Qed.
Print Assumptions C61_params_refuted.
(** so does a second name or comment; *)
Theorem C61_names_refuted : forall X rule_parse date_parse,
  load_obs X rule_parse date_parse (py "STANDARD")
    [line (py "DTSTART") (py "19961027T030000"); line (py "TZOFFSETFROM") (py "+0200"); line (py "TZOFFSETTO") (py "+0100");
     line (py "TZNAME") (py "CET"); line (py "TZNAME") (py "MEZ")] = Err ValueError.
Proof. intros. vm_compute. reflexivity. Qed.
Print Assumptions C61_names_refuted.
(** but two starts, which are not allowed, are read, and the last one counts. *)
Theorem C61_starts_refuted : exists o, load_obs toy vx_rule vx_date (py "STANDARD")
    [line (py "DTSTART") (py "19961027T030000"); line (py "DTSTART") (py "19960331T020000"); line (py "TZOFFSETFROM") (py "+0200"); line (py "TZOFFSETTO") (py "+0100")] = Ok o /\
  rs_dates (o_rules o) = [vx_summer].
Proof. eexists. split; vm_compute; reflexivity. Qed.
Print Assumptions C61_starts_refuted.
