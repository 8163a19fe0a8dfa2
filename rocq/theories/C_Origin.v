(** * C63: where the zones of a calendar that was read come from, and that they are kept *)
From Verif Require Import M_Base M_Text M_Line M_Codec M_Cal M_Time M_Span M_Dt M_Fold M_Tree M_Comp M_Open M_Serial M_Rrule M_Vtz.
From Verif Require Import S_Fold S_Tree S_Comp S_Store S_Ref S_Wire S_Toy S_Vtz S_Again S_ZoneAgain S_Origin.
From Verif Require Import P_StoreEx P_CalendarEx P_VtzEx P_AgainEx P_ZoneAgainEx P_Origin P_OriginEx.
Open Scope N_scope.

(** Every zone of a date in a calendar that was read is UTC, or the zone of an identifier
    some line has for TZID: the first definition with it in the calendar, or if there is
    none, the zone the library knows by it. *)
Theorem C63_origin : forall X n its c d z, load_calendar X n its = Ok c -> calendar_date c d -> dtz d = Some z -> origin X its z.
Proof. exact calendar_origin. Qed.
Print Assumptions C63_origin.

(** A calendar read from text in which every TZID is that of a definition: what is written
    can be read, and is equal, with the same zones. Nothing is asked of the database. *)
Theorem C63_closed : forall X hy resplit W rule_parse date_parse zone_of tz_of txt n its c,
  utc_env X -> text_env X -> splitter resplit -> width_ok W -> reads_dates date_parse -> rules_env rule_parse -> defined_by X rule_parse date_parse zone_of tz_of ->
  string_to_containers txt = ([ICont n its], None) -> read_calendar X (FromStr txt) = Ok c -> keepable_calendar X c ->
  kept_defs X rule_parse date_parse zone_of tz_of its -> closed X rule_parse date_parse its ->
  exists txt' d, calendar_serialize X hy resplit W c = Ok txt' /\ read_calendar X (FromStr txt') = Ok d /\ equal_calendar X c d.
Proof.
  intros X hy resplit W rule_parse date_parse zone_of tz_of txt n its c HU HT HS HW RD RE DB.
  exact (closed_text X HU HT rule_parse date_parse RD RE zone_of tz_of DB hy resplit W HS HW txt n its c).
Qed.
Print Assumptions C63_closed.
(** The same with zones of the database, if their definitions are kept and different zones
    have different identifiers. *)
Theorem C63_known : forall X hy resplit W rule_parse date_parse zone_of tz_of txt n its c,
  utc_env X -> text_env X -> splitter resplit -> width_ok W -> reads_dates date_parse -> rules_env rule_parse -> defined_by X rule_parse date_parse zone_of tz_of ->
  string_to_containers txt = ([ICont n its], None) -> read_calendar X (FromStr txt) = Ok c -> keepable_calendar X c ->
  kept_defs X rule_parse date_parse zone_of tz_of its -> kept_known X rule_parse date_parse zone_of tz_of its -> distinct_zones X c ->
  exists txt' d, calendar_serialize X hy resplit W c = Ok txt' /\ read_calendar X (FromStr txt') = Ok d /\ equal_calendar X c d.
Proof.
  intros X hy resplit W rule_parse date_parse zone_of tz_of txt n its c HU HT HS HW RD RE DB.
  exact (known_text_again X HU HT rule_parse date_parse RD RE zone_of tz_of DB hy resplit W HS HW txt n its c).
Qed.
Print Assumptions C63_known.
Example C63_example : utc_env oz /\ text_env oz /\ splitter id_split /\ width_ok (Some 75%nat) /\ reads_dates vx_date /\ rules_env vx_rule /\
  defined_by oz vx_rule vx_date oz_zone_of oz_tz_of /\
  string_to_containers own_text = ([ICont (py "VCALENDAR") own_items], None) /\ read_calendar oz (FromStr own_text) = Ok own_cal /\ keepable_calendar oz own_cal /\
  kept_defs oz vx_rule vx_date oz_zone_of oz_tz_of own_items /\ closed oz vx_rule vx_date own_items /\ zone_at 0 own_cal = Some (TzObj 13).
Proof.
  split; [exact oz_utc|]. split; [exact oz_text|]. split; [exact id_splitter|]. split; [exact wide|]. split; [exact vx_reads|]. split; [exact vx_rules_env|]. split; [exact oz_defined|].
  split; [apply own_read|]. split; [apply own_read|]. split; [exact own_keep|]. split; [exact own_defs|]. split; [exact own_closed|reflexivity].
Qed.
Example C63_known_example : string_to_containers known_text = ([ICont (py "VCALENDAR") known_items], None) /\ read_calendar oz (FromStr known_text) = Ok known_cal /\
  keepable_calendar oz known_cal /\ kept_defs oz vx_rule vx_date oz_zone_of oz_tz_of known_items /\ kept_known oz vx_rule vx_date oz_zone_of oz_tz_of known_items /\
  distinct_zones oz known_cal /\ zone_at 0 known_cal = Some (TzObj 3).
Proof.
  split; [apply known_read|]. split; [apply known_read|]. split; [exact known_keep|]. split; [exact known_defs|]. split; [exact known_known|]. split; [exact known_distinct|reflexivity].
Qed.

(** Without [distinct_zones] this is false: a calendar defines a zone with the identifier
    of a zone that the library knows by another name, and uses both; read again, the
    second event has the zone of the first. *)
Theorem C63_clash_refuted : string_to_containers both_text = ([ICont (py "VCALENDAR") both_items], None) /\ read_calendar oz (FromStr both_text) = Ok both_cal /\
  keepable_calendar oz both_cal /\ kept_defs oz vx_rule vx_date oz_zone_of oz_tz_of both_items /\ kept_known oz vx_rule vx_date oz_zone_of oz_tz_of both_items /\
  exists t d, calendar_serialize oz true id_split (Some 75%nat) both_cal = Ok t /\ read_calendar oz (FromStr t) = Ok d /\
    zone_at 1 both_cal = Some (TzObj 3) /\ zone_at 1 d = Some (TzObj 13) /\ ~ equal_calendar oz both_cal d.
Proof.
  exact (conj (proj1 both_read) (conj (proj2 both_read) (conj both_keep (conj both_defs (conj both_known (ex_intro _ both_out (ex_intro _ both_back both_changed))))))).
Qed.
Print Assumptions C63_clash_refuted.
