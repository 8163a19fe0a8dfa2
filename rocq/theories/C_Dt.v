(** * Properties C15, C16, C47: DATE, DATE-TIME, TIME and PERIOD values *)
From Verif Require Import M_Base M_Codec M_Cal M_Time M_Span M_Dt S_Dt P_Dt.
Open Scope Z_scope.

(** ** C15. A floating datetime with whole seconds, from year 1000 on, is read back. *)
Theorem C15_naive D w fo ps zs :
  wall_ok w = true -> w mod US_SEC = 0 -> 1000 <= f_y (fields_of w) -> dict_get (py "TZID") ps = None ->
  exists s, datetime_serialize D (mk_dt w fo None) ps zs = Ok (s, ps, zs) /\
    datetime_parse D s ps zs = Ok (mk_dt w false None, ps, zs).
Proof. exact (rt_naive D w fo ps zs). Qed.

(** A UTC datetime is read back as one in [dateutil.tz.UTC] with the same clock. *)
Theorem C15_utc D w fo z ps zs :
  wall_ok w = true -> w mod US_SEC = 0 -> 1000 <= f_y (fields_of w) -> dict_get (py "TZID") ps = None ->
  z_is_utc D z = true ->
  exists s, datetime_serialize D (mk_dt w fo (Some z)) ps zs = Ok (s, ps, zs) /\
    datetime_parse D s ps zs = Ok (mk_dt w false (Some (z_utc D)), ps, zs).
Proof. exact (rt_utc D w fo z ps zs). Qed.

(** A datetime in another zone is written with the TZID of that zone, registers the zone
    unless the TZID is already taken, and is read back with the same clock in the zone
    registered under the TZID. *)
Theorem C15_zone D w fo z t z' ps zs :
  wall_ok w = true -> w mod US_SEC = 0 -> 1000 <= f_y (fields_of w) ->
  z_is_utc D z = false -> z_from_tzinfo D z = Ok (Some (t, z')) -> t <> [] ->
  exists s ps' zs', datetime_serialize D (mk_dt w fo (Some z)) ps (Some zs) = Ok (s, ps', Some zs') /\
    dict_get (py "TZID") ps' = Some [t] /\ (forall k, k <> py "TZID" -> dict_get k ps' = dict_get k ps) /\
    (forall k y, dict_get k zs = Some y -> dict_get k zs' = Some y) /\
    (forall k, k <> t -> dict_get k zs' = dict_get k zs) /\
    datetime_parse D s ps' (Some zs') =
      Ok (mk_dt w false (Some (match dict_get t zs with Some y => y | None => z' end)),
          dict_del (py "TZID") ps, Some zs').
Proof. exact (rt_zone D w fo z t z' ps zs). Qed.

(** A date is read back. *)
Theorem C15_date D w ps zs :
  wall_ok w = true -> w mod US_DAY = 0 -> 1000 <= f_y (fields_of w) -> dict_get (py "TZID") ps = None ->
  date_parse D (date_serialize w) ps zs = Ok (w, ps, zs).
Proof. exact (rt_date D w ps zs). Qed.

(** Fractions of a second are dropped. *)
Theorem C15_truncates D w fo ps zs :
  wall_ok w = true -> 1000 <= f_y (fields_of w) -> dict_get (py "TZID") ps = None ->
  exists s, datetime_serialize D (mk_dt w fo None) ps zs = Ok (s, ps, zs) /\
    datetime_parse D s ps zs = Ok (mk_dt (w - w mod US_SEC) false None, ps, zs).
Proof. exact (rt_truncates D w fo ps zs). Qed.

(** No datetime before year 1000 can be read back. *)
Theorem C15_year_refuted D w fo ps zs :
  wall_ok w = true -> f_y (fields_of w) < 1000 -> dict_get (py "TZID") ps = None ->
  exists s, datetime_serialize D (mk_dt w fo None) ps zs = Ok (s, ps, zs) /\
    datetime_parse D s ps zs = Err ValueError.
Proof. exact (rt_small_year D w fo ps zs). Qed.

(** A date of the years 10 to 99 may be read back as another date, without an error:
    2 January 99 becomes 1 February 9901. *)
Theorem C15_date_year_refuted D zs :
  let w := mk_wall 99 1 2 0 0 0 0 in
  wall_ok w = true /\ w mod US_DAY = 0 /\
  date_parse D (date_serialize w) [] zs = Ok (mk_wall 9901 2 1 0 0 0 0, [], zs).
Proof. split; [reflexivity|]. split; reflexivity. Qed.

(** The second of two repeated readings of the clock (fold = 1) is read back as the
    first, a different instant. *)
Theorem C15_fold_refuted : exists D E d zs s ps' zs' d' qs zs'',
  wall_ok (wall d) = true /\ wall d mod US_SEC = 0 /\ 1000 <= f_y (fields_of (wall d)) /\
  datetime_serialize D d [] zs = Ok (s, ps', zs') /\ datetime_parse D s ps' zs' = Ok (d', qs, zs'') /\
  instant E d' <> instant E d.
Proof.
  exists (mk_zdb (fun _ => false) (fun z => Ok (Some (py "X", z))) (fun _ => Err ValueError) (fun _ => None) (TzObj 0)),
    (mk_env (fun _ _ f => if f then 0 else 3600 * US_SEC) (fun _ u => (u, false)) (fun _ _ => 0) (fun _ => 0) (fun _ _ => 0) (fun u => (u, false))),
    (mk_dt (mk_wall 2020 10 25 2 30 0 0) true (Some (TzObj 1))), (Some []).
  do 6 eexists. split; [reflexivity|]. split; [reflexivity|]. split; [vm_compute; discriminate|].
  split; [reflexivity|]. split; [vm_compute; reflexivity|]. vm_compute. discriminate.
Qed.

Example C15_example : let w := mk_wall 2020 2 29 12 30 15 0 in
  wall_ok w = true /\ w mod US_SEC = 0 /\ 1000 <= f_y (fields_of w) /\ fmt_datetime w = py "20200229T123015" /\
  wall_ok (mk_wall 2020 2 29 0 0 0 0) = true /\ mk_wall 2020 2 29 0 0 0 0 mod US_DAY = 0.
Proof. repeat split; vm_compute; congruence. Qed.
Example C15_zone_example :
  let D := mk_zdb (fun _ => false) (fun z => Ok (Some (py "Europe/Paris", z))) (fun _ => Err ValueError) (fun _ => None) (TzObj 0) in
  datetime_serialize D (mk_dt (mk_wall 2020 2 29 12 30 15 0) false (Some (TzObj 1))) [] (Some []) =
    Ok (py "20200229T123015", [(py "TZID", [py "Europe/Paris"])], Some [(py "Europe/Paris", TzObj 1)]).
Proof. reflexivity. Qed.

(** ** C16. Exactly the texts that show a real date and time are accepted, with that
    value; all others are a ValueError. (The empty text is an IndexError, see below.) *)
Theorem C16_datetime D v ps zs : v <> [] -> dict_get (py "TZID") ps = None ->
  match datetime_parse D v ps zs with
  | Ok (d, ps', zs') =>
      datetime_text (unmarked v) (fields_of (wall d)) /\ real_fields (fields_of (wall d)) /\
      wall_ok (wall d) = true /\ fold d = false /\ ps' = ps /\ zs' = zs /\
      (utc_mark v -> dtz d = Some (z_utc D)) /\ (~ utc_mark v -> dtz d = None)
  | Err e => e = ValueError /\ ~ exists f, datetime_text (unmarked v) f /\ real_fields f
  end.
Proof. exact (parse_exact D FDatetime v ps zs). Qed.

Theorem C16_date D v ps zs : v <> [] -> dict_get (py "TZID") ps = None ->
  match date_parse D v ps zs with
  | Ok (w, ps', zs') =>
      date_text (unmarked v) (fields_of w) /\ real_fields (fields_of w) /\ wall_ok w = true /\ ps' = ps /\ zs' = zs
  | Err e => e = ValueError /\ ~ exists f, date_text (unmarked v) f /\ real_fields f
  end.
Proof. exact (date_parse_exact D v ps zs). Qed.

(** With any parameters (TZID included), whatever is accepted is real. *)
Theorem C16_zoned D v ps zs d ps' zs' : datetime_parse D v ps zs = Ok (d, ps', zs') ->
  datetime_text (unmarked v) (fields_of (wall d)) /\ real_fields (fields_of (wall d)) /\ wall_ok (wall d) = true.
Proof. exact (parse_sound D FDatetime v ps zs d ps' zs'). Qed.

(** The fields of a clock reading are those of the proleptic Gregorian calendar, days
    being counted one by one from 1 January of year 1. *)
Theorem C16_calendar w : wall_ok w = true ->
  let f := fields_of w in
  real_date (f_y f) (f_m f) (f_d f) /\ day_number (f_y f, f_m f, f_d f) (w / US_DAY + 1) /\
  w mod US_DAY = ((f_H f * 60 + f_M f) * 60 + f_S f) * 1000000 + f_us f /\
  0 <= f_H f <= 23 /\ 0 <= f_M f <= 59 /\ 0 <= f_S f <= 59 /\ 0 <= f_us f <= 999999.
Proof. exact (calendar_days w). Qed.
Theorem C16_day_number_unique a n m : day_number a n -> day_number a m -> n = m.
Proof. exact (day_number_unique a n m). Qed.

(** The empty text is rejected with IndexError, not ValueError. *)
Theorem C16_empty_refuted D zs : datetime_parse D [] [] zs = Err IndexError.
Proof. reflexivity. Qed.
(** Without a context dictionary, an unknown TZID gives AttributeError. *)
Theorem C16_no_context_refuted D t z : z_from_tzid D t = Ok z -> t <> [] ->
  datetime_parse D (py "20200101T000000") [(py "TZID", [t])] None = Err AttributeError.
Proof. exact (no_context D t z). Qed.

Example C16_example D zs :
  datetime_parse D (py "20200230T000000") [] zs = Err ValueError /\
  datetime_parse D (py "20201301T000000") [] zs = Err ValueError /\
  datetime_parse D (py "20200101T240000") [] zs = Err ValueError /\
  datetime_parse D (py "20200229T12z") [] zs = Ok (mk_dt (mk_wall 2020 2 29 12 0 0 0) false (Some (z_utc D)), [], zs).
Proof. repeat split; reflexivity. Qed.

(** ** C47. TIME values without zone are read back. *)
Theorem C47_time D t fo ps zs : 0 <= t < US_DAY -> t mod US_SEC = 0 -> dict_get (py "TZID") ps = None ->
  exists s, time_serialize D (mk_dt t fo None) ps zs = Ok (s, ps, zs) /\
    time_parse D s ps zs = Ok (mk_dt t false None, ps, zs).
Proof. exact (rt_time D t fo ps zs). Qed.

(** No TIME value is ever written in the UTC form, not even a time in UTC. *)
Theorem C47_time_utc_refuted D d ps zs s ps' zs' :
  time_serialize D d ps zs = Ok (s, ps', zs') -> ~ utc_mark s.
Proof. exact (time_no_mark D d ps zs s ps' zs'). Qed.

(** No PERIOD written by the library can be read by it: with any parameters and zones
    it is rejected with ValueError. *)
Theorem C47_period_refuted D E t ps zs s ps' zs' qs ws :
  (forall b, ts_begin t = Some b -> wall_ok (wall b) = true) ->
  period_serialize D E t ps zs = Ok (s, ps', zs') -> period_parse D E s qs ws = Err ValueError.
Proof. exact (period_written_rejected D E t ps zs s ps' zs' qs ws). Qed.

Example C47_example D E :
  period_serialize D E (mk_ts KBase (Some (mk_dt (mk_wall 2020 2 29 12 30 15 0) false None)) None (Some (3600 * US_SEC)) PSecond) [] None
  = Ok (py "20200229T123015/PT1H", [], None) /\
  exists t, period_parse D E (py "20200229/PT1H") [] None = Ok (t, [], None) /\ ts_dur t = Some (3600 * US_SEC).
Proof. split; [reflexivity|]. eexists. split; reflexivity. Qed.

Print Assumptions C15_naive.
Print Assumptions C15_utc.
Print Assumptions C15_zone.
Print Assumptions C15_date.
Print Assumptions C15_truncates.
Print Assumptions C15_year_refuted.
Print Assumptions C15_date_year_refuted.
Print Assumptions C15_fold_refuted.
Print Assumptions C16_datetime.
Print Assumptions C16_date.
Print Assumptions C16_zoned.
Print Assumptions C16_calendar.
Print Assumptions C16_day_number_unique.
Print Assumptions C16_empty_refuted.
Print Assumptions C16_no_context_refuted.
Print Assumptions C47_time.
Print Assumptions C47_time_utc_refuted.
Print Assumptions C47_period_refuted.
