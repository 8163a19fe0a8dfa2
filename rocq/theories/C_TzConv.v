(** * C56: Time zone definitions made from the zone objects of other libraries *)
From Verif Require Import M_Base M_Text M_Line M_Codec M_Cal M_Time M_Span M_Dt M_Fold M_Tree M_Comp M_Open M_Serial M_Rrule M_Zone M_Vtz M_TzConv.
From Verif Require Import S_Text S_Codec S_Line S_Fold S_Dt S_Tree S_Comp S_Store S_Ref S_Wire S_Vtz S_Toy S_TzConv.
From Verif Require Import P_StoreEx P_VtzEx P_TzConv P_TzConv2 P_TzConvEx.
Open Scope Z_scope.

(** ** C56. An object with one offset whose texts do not call it UTC where it is not: the
    definition answers with this offset and no daylight saving time at all times, after
    any lookups, and its name is its TZID. *)
Theorem C56_offset : forall X rule_parse date_parse find_file windows_to_olson t off z,
  own_offset t = Some off -> honest t ->
  Timezone_from_tzinfo X rule_parse date_parse find_file windows_to_olson t = Ok (Some z) ->
  exists n, fixed_at z off (Some n) /\ t_id z = n.
Proof. exact convert_offset. Qed.
Print Assumptions C56_offset.
(** The name is that of the object, *)
Theorem C56_name : forall X rule_parse date_parse find_file windows_to_olson t off z,
  own_offset t = Some off -> Timezone_from_tzinfo X rule_parse date_parse find_file windows_to_olson t = Ok (Some z) ->
  ~ means_utc t -> own_name t = Some (t_id z).
Proof. exact convert_name. Qed.
Print Assumptions C56_name.
(** and such objects are converted, but for two kinds (see below). *)
Theorem C56_converted : forall X rule_parse date_parse find_file windows_to_olson t off,
  own_offset t = Some off -> supported t \/ means_utc t ->
  exists z, Timezone_from_tzinfo X rule_parse date_parse find_file windows_to_olson t = Ok (Some z).
Proof. exact convert_supported. Qed.
Print Assumptions C56_converted.
(** [datetime.timezone] objects without a name of their own are honest, and two of them
    have the same name only if they have the same offset. *)
Theorem C56_default_names : forall off off', honest (TBuiltin off None) /\
  (Z.abs off < US_DAY -> Z.abs off' < US_DAY -> own_name (TBuiltin off None) = own_name (TBuiltin off' None) -> off = off').
Proof.
  exact (fun off off' => conj (default_honest off) (fun A A' (E : Some (name_from_offset off) = Some (name_from_offset off')) =>
    default_inj off off' A A' (f_equal (fun o => match o with Some n => n | None => [] end) E))).
Qed.
Print Assumptions C56_default_names.
(** The name says the offset. *)
Theorem C56_default_exact : forall off, Z.abs off < US_DAY -> exists s, own_name (TBuiltin off None) = Some s /\ offset_name s off.
Proof. exact (fun off H => ex_intro _ (name_from_offset off) (conj eq_refl (default_exact off H))). Qed.
Print Assumptions C56_default_exact.
Example C56_example : honest (TBuiltin (2 * vx_hour) None) /\ supported (TBuiltin (2 * vx_hour) None) /\
  own_name (TBuiltin (-(3 * vx_hour + 1800 * US_SEC)) None) = Some (py "UTC-03:30") /\ ~ means_utc (TBuiltin (2 * vx_hour) None) /\
  Timezone_from_tzinfo toy vx_rule vx_date (fun _ => None) (fun _ => None) (TBuiltin (2 * vx_hour) None) =
    Ok (Some (Timezone_from_offset (py "UTC+02:00") (2 * vx_hour))).
Proof.
  split; [exact (default_honest _)|]. split; [exact I|]. split; [reflexivity|].
  split; [|vm_compute; reflexivity]. intros H. apply is_utc_iff in H. vm_compute in H. discriminate H.
Qed.
(** A [datetime.timezone] with another offset that is called UTC becomes UTC: *)
Theorem C56_label_refuted : forall X rule_parse date_parse find_file windows_to_olson off n, called_utc n ->
  exists z, Timezone_from_tzinfo X rule_parse date_parse find_file windows_to_olson (TBuiltin off (Some n)) = Ok (Some z) /\
    own_offset (TBuiltin off (Some n)) = Some off /\ fixed_at z 0 (Some (py "UTC")).
Proof.
  exact (fun X rule_parse date_parse find_file windows_to_olson off n H =>
    ex_intro _ UTC (conj (convert_utc X rule_parse date_parse find_file windows_to_olson (TBuiltin off (Some n)) (mu_called (TBuiltin off (Some n)) H) eq_refl)
      (conj eq_refl fixed_utc))).
Qed.
Print Assumptions C56_label_refuted.
(** dateutil's tzoffset and pytz's FixedOffset cannot be converted, though they have one offset. *)
Theorem C56_unsupported_refuted : forall X rule_parse date_parse find_file windows_to_olson off text, off <> 0 -> ~ called_utc text ->
  Timezone_from_tzinfo X rule_parse date_parse find_file windows_to_olson (TUtilOffset off text) = Err ValueError /\
  Timezone_from_tzinfo X rule_parse date_parse find_file windows_to_olson (TPytzFixed off text) = Err ValueError.
Proof. exact unsupported. Qed.
Print Assumptions C56_unsupported_refuted.
Example C56_label_example : called_utc (py "Etc/UTC") /\ ~ called_utc (py "tzoffset(None, 3600)") /\ ~ called_utc (py "pytz.FixedOffset(60)").
Proof. split; [now right|]. split; intros [H|H]; discriminate H. Qed.

(** ** The other objects *)
Theorem C56_is_utc : forall t, is_utc t = true <-> means_utc t.
Proof. exact is_utc_iff. Qed.
Print Assumptions C56_is_utc.
Theorem C56_utc : forall X rule_parse date_parse find_file windows_to_olson t, means_utc t -> (forall z, t <> TIcs z) ->
  exists z, Timezone_from_tzinfo X rule_parse date_parse find_file windows_to_olson t = Ok (Some z) /\
    t_id z = py "UTC" /\ fixed_at z 0 (Some (py "UTC")).
Proof. exact to_utc. Qed.
Print Assumptions C56_utc.
Theorem C56_itself : forall X rule_parse date_parse find_file windows_to_olson z,
  Timezone_from_tzinfo X rule_parse date_parse find_file windows_to_olson (TIcs z) = Ok (Some z).
Proof. exact convert_itself. Qed.
Print Assumptions C56_itself.
(** The zone of the computer, and no other, has no definition. *)
Theorem C56_local : forall X rule_parse date_parse find_file windows_to_olson t,
  Timezone_from_tzinfo X rule_parse date_parse find_file windows_to_olson t = Ok None <-> stands_for_local t /\ ~ means_utc t.
Proof. exact convert_local. Qed.
Print Assumptions C56_local.
(** Named zones get the definition in the file of the name, or of what a Windows name stands for. *)
Theorem C56_named : forall X rule_parse date_parse find_file windows_to_olson t n z, named t n -> ~ means_utc t ->
  Timezone_from_tzinfo X rule_parse date_parse find_file windows_to_olson t = Ok (Some z) <->
  exists txt its, file_for find_file windows_to_olson n txt /\ holds_zone txt its /\
    load_zone X rule_parse date_parse (py "VTIMEZONE") its = Ok z.
Proof. exact named_iff. Qed.
Print Assumptions C56_named.
Theorem C56_tzid : forall X rule_parse date_parse find_file windows_to_olson n z,
  Timezone_from_tzid X rule_parse date_parse find_file windows_to_olson n = Ok z <->
  exists txt its, file_for find_file windows_to_olson n txt /\ holds_zone txt its /\
    load_zone X rule_parse date_parse (py "VTIMEZONE") its = Ok z.
Proof. exact from_tzid_iff. Qed.
Print Assumptions C56_tzid.
Theorem C56_unknown : forall X rule_parse date_parse find_file windows_to_olson n,
  (forall txt, ~ file_for find_file windows_to_olson n txt) ->
  Timezone_from_tzid X rule_parse date_parse find_file windows_to_olson n = Err ValueError.
Proof. exact from_tzid_unknown. Qed.
Print Assumptions C56_unknown.
(** All other objects are a ValueError. *)
Theorem C56_errors : forall X rule_parse date_parse find_file windows_to_olson t e,
  Timezone_from_tzinfo X rule_parse date_parse find_file windows_to_olson t = Err e ->
  e = ValueError \/ exists n, named t n /\ Timezone_from_tzid X rule_parse date_parse find_file windows_to_olson n = Err e.
Proof. exact convert_error. Qed.
Print Assumptions C56_errors.
Example C56_named_example : named (TZoneInfo (Some (py "Europe/Berlin")) []) (py "Europe/Berlin") /\
  ~ means_utc (TZoneInfo (Some (py "Europe/Berlin")) []) /\ stands_for_local (TUtilFile (Some (py "/etc/localtime")) []) /\
  match Timezone_from_tzinfo toy vx_rule vx_date tx_files (fun n => if str_eqb n (py "W. Europe Standard Time") then Some (py "Europe/Berlin") else None)
          (TUtilWin (py "W. Europe Standard Time") []) with
  | Ok (Some z) => t_id z = py "Europe/Berlin" /\ map o_to (t_obs z) = [vx_hour]
  | _ => False
  end.
Proof.
  split; [now constructor|]. split; [intros H; apply is_utc_iff in H; vm_compute in H; discriminate H|].
  split; [exact (sl_file (py "/etc/") [])|]. vm_compute. split; reflexivity.
Qed.

(** ** Datetimes. One in a converted zone with one offset is written and read back as the
    same instant, if no other zone has its TZID in the table of zones. *)
Theorem C56_instant : forall X rule_parse date_parse find_file windows_to_olson E before obj inj gettz utc w fo z off ps zs,
  describes E before obj inj utc ->
  wall_ok w = true -> w mod US_SEC = 0 -> 1000 <= f_y (fields_of w) -> dict_get (py "TZID") ps = None ->
  own_offset (obj z) = Some off -> honest (obj z) -> supported (obj z) -> own_name (obj z) <> Some [] ->
  (forall n y, own_name (obj z) = Some n -> dict_get n zs = Some y -> forall w f, tz_off E y w f = off) ->
  let D := zdb_of X rule_parse date_parse find_file windows_to_olson obj inj gettz utc in
  exists s ps' zs' d' qs zs'', datetime_serialize D (mk_dt w fo (Some z)) ps (Some zs) = Ok (s, ps', Some zs') /\
    datetime_parse D s ps' (Some zs') = Ok (d', qs, zs'') /\
    wall d' = w /\ instant E d' = instant E (mk_dt w fo (Some z)).
Proof.
  exact (fun X rule_parse date_parse find_file windows_to_olson E before obj inj gettz utc w fo z off ps zs DS =>
    instant_kept X rule_parse date_parse find_file windows_to_olson E before obj inj gettz utc DS w fo z off ps zs).
Qed.
Print Assumptions C56_instant.
(** Any number of datetimes written with one table and read with it afterwards: the same
    instants, if objects with the same name have the same offset, *)
Theorem C56_instants : forall X rule_parse date_parse find_file windows_to_olson E before obj inj gettz utc ds,
  describes E before obj inj utc -> Forall (writable obj) ds -> names_agree obj ds ->
  let D := zdb_of X rule_parse date_parse find_file windows_to_olson obj inj gettz utc in
  exists out zs, write_all D ds [] = Ok (out, zs) /\ Forall2 (read_same D E zs) ds out.
Proof.
  exact (fun X rule_parse date_parse find_file windows_to_olson E before obj inj gettz utc ds DS =>
    many_kept X rule_parse date_parse find_file windows_to_olson E before obj inj gettz utc DS ds).
Qed.
Print Assumptions C56_instants.
(** as [datetime.timezone] objects without a name of their own always have. *)
Theorem C56_default_agree : forall obj ds,
  (forall d z, In d ds -> dtz d = Some z -> exists off, obj z = TBuiltin off None /\ Z.abs off < US_DAY) -> names_agree obj ds.
Proof. exact default_agree. Qed.
Print Assumptions C56_default_agree.
Example C56_instants_example : describes tx_env tx_before tx_obj tx_inj tx_utc /\ Forall (writable tx_obj) tx_dts /\ names_agree tx_obj tx_dts /\
  match write_all tx_db tx_dts [] with
  | Ok (out, zs) => map fst out = [py "20200101T120000Z"; py "20200101T120000"; py "20200101T120000"; py "20200101T120000"] /\
      map snd out = [[]; [(py "TZID", [py "UTC+02:00"])]; [(py "TZID", [py "UTC-03:30"])]; [(py "TZID", [py "UTC+02:00"])]] /\
      keys zs = [py "UTC+02:00"; py "UTC-03:30"]
  | Err _ => False
  end.
Proof. split; [exact tx_describes|]. split; [exact tx_writable|]. split; [exact tx_agree|]. vm_compute. repeat split; reflexivity. Qed.
(** Two objects with one name and different offsets: the second datetime is read back as
    another instant. *)
Theorem C56_same_name_refuted : describes tx_env tx_before tx_obj tx_inj tx_utc /\ Forall (writable tx_obj) tx_clash /\
  match write_all tx_db tx_clash [] with
  | Ok (out, zs) => ~ Forall2 (read_same tx_db tx_env zs) tx_clash out
  | Err _ => False
  end.
Proof. exact (conj tx_describes (conj tx_clash_writable tx_clash_wrong)). Qed.
Print Assumptions C56_same_name_refuted.
(** An object with the empty name: the datetime is read back without zone. *)
Theorem C56_no_name_refuted : own_offset (tx_obj (TzObj 7)) = Some vx_hour /\ own_name (tx_obj (TzObj 7)) = Some [] /\
  match datetime_serialize tx_db (mk_dt tx_noon false (Some (TzObj 7))) [] (Some []) with
  | Ok (s, ps, zs) => match datetime_parse tx_db s ps zs with Ok (d, _, _) => dtz d = None | Err _ => False end
  | Err _ => False
  end.
Proof. exact tx_no_name. Qed.
Print Assumptions C56_no_name_refuted.
(** A [datetime.timezone] called UTC: the datetime is written with a Z, and is another instant. *)
Theorem C56_label_instant_refuted : own_offset (tx_obj (TzObj 8)) = Some (2 * vx_hour) /\
  match datetime_serialize tx_db (mk_dt tx_noon false (Some (TzObj 8))) [] (Some []) with
  | Ok (s, ps, zs) => s = py "20200101T120000Z" /\
      match datetime_parse tx_db s ps zs with
      | Ok (d, _, _) => instant tx_env d = instant tx_env (mk_dt tx_noon false (Some (TzObj 8))) + 2 * vx_hour
      | Err _ => False
      end
  | Err _ => False
  end.
Proof. exact tx_label. Qed.
Print Assumptions C56_label_instant_refuted.

(** ** Text. The definition of an object with one offset of whole seconds, written as a
    VTIMEZONE and read from the text, still has that offset at all times and its name. *)
Theorem C56_text : forall X rule_parse date_parse hy resplit W nl find_file windows_to_olson t off z,
  utc_env X -> reads_dates date_parse -> reads_epoch rule_parse -> splitter resplit -> width_ok W ->
  own_offset t = Some off -> honest t -> storable_offset off ->
  Timezone_from_tzinfo X rule_parse date_parse find_file windows_to_olson t = Ok (Some z) ->
  exists it txt sub z', dump_zone X z = Ok it /\ item_serialize hy resplit W it nl = Ok txt /\
    string_to_containers txt = ([ICont (py "VTIMEZONE") sub], None) /\
    load_zone X rule_parse date_parse (py "VTIMEZONE") sub = Ok z' /\
    t_id z' = t_id z /\ fixed_at z' off (Some (t_id z)).
Proof. exact fixed_text. Qed.
Print Assumptions C56_text.
Example C56_text_example : utc_env toy /\ reads_dates vx_date /\ reads_epoch vx_rule /\ storable_offset (-(3 * vx_hour + 1800 * US_SEC)) /\
  match dump_zone toy (Timezone_from_offset (py "UTC-03:30") (-(3 * vx_hour + 1800 * US_SEC))) with
  | Ok (ICont _ [ILine i; ICont n its]) => cl_value i = py "UTC-03:30" /\ n = py "STANDARD" /\
      map item_name its = [py "TZOFFSETFROM"; py "TZOFFSETTO"; py "DTSTART"; py "RRULE"; py "TZNAME"]
  | _ => False
  end.
Proof.
  split; [exact toy_utc|]. split; [exact vx_reads|]. split; [reflexivity|]. split; [vm_compute; intuition discriminate|].
  vm_compute. repeat split; reflexivity.
Qed.
(** Fractions of a second of an offset are lost. *)
Theorem C56_fraction_refuted : exists off t z z' its, own_offset t = Some off /\ honest t /\
  Timezone_from_tzinfo toy vx_rule vx_date (fun _ => None) (fun _ => None) t = Ok (Some z) /\
  dump_zone toy z = Ok (ICont (py "VTIMEZONE") its) /\ load_zone toy vx_rule vx_date (py "VTIMEZONE") its = Ok z' /\
  ~ fixed_at z' off (Some (t_id z)).
Proof. exact tx_fraction. Qed.
Print Assumptions C56_fraction_refuted.

(** ** The context. Calls that share a context answer as calls without one; *)
Theorem C56_context : forall X rule_parse date_parse find_file windows_to_olson ts c,
  run X rule_parse date_parse find_file windows_to_olson ts c =
  map (Timezone_from_tzinfo X rule_parse date_parse find_file windows_to_olson) ts.
Proof. exact run_same. Qed.
Print Assumptions C56_context.
(** the cache in it is of no use: with an entry in it, nothing is ever stored or found. *)
Theorem C56_cache_refuted : forall X rule_parse date_parse find_file windows_to_olson t c c',
  from_tzinfo X rule_parse date_parse find_file windows_to_olson t (Some c) =
    (Timezone_from_tzinfo X rule_parse date_parse find_file windows_to_olson t, Some c) /\
  fst (from_tzinfo X rule_parse date_parse find_file windows_to_olson t (Some c)) =
  fst (from_tzinfo X rule_parse date_parse find_file windows_to_olson t c').
Proof. exact cache_useless. Qed.
Print Assumptions C56_cache_refuted.

(** ** Definitions of the data base. A zone with the prefix of the data base, or called UTC,
    is kept; any other is replaced by the definition of its TZID; doing it again changes nothing. *)
Theorem C56_builtin : forall X rule_parse date_parse find_file windows_to_olson PREFIX z,
  (called_utc (t_id z) \/ (exists r, t_id z = PREFIX ++ r) ->
    to_builtin X rule_parse date_parse find_file windows_to_olson PREFIX z = Ok z) /\
  (~ (called_utc (t_id z) \/ (exists r, t_id z = PREFIX ++ r)) ->
    to_builtin X rule_parse date_parse find_file windows_to_olson PREFIX z =
    Timezone_from_tzid X rule_parse date_parse find_file windows_to_olson (t_id z)).
Proof.
  exact (fun X rule_parse date_parse find_file windows_to_olson PREFIX z =>
    conj (to_builtin_same X rule_parse date_parse find_file windows_to_olson PREFIX z)
         (to_builtin_other X rule_parse date_parse find_file windows_to_olson PREFIX z)).
Qed.
Print Assumptions C56_builtin.
Theorem C56_builtin_twice : forall X rule_parse date_parse find_file windows_to_olson PREFIX z z',
  (forall n y, Timezone_from_tzid X rule_parse date_parse find_file windows_to_olson n = Ok y -> exists r, t_id y = PREFIX ++ r) ->
  to_builtin X rule_parse date_parse find_file windows_to_olson PREFIX z = Ok z' ->
  to_builtin X rule_parse date_parse find_file windows_to_olson PREFIX z' = Ok z'.
Proof. exact to_builtin_twice. Qed.
Print Assumptions C56_builtin_twice.
Example C56_builtin_example : let z := Timezone_from_offset (py "/ics/Europe/Berlin") vx_hour in
  (exists r, t_id z = py "/ics/" ++ r) /\ ~ (called_utc (py "Berlin") \/ exists r, py "Berlin" = py "/ics/" ++ r) /\
  (forall n y, Timezone_from_tzid toy vx_rule vx_date (fun _ => None) (fun _ => None) n = Ok y -> exists r, t_id y = py "/ics/" ++ r).
Proof.
  split; [now exists (py "Europe/Berlin")|]. split; [intros [[H|H]|(r & H)]; discriminate H|]. intros n y H. discriminate H.
Qed.
