(** * Specification: what assigning to an attribute of an event or todo does *)
From Verif Require Import M_Base M_Codec M_Cal M_Time M_Span M_Event.
Open Scope Z_scope.

(** ** Values from which a datetime or timedelta is made *)

(** [v] passes [x] for the parameter [k]: the items of a tuple are the arguments of the
    parameters in order, those of a dict have their names. *)
Definition passes (params : list (list N)) (v : val) (k : list N) (x : val) : Prop :=
  match v with
  | VTuple l => exists i, nth_error params i = Some k /\ nth_error l i = Some x
  | VDict d => In k params /\ dict_get k d = Some x
  | _ => False
  end.
(** Something in [v] is the argument of no parameter; [n] parameters can be given by
    position. *)
Definition surplus (params : list (list N)) (n : nat) (v : val) : Prop :=
  match v with
  | VTuple l => (n < length l)%nat
  | VDict d => exists k, In k (keys d) /\ ~ In k params
  | _ => False
  end.
Definition size (v : val) : nat := match v with VTuple l => length l | VDict d => length d | _ => 0%nat end.

(** The parameters by position of a tuple; [fold] has none. *)
Definition dt_positions : list (list N) :=
  [py "year"; py "month"; py "day"; py "hour"; py "minute"; py "second"; py "microsecond"; py "tzinfo"].
Definition dt_params (v : val) : list (list N) :=
  match v with VTuple _ => dt_positions | _ => dt_positions ++ [py "fold"] end.
Definition dt_ints : list (list N) :=
  [py "year"; py "month"; py "day"; py "hour"; py "minute"; py "second"; py "microsecond"; py "fold"].
Definition dt_passes (v : val) (k : list N) (x : val) : Prop := passes (dt_params v) v k x.

(** What is wrong with the argument of one parameter: missing, no integer, or too large
    for a 32-bit integer. *)
Inductive bad_arg (v : val) (k : list N) : exn -> Prop :=
  | BA_missing : In k [py "year"; py "month"; py "day"] -> (forall x, ~ dt_passes v k x) -> bad_arg v k TypeError
  | BA_type x : dt_passes v k x -> (forall n, x <> VInt n) -> bad_arg v k TypeError
  | BA_range n : dt_passes v k (VInt n) -> ~ - 2 ^ 31 <= n < 2 ^ 31 -> bad_arg v k OverflowError.
Definition good_arg (v : val) (k : list N) : Prop := forall e, ~ bad_arg v k e.
(** The number passed, zero without one. *)
Definition number_of (params : list (list N)) (v : val) (k : list N) (n : Z) : Prop :=
  passes params v k (VInt n) \/ (forall x, ~ passes params v k x) /\ n = 0.
Definition on_calendar (y m d hh mi ss us fo : Z) : Prop :=
  1 <= y <= 9999 /\ 1 <= m <= 12 /\ 1 <= d <= days_in_month y m /\
  0 <= hh < 24 /\ 0 <= mi < 60 /\ 0 <= ss < 60 /\ 0 <= us < 10 ^ 6 /\ 0 <= fo <= 1.
Record dt_numbers (v : val) (y m d hh mi ss us fo : Z) : Prop := {
  dn_y : number_of (dt_params v) v (py "year") y; dn_m : number_of (dt_params v) v (py "month") m;
  dn_d : number_of (dt_params v) v (py "day") d; dn_hh : number_of (dt_params v) v (py "hour") hh;
  dn_mi : number_of (dt_params v) v (py "minute") mi; dn_ss : number_of (dt_params v) v (py "second") ss;
  dn_us : number_of (dt_params v) v (py "microsecond") us; dn_fo : number_of (dt_params v) v (py "fold") fo }.
(** The zone passed. *)
Definition zone_of (v : val) (z : option tz) : Prop :=
  match z with
  | Some z => dt_passes v (py "tzinfo") (VTz z)
  | None => forall x, dt_passes v (py "tzinfo") x -> x = VNone
  end.

(** The datetime constructor called with the items of [v]. *)
Inductive dt_made (v : val) : res datetime -> Prop :=
  | DM_many : (9 < size v)%nat -> dt_made v (Err TypeError)
  | DM_bad pre k post e : (size v <= 9)%nat -> dt_ints = pre ++ k :: post -> Forall (good_arg v) pre -> bad_arg v k e ->
      dt_made v (Err e)
  | DM_surplus : (size v <= 9)%nat -> Forall (good_arg v) dt_ints -> surplus (dt_params v) 8 v -> dt_made v (Err TypeError)
  | DM_off y m d hh mi ss us fo : (size v <= 9)%nat -> Forall (good_arg v) dt_ints -> ~ surplus (dt_params v) 8 v ->
      dt_numbers v y m d hh mi ss us fo -> ~ on_calendar y m d hh mi ss us fo -> dt_made v (Err ValueError)
  | DM_zone y m d hh mi ss us fo : (size v <= 9)%nat -> Forall (good_arg v) dt_ints -> ~ surplus (dt_params v) 8 v ->
      dt_numbers v y m d hh mi ss us fo -> on_calendar y m d hh mi ss us fo ->
      (forall z, ~ zone_of v z) -> dt_made v (Err TypeError)
  | DM_ok y m d hh mi ss us fo z : (size v <= 9)%nat -> Forall (good_arg v) dt_ints -> ~ surplus (dt_params v) 8 v ->
      dt_numbers v y m d hh mi ss us fo -> on_calendar y m d hh mi ss us fo ->
      zone_of v z -> dt_made v (Ok (mk_dt (mk_wall y m d hh mi ss us) (fo =? 1) z)).

Definition collection (v : val) : Prop := match v with VTuple _ | VDict _ => True | _ => False end.
(** Values taken for a point in time. *)
Inductive dt_meant : val -> res (option datetime) -> Prop :=
  | DT_none : dt_meant VNone (Ok None)
  | DT_dt d : dt_meant (VDt d) (Ok (Some d))
  | DT_date w : dt_meant (VDate w) (Ok (Some (mk_dt w false None)))
  | DT_ok v d : collection v -> dt_made v (Ok d) -> dt_meant v (Ok (Some d))
  | DT_err v e : collection v -> dt_made v (Err e) -> dt_meant v (Err e)
  | DT_other v : ~ collection v -> v <> VNone -> (forall d, v <> VDt d) -> (forall w, v <> VDate w) -> dt_meant v (Err ValueError).

(** The timedelta constructor called with the items of [v]. *)
Definition td_params : list (list N) :=
  [py "days"; py "seconds"; py "microseconds"; py "milliseconds"; py "minutes"; py "hours"; py "weeks"].
Inductive td_made (v : val) : res Z -> Prop :=
  | TM_surplus : surplus td_params 7 v -> td_made v (Err TypeError)
  | TM_type k x : passes td_params v k x -> (forall n, x <> VInt n) -> td_made v (Err TypeError)
  | TM_sum d s us ms mi hh w T :
      ~ surplus td_params 7 v ->
      number_of td_params v (py "days") d -> number_of td_params v (py "seconds") s ->
      number_of td_params v (py "microseconds") us -> number_of td_params v (py "milliseconds") ms ->
      number_of td_params v (py "minutes") mi -> number_of td_params v (py "hours") hh ->
      number_of td_params v (py "weeks") w ->
      T = us + 1000 * ms + 10 ^ 6 * (s + 60 * mi + 3600 * hh + 86400 * (d + 7 * w)) ->
      td_made v (if (TD_MIN <=? T) && (T <=? TD_MAX) then Ok T else Err OverflowError).
(** Values taken for a length of time. *)
Inductive td_meant : val -> res (option Z) -> Prop :=
  | TD_none : td_meant VNone (Ok None)
  | TD_td n : td_meant (VTd n) (Ok (Some n))
  | TD_ok v n : collection v -> td_made v (Ok n) -> td_meant v (Ok (Some n))
  | TD_err v e : collection v -> td_made v (Err e) -> td_meant v (Err e)
  | TD_other v : ~ collection v -> v <> VNone -> (forall n, v <> VTd n) -> td_meant v (Err ValueError).

(** ** Attributes *)
Inductive attr_kind :=
  | KSpan | KStatus | KUtc | KStamp | KList | KText | KOrganizer | KGeo | KUpto (n : Z) | KMoment | KExtra | KParams | KFree.
Definition common_kinds : list (list N * attr_kind) :=
  [(py "timespan", KSpan); (py "status", KStatus); (py "created", KUtc); (py "last_modified", KUtc);
   (py "dtstamp", KStamp); (py "alarms", KList); (py "attach", KList); (py "extra", KExtra); (py "extra_params", KParams)].
Definition event_kinds : list (list N * attr_kind) :=
  [(py "classification", KText); (py "organizer", KOrganizer); (py "geo", KGeo); (py "attendees", KList); (py "categories", KList)].
Definition todo_kinds : list (list N * attr_kind) :=
  [(py "percent", KUpto 100); (py "priority", KUpto 9); (py "completed", KMoment)].
Definition kinds (c : cls) : list (list N * attr_kind) :=
  common_kinds ++ match c with CEvent => event_kinds | CTodo => todo_kinds end.
(** All other attributes take any value as it is. *)
Definition has_kind (c : cls) (k : list N) (K : attr_kind) : Prop :=
  In (k, K) (kinds c) \/ K = KFree /\ ~ In k (map fst (kinds c)).

(** Equal up to ASCII letter case, the second being in capitals. *)
Definition capitals (s w : list N) : Prop :=
  Forall2 (fun a b => (a = b /\ ~ (97 <= a <= 122) \/ (97 <= a <= 122) /\ b = a - 32)%N) s w.
(** The items of a value that can be iterated over. *)
Inductive items_of : val -> list val -> Prop :=
  | IO_list l : items_of (VList l) l
  | IO_tuple l : items_of (VTuple l) l
  | IO_str s : items_of (VStr s) (map (fun c => VStr [c]) s)
  | IO_dict d : items_of (VDict d) (map (fun kv => VStr (fst kv)) d)
  | IO_container n : items_of (VObj 3 n) [].

(** Assigning [v] to an attribute of kind [K] of an object of class [c]: what is stored,
    or the exception. *)
Inductive taken (E : env) (utc : tz) (c : cls) : attr_kind -> val -> res val -> Prop :=
  | TK_free v : taken E utc c KFree v (Ok v)
  | TK_span t x : ts_kind t = span_kind c -> validate E t = x ->
      taken E utc c KSpan (VSpan t) (match x with Ok _ => Ok (VSpan t) | Err e => Err e end)
  | TK_span_kind t : ts_kind t <> span_kind c -> taken E utc c KSpan (VSpan t) (Err TypeError)
  | TK_span_other v : (forall t, v <> VSpan t) -> taken E utc c KSpan v (Err TypeError)
  | TK_status_none : taken E utc c KStatus VNone (Ok VNone)
  | TK_status s w : capitals s w -> In w [py "TENTATIVE"; py "CONFIRMED"; py "CANCELLED"] ->
      taken E utc c KStatus (VStr s) (Ok (VStr w))
  | TK_status_bad s : (forall w, In w [py "TENTATIVE"; py "CONFIRMED"; py "CANCELLED"] -> ~ capitals s w) ->
      taken E utc c KStatus (VStr s) (Err ValueError)
  | TK_status_other v : v <> VNone -> (forall s, v <> VStr s) -> taken E utc c KStatus v (Err TypeError)
  | TK_utc K v d : K = KUtc \/ K = KStamp -> dt_meant v (Ok (Some d)) ->
      taken E utc c K v (match dt_astimezone E d (Some utc) with Ok d' => Ok (VDt d') | Err e => Err e end)
  | TK_utc_none v : dt_meant v (Ok None) -> taken E utc c KUtc v (Ok VNone)
  | TK_stamp_none v : dt_meant v (Ok None) -> taken E utc c KStamp v (Err ValueError)
  | TK_moment v d : dt_meant v (Ok (Some d)) -> taken E utc c KMoment v (Ok (VDt d))
  | TK_moment_none v : dt_meant v (Ok None) -> taken E utc c KMoment v (Ok VNone)
  | TK_time_err K v e : K = KUtc \/ K = KStamp \/ K = KMoment -> dt_meant v (Err e) -> taken E utc c K v (Err e)
  | TK_list v l : items_of v l -> taken E utc c KList v (Ok (VList l))
  | TK_list_other v : (forall l, ~ items_of v l) -> taken E utc c KList v (Err TypeError)
  | TK_text_none : taken E utc c KText VNone (Ok VNone)
  | TK_text s : taken E utc c KText (VStr s) (Ok (VStr s))
  | TK_text_other v : v <> VNone -> (forall s, v <> VStr s) -> taken E utc c KText v (Err TypeError)
  | TK_org_none : taken E utc c KOrganizer VNone (Ok VNone)
  | TK_org n : taken E utc c KOrganizer (VObj 1 n) (Ok (VObj 1 n))
  | TK_org_other v : v <> VNone -> (forall n, v <> VObj 1 n) -> taken E utc c KOrganizer v (Err TypeError)
  | TK_geo v a b : passes [py "latitude"; py "longitude"] v (py "latitude") a ->
      passes [py "latitude"; py "longitude"] v (py "longitude") b -> size v = 2%nat ->
      taken E utc c KGeo v (Ok (VTuple [a; b]))
  | TK_geo_bad v : collection v ->
      (size v <> 2%nat \/ exists k, In k [py "latitude"; py "longitude"] /\ forall x, ~ passes [py "latitude"; py "longitude"] v k x) ->
      taken E utc c KGeo v (Err TypeError)
  | TK_geo_other v : ~ collection v -> taken E utc c KGeo v (Ok VNone)
  | TK_upto_none n : taken E utc c (KUpto n) VNone (Ok VNone)
  | TK_upto n i : 0 <= i <= n -> taken E utc c (KUpto n) (VInt i) (Ok (VInt i))
  | TK_upto_bad n v : v <> VNone -> (forall i, 0 <= i <= n -> v <> VInt i) -> taken E utc c (KUpto n) v (Err ValueError)
  | TK_extra n : taken E utc c KExtra (VObj 3 n) (Ok (VObj 3 n))
  | TK_extra_other v : (forall n, v <> VObj 3 n) -> taken E utc c KExtra v (Err TypeError)
  | TK_params d : taken E utc c KParams (VDict d) (Ok (VDict d))
  | TK_params_other v : (forall d, v <> VDict d) -> taken E utc c KParams v (Err TypeError).

(** Names that do not stand for attributes of their own. *)
Definition computed (c : cls) : list (list N) :=
  [py "begin"; py "end"; py "duration"] ++ match c with CTodo => [py "due"] | CEvent => [] end.
Definition unwritable (c : cls) : list (list N) :=
  [py "all_day"; py "floating"; py "end_representation"; py "has_explicit_end"; py "__weakref__"] ++
  match c with CTodo => [py "due_representation"; py "has_explicit_due"] | CEvent => [] end.
Definition special (c : cls) : list (list N) := computed c ++ unwritable c ++ [py "__class__"; py "__dict__"].

(** The object with one attribute replaced. *)
Definition with_attr (o : obj) (k : list N) (v : val) : obj := mk_obj (o_cls o) (dict_set k v (o_attrs o)).
(** The object after an assignment with the given result. *)
Definition after (o : obj) (k : list N) (r : res val) : obj * res unit :=
  match r with Ok v => (with_attr o k v, Ok tt) | Err e => (o, Err e) end.

(** The span that a setter makes of the span [t]; [Err] is the exception of the
    conversion. *)
Inductive reset_span (t : timespan) : list N -> val -> res timespan -> Prop :=
  | RS_begin v b : dt_meant v (Ok b) -> reset_span t (py "begin") v (Ok (mk_ts (ts_kind t) b (ts_end t) (ts_dur t) (ts_prec t)))
  | RS_end k v e : k = py "end" \/ k = py "due" -> dt_meant v (Ok e) ->
      reset_span t k v (Ok (mk_ts (ts_kind t) (ts_begin t) e None (ts_prec t)))
  | RS_duration v d : td_meant v (Ok d) -> reset_span t (py "duration") v (Ok (mk_ts (ts_kind t) (ts_begin t) None d (ts_prec t)))
  | RS_time k v x : k = py "begin" \/ k = py "end" \/ k = py "due" -> dt_meant v (Err x) -> reset_span t k v (Err x)
  | RS_duration_err v x : td_meant v (Err x) -> reset_span t (py "duration") v (Err x).

(** ** Construction *)

(** The parameters of the constructors besides begin, end (due), duration and timespan,
    with their defaults; those of uid and dtstamp come from factories. *)
Definition parameters (c : cls) (uid dtstamp : val) : list (list N * val) :=
  [(py "summary", VNone); (py "uid", uid); (py "description", VNone); (py "location", VNone); (py "url", VNone);
   (py "status", VNone); (py "created", VNone); (py "last_modified", VNone); (py "dtstamp", dtstamp);
   (py "alarms", VList []); (py "attach", VList [])] ++
  match c with
  | CEvent => [(py "classification", VNone); (py "transparent", VNone); (py "organizer", VNone); (py "geo", VNone);
               (py "attendees", VList []); (py "categories", VList [])]
  | CTodo => [(py "percent", VNone); (py "priority", VNone); (py "completed", VNone)]
  end.
Definition given_or (kw : dict val) (k : list N) (v : val) : val := match dict_get k kw with Some w => w | None => v end.

(** [o] is what the constructor makes of its arguments. *)
Record made_from (E : env) (utc : tz) (c : cls) (b e d uid dtstamp : val) (kw : dict val) (o : obj) : Prop := {
  mf_conflict : In (py "timespan") (keys kw) -> b = VNone /\ e = VNone /\ d = VNone;
  mf_names : forall k, In k (keys kw) -> k = py "timespan" \/ In k (map fst (parameters c uid dtstamp));
  mf_class : o_cls o = c;
  mf_span : exists b' e' d', dt_meant b (Ok b') /\ dt_meant e (Ok e') /\ td_meant d (Ok d') /\
    exists w, taken E utc c KSpan (given_or kw (py "timespan") (VSpan (mk_ts (span_kind c) b' e' d' PSecond))) (Ok w) /\
      dict_get (py "timespan") (o_attrs o) = Some w;
  mf_params : forall k v K, In (k, v) (parameters c uid dtstamp) -> has_kind c k K ->
    exists w, taken E utc c K (given_or kw k v) (Ok w) /\ dict_get k (o_attrs o) = Some w;
  mf_extra : dict_get (py "extra") (o_attrs o) = Some (VObj 3 0) /\ dict_get (py "extra_params") (o_attrs o) = Some (VDict []);
  mf_others : forall k, ~ In k (map fst (parameters c uid dtstamp)) ->
    ~ In k [py "timespan"; py "extra"; py "extra_params"; py "__post_init__"] -> dict_get k (o_attrs o) = None }.
