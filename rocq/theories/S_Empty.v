(** * Specification: mappings and the converters called without parameters *)
From Verif Require Import M_Base M_Codec M_Cal M_Time M_Span M_Dt M_Empty.
Open Scope Z_scope.

(** What [EmptyDict] answers: it has every key, with the value None, and no items. *)
Definition empty_answer {V} (o : mop V) : res (manswer V) :=
  match o with
  | UGet _ _ _ | UPop _ _ _ | USetDefault _ _ _ => Ok (RValue _ None)
  | UContains _ _ => Ok (RTruth _ true)
  | UPopItem _ => Err KeyError
  | UItems _ => Ok (RItems _ [])
  | _ => Ok (RNone _)
  end.

(** What a dict answers, and what it says about each key afterwards. *)
Definition says {V} (d d' : dict V) (k : list N) (o : option V) : Prop :=
  dict_get k d' = o /\ forall k', k' <> k -> dict_get k' d' = dict_get k' d.
(** The last value given for a key. *)
Inductive last_value {V} (k : list N) : dict V -> V -> Prop :=
  | LV u v w : (forall x, ~ In (k, x) w) -> last_value k (u ++ (k, v) :: w) v.
Inductive dict_does {V} (d : dict V) : mop V -> res (manswer V * dict V) -> Prop :=
  | DO_get k x v : dict_get k d = Some v -> dict_does d (UGet _ k x) (Ok (RValue _ (Some v), d))
  | DO_get_not k x : dict_get k d = None -> dict_does d (UGet _ k x) (Ok (RValue _ x, d))
  | DO_in k : dict_does d (UContains _ k) (Ok (RTruth _ (if dict_get k d then true else false), d))
  | DO_set k v d' : says d d' k (Some v) -> dict_does d (USet _ k v) (Ok (RNone _, d'))
  | DO_del k d' : dict_get k d <> None -> says d d' k None -> dict_does d (UDel _ k) (Ok (RNone _, d'))
  | DO_del_not k : dict_get k d = None -> dict_does d (UDel _ k) (Err KeyError)
  | DO_pop k x v d' : dict_get k d = Some v -> says d d' k None -> dict_does d (UPop _ k x) (Ok (RValue _ (Some v), d'))
  | DO_pop_default k x : dict_get k d = None -> dict_does d (UPop _ k (Some x)) (Ok (RValue _ x, d))
  | DO_pop_not k : dict_get k d = None -> dict_does d (UPop _ k None) (Err KeyError)
  | DO_popitem d' k v : d = d' ++ [(k, v)] -> dict_does d (UPopItem _) (Ok (RValue _ (Some v), d'))
  | DO_popitem_not : d = [] -> dict_does d (UPopItem _) (Err KeyError)
  | DO_clear : dict_does d (UClear _) (Ok (RNone _, []))
  | DO_update u d' : (forall k v, last_value k u v -> dict_get k d' = Some v) ->
      (forall k, (forall x, ~ In (k, x) u) -> dict_get k d' = dict_get k d) -> dict_does d (UUpdate _ u) (Ok (RNone _, d'))
  | DO_setdefault k v x : dict_get k d = Some x -> dict_does d (USetDefault _ k v) (Ok (RValue _ (Some x), d))
  | DO_setdefault_not k v d' : dict_get k d = None -> says d d' k (Some v) -> dict_does d (USetDefault _ k v) (Ok (RValue _ (Some v), d'))
  | DO_items : dict_does d (UItems _) (Ok (RItems _ d, d)).

(** Results with a dict of parameters, as M_Dt has them. *)
Definition in_dict {A} (r : res (A * params * option zones)) : res (A * mparams * option zones) :=
  match r with Ok (a, ps, zs) => Ok (a, MDict ps, zs) | Err e => Err e end.

(** ** Parameters left out *)
(** The zone part: nothing is told about a zone with a name, and without a context it fails. *)
Inductive zone_dropped (D : zone_db) (z : tz) (zs : option zones) : res (option zones) -> Prop :=
  | ZD_fails e : z_from_tzinfo D z = Err e -> zone_dropped D z zs (Err e)
  | ZD_local : z_from_tzinfo D z = Ok None -> zone_dropped D z zs (Ok zs)
  | ZD_no_context n t : z_from_tzinfo D z = Ok (Some (n, t)) -> zs = None -> zone_dropped D z zs (Err AttributeError)
  | ZD_known n t l : z_from_tzinfo D z = Ok (Some (n, t)) -> zs = Some l -> dict_get n l <> None -> zone_dropped D z zs (Ok zs)
  | ZD_new n t l : z_from_tzinfo D z = Ok (Some (n, t)) -> zs = Some l -> dict_get n l = None -> zone_dropped D z zs (Ok (Some (l ++ [(n, t)]))).
Definition with_text (s : list N) (r : res (option zones)) : res (list N * mparams * option zones) :=
  match r with Ok zs => Ok (s, MEmpty, zs) | Err e => Err e end.
Inductive clock_dropped (D : zone_db) (utc : bool) (fmt : Z -> list N) (d : datetime) (zs : option zones) : res (list N * mparams * option zones) -> Prop :=
  | CD_floating : dtz d = None -> clock_dropped D utc fmt d zs (Ok (fmt (wall d), MEmpty, zs))
  | CD_utc z : dtz d = Some z -> utc = true -> z_is_utc D z = true -> clock_dropped D utc fmt d zs (Ok (fmt (wall d) ++ py "Z", MEmpty, zs))
  | CD_zone z r : dtz d = Some z -> utc && z_is_utc D z = false -> zone_dropped D z zs r ->
      clock_dropped D utc fmt d zs (with_text (fmt (wall d)) r).
(** Reading: there is never a TZID. *)
Definition read_plain (D : zone_db) (F : formats) (v : list N) (zs : option zones) : res (datetime * mparams * option zones) :=
  match v with
  | [] => Err IndexError
  | _ => match strptime F (strip_marks v) with
         | Err e => Err e
         | Ok w => Ok (mk_dt w false (if N.eqb (upper_char (last v 0%N)) 90 then Some (z_utc D) else None), MEmpty, zs)
         end
  end.
(** The end of a period goes to a fresh dict of parameters, and must leave it empty. *)
Definition unnamed (D : zone_db) (d : datetime) : Prop :=
  dtz d = None \/ exists z, dtz d = Some z /\ (z_is_utc D z = true \/ z_from_tzinfo D z = Ok None).
Inductive period_dropped (D : zone_db) (E : env) (t : timespan) (zs : option zones) : res (list N * mparams * option zones) -> Prop :=
  | PD_no_begin : ts_begin t = None -> period_dropped D E t zs (Err ValueError)
  | PD_duration_fails b d e : ts_begin t = Some b -> ts_dur t = Some d -> clock_dropped D true fmt_datetime b zs (Err e) ->
      period_dropped D E t zs (Err e)
  | PD_duration b d s zs1 : ts_begin t = Some b -> ts_dur t = Some d -> clock_dropped D true fmt_datetime b zs (Ok (s, MEmpty, zs1)) ->
      period_dropped D E t zs (Ok (s ++ py "/" ++ duration_serialize d, MEmpty, zs1))
  | PD_end_fails b e : ts_begin t = Some b -> ts_dur t = None -> eff_end E t = Err e -> period_dropped D E t zs (Err e)
  | PD_no_end b : ts_begin t = Some b -> ts_dur t = None -> eff_end E t = Ok None -> period_dropped D E t zs (Err ValueError)
  | PD_begin_fails b d e : ts_begin t = Some b -> ts_dur t = None -> eff_end E t = Ok (Some d) ->
      clock_dropped D true fmt_datetime b zs (Err e) -> period_dropped D E t zs (Err e)
  | PD_last_fails b d s zs1 e : ts_begin t = Some b -> ts_dur t = None -> eff_end E t = Ok (Some d) ->
      clock_dropped D true fmt_datetime b zs (Ok (s, MEmpty, zs1)) -> clock_dropped D true fmt_datetime d zs1 (Err e) -> period_dropped D E t zs (Err e)
  | PD_named b d s zs1 s' zs2 : ts_begin t = Some b -> ts_dur t = None -> eff_end E t = Ok (Some d) ->
      clock_dropped D true fmt_datetime b zs (Ok (s, MEmpty, zs1)) -> clock_dropped D true fmt_datetime d zs1 (Ok (s', MEmpty, zs2)) ->
      ~ unnamed D d -> period_dropped D E t zs (Err ValueError)
  | PD_both b d s zs1 s' zs2 : ts_begin t = Some b -> ts_dur t = None -> eff_end E t = Ok (Some d) ->
      clock_dropped D true fmt_datetime b zs (Ok (s, MEmpty, zs1)) -> clock_dropped D true fmt_datetime d zs1 (Ok (s', MEmpty, zs2)) ->
      unnamed D d -> period_dropped D E t zs (Ok (s ++ py "/" ++ s', MEmpty, zs2)).
