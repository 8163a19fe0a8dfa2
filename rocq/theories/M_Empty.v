(** * Value converters called without parameters or context: [EmptyDict] (src/ics/types.py:143-168)

    The converters take [params=EmptyParams] and [context=EmptyContext] when they are
    called directly. Both are [EmptyDict]; the other methods come from
    [collections.abc.MutableMapping] and are modelled as they are written there. An answer
    is an [option], [None] standing for Python's None. Warnings are not modelled. A context
    left out is [None] in M_Dt; here the parameters may be left out as well. *)
From Verif Require Import M_Base M_Codec M_Cal M_Time M_Span M_Dt.
Open Scope Z_scope.

Section Map.
Variable V : Type.
Inductive mapping := MEmpty | MDict (d : dict V).

(** [__getitem__], [__setitem__], [__delitem__], [__len__], [__iter__] (types.py:146-161) *)
Definition m_getitem (m : mapping) (k : str) : res (option V) :=
  match m with
  | MEmpty => Ok None
  | MDict d => match dict_get k d with Some v => Ok (Some v) | None => Err KeyError end
  end.
Definition m_setitem (k : str) (v : V) (m : mapping) : mapping :=
  match m with MEmpty => MEmpty | MDict d => MDict (dict_set k v d) end.
Definition m_delitem (k : str) (m : mapping) : res mapping :=
  match m with
  | MEmpty => Ok MEmpty
  | MDict d => match dict_get k d with Some _ => Ok (MDict (dict_del k d)) | None => Err KeyError end
  end.
Definition m_items (m : mapping) : dict V := match m with MEmpty => [] | MDict d => d end.
Definition m_bool (m : mapping) : bool := match m_items m with [] => false | _ => true end.

(** [Mapping.get], [Mapping.__contains__] *)
Definition m_get (k : str) (default : option V) (m : mapping) : res (option V) :=
  match m_getitem m k with Err KeyError => Ok default | r => r end.
Definition m_contains (k : str) (m : mapping) : res bool :=
  match m_getitem m k with Err KeyError => Ok false | Err e => Err e | Ok _ => Ok true end.
(** [MutableMapping.pop] (the outer [None]: no default), [popitem], [clear], [update], [setdefault] *)
Definition m_pop (k : str) (default : option (option V)) (m : mapping) : res (option V * mapping) :=
  match m_getitem m k with
  | Err KeyError => match default with Some d => Ok (d, m) | None => Err KeyError end
  | Err e => Err e
  | Ok v => do m' <- m_delitem k m; Ok (v, m')
  end.
Definition m_popitem (m : mapping) : res (str * option V * mapping) :=
  match m with
  | MEmpty => Err KeyError
  | MDict d => match rev d with (k, v) :: d' => Ok (k, Some v, MDict (rev d')) | [] => Err KeyError end
  end.
Definition m_clear (m : mapping) : mapping := match m with MEmpty => MEmpty | MDict _ => MDict [] end.
Definition m_update (m : mapping) (d : dict V) : mapping :=
  fold_left (fun m kv => m_setitem (fst kv) (snd kv) m) d m.
Definition m_setdefault (k : str) (v : V) (m : mapping) : res (option V * mapping) :=
  match m_getitem m k with Err KeyError => Ok (Some v, m_setitem k v m) | Err e => Err e | Ok x => Ok (x, m) end.

(** Any use of a mapping: what it answers and what is left. *)
Inductive mop :=
  | UGet (k : str) (d : option V) | UContains (k : str) | USet (k : str) (v : V) | UDel (k : str)
  | UPop (k : str) (d : option (option V)) | UPopItem | UClear | UUpdate (d : dict V) | USetDefault (k : str) (v : V) | UItems.
Inductive manswer := RNone | RValue (v : option V) | RTruth (b : bool) | RItems (d : dict V).
Definition m_do (o : mop) (m : mapping) : res (manswer * mapping) :=
  match o with
  | UGet k d => do v <- m_get k d m; Ok (RValue v, m)
  | UContains k => do b <- m_contains k m; Ok (RTruth b, m)
  | USet k v => Ok (RNone, m_setitem k v m)
  | UDel k => do m' <- m_delitem k m; Ok (RNone, m')
  | UPop k d => do (v, m') <- m_pop k d m; Ok (RValue v, m')
  | UPopItem => do (_, v, m') <- m_popitem m; Ok (RValue v, m')
  | UClear => Ok (RNone, m_clear m)
  | UUpdate d => Ok (RNone, m_update m d)
  | USetDefault k v => do (x, m') <- m_setdefault k v m; Ok (RValue x, m')
  | UItems => Ok (RItems (m_items m), m)
  end.
(** Uses one after the other; the caller goes on after an exception. *)
Fixpoint m_run (os : list mop) (m : mapping) : list (res manswer) * mapping :=
  match os with
  | [] => ([], m)
  | o :: os' =>
      match m_do o m with
      | Ok (a, m') => let '(l, n) := m_run os' m' in (Ok a :: l, n)
      | Err e => let '(l, n) := m_run os' m in (Err e :: l, n)
      end
  end.
End Map.
Arguments MEmpty {V}.
Arguments MDict {V} d.

(** [copy_extra_params] (types.py:171-187) for values that are lists *)
Definition copy_params (m : mapping (list str)) : params := if m_bool _ m then m_items _ m else [].

Section Conv.
Variable D : zone_db.
Definition mparams := mapping (list str).

(** [_serialize_dt] (datetime.py:36-53) *)
Definition write_zone_m (z : tz) (ps : mparams) (zs : option zones) : res (mparams * option zones) :=
  do r <- z_from_tzinfo D z;
  match r with
  | None => Ok (ps, zs)
  | Some (tzid, t) =>
      let ps' := m_setitem _ (py "TZID") [tzid] ps in
      match zs with
      | None => Err AttributeError
      | Some zs => Ok (ps', Some (match dict_get tzid zs with Some _ => zs | None => dict_set tzid t zs end))
      end
  end.
Definition serialize_dt_m (d : datetime) (ps : mparams) (zs : option zones) : res (str * mparams * option zones) :=
  match dtz d with
  | None => Ok (fmt_datetime (wall d), ps, zs)
  | Some z =>
      if z_is_utc D z then Ok (fmt_datetime (wall d) ++ py "Z", ps, zs)
      else do (ps', zs') <- write_zone_m z ps zs; Ok (fmt_datetime (wall d), ps', zs')
  end.
Definition time_serialize_m (d : datetime) (ps : mparams) (zs : option zones) : res (str * mparams * option zones) :=
  match dtz d with
  | None => Ok (fmt_time (fields_of (wall d)), ps, zs)
  | Some z => do (ps', zs') <- write_zone_m z ps zs; Ok (fmt_time (fields_of (wall d)), ps', zs')
  end.

(** [_parse_dt] (datetime.py:55-129) *)
Definition parse_dt_m (F : formats) (value : str) (ps : mparams) (zs : option zones) : res (datetime * mparams * option zones) :=
  do (l, ps') <- m_pop _ (py "TZID") (Some None) ps;
  do tzid <- match l with
    | Some (x :: _ :: _) => Err ValueError
    | Some [x] => Ok (match x with [] => None | _ => Some x end)
    | Some [] | None => Ok None
    end;
  match rev value with
  | [] => Err IndexError
  | c :: _ =>
      do w <- strptime F (strip_marks value);
      if N.eqb (upper_char c) 90 then
        match tzid with
        | Some _ => Err ValueError
        | None => Ok (mk_dt w false (Some (z_utc D)), ps', zs)
        end
      else
        match tzid with
        | None => Ok (mk_dt w false None, ps', zs)
        | Some t => do (z, zs') <- read_zone D t zs; Ok (mk_dt w false (Some z), ps', zs')
        end
  end.

(** PeriodConverter (datetime.py:376-441) *)
Definition period_parse_m (E : env) (value : str) (ps : mparams) (zs : option zones) : res (timespan * mparams * option zones) :=
  match partition_slash value with
  | (_, None) => Err ValueError
  | (start, Some fin) =>
      match fin with
      | 80%N :: _ =>
          do (b, ps1, zs1) <- parse_dt_m FDate start ps zs;
          do d <- duration_parse fin;
          do t <- make E KBase (Some b) None (Some d) PSecond;
          Ok (t, ps1, zs1)
      | _ =>
          let end_params := MDict (copy_params ps) in
          do (b, ps1, zs1) <- parse_dt_m FDate start ps zs;
          do (e, _, zs2) <- parse_dt_m FDate fin end_params zs1;
          do t <- make E KBase (Some b) (Some e) None PSecond;
          Ok (t, ps1, zs2)
      end
  end.
(** [!=] between the dict and the mapping: by [dict(items)] (Mapping.__eq__) *)
Definition period_serialize_m (E : env) (t : timespan) (ps : mparams) (zs : option zones) : res (str * mparams * option zones) :=
  match ts_begin t with
  | None => Err ValueError
  | Some b =>
      match end_representation t with
      | Some RDuration =>
          do d <- eff_duration E t;
          do (s, ps1, zs1) <- serialize_dt_m b ps zs;
          match d with
          | Some d => Ok (s ++ py "/" ++ duration_serialize d, ps1, zs1)
          | None => Err AttributeError
          end
      | _ =>
          do e <- eff_end E t;
          match e with
          | None => Err ValueError
          | Some e =>
              let end_params := MDict (copy_params ps) in
              do (s, ps1, zs1) <- serialize_dt_m b ps zs;
              do (s', ps2, zs2) <- serialize_dt_m e end_params zs1;
              if params_eqb (m_items _ ps2) (m_items _ ps1) then Ok (s ++ py "/" ++ s', ps1, zs2) else Err ValueError
          end
      end
  end.

(** PersonConverter (special.py:50-76): the address as its text, the extra parameters *)
Definition person_parse_m (value : str) (ps : mparams) : str * params * mparams := (value, m_items _ ps, m_clear _ ps).
Definition person_serialize_m (email : str) (extra : params) (ps : mparams) : str * mparams := (email, m_update _ ps extra).
End Conv.
