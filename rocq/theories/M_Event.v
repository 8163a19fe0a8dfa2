(** * Events and todos: attributes, setters and methods (src/ics/event.py, todo.py,
      types.py:112-140, utils.py:27-62)

    An object is its class and its attribute dictionary. Methods run in a
    state-and-exception monad: an exception leaves whatever has been stored before
    it, so that "nothing is changed on failure" is a theorem and not built in.
    The class-level cache of attribute fields is the subject of M_Attr; here every
    class has its own table. Modelled classes: Event and Todo. *)
From Verif Require Import M_Base M_Codec M_Cal M_Time M_Span.
Open Scope Z_scope.

(** Python values that can be given to a setter. [VObj c n] is the object [n] of class
    [c] (classes: 1 Organizer, 2 Attendee, 3 a Container without items; others are
    unrelated). [VDict] is a dict with string keys. Floats and bools are not modelled. *)
Inductive val :=
  | VNone | VStr (s : str) | VInt (n : Z) | VDt (d : datetime) | VDate (w : Z) | VTd (us : Z)
  | VSpan (t : timespan) | VList (l : list val) | VTuple (l : list val) | VObj (c n : N)
  | VTz (z : tz) | VDict (l : dict val).
(** [bool(v)] *)
Definition truthy (v : val) : bool :=
  match v with
  | VNone | VStr [] | VList [] | VTuple [] | VDict [] | VObj 3 _ => false
  | VInt n => negb (n =? 0)
  | VTd n => negb (n =? 0)
  | _ => true
  end.

(** The datetime constructor: the arguments are converted to C integers from left to
    right, then fields are checked. [a i] is the argument of the [i]-th parameter, [bad]
    tells that there is an argument without parameter. The pickle form, [datetime(s)] for
    a string of length ten, is not modelled. *)
Definition c_int (o : option val) : res (option Z) :=
  match o with
  | None => Ok None
  | Some (VInt n) => if (-2147483648 <=? n) && (n <=? 2147483647) then Ok (Some n) else Err OverflowError
  | Some _ => Err TypeError
  end.
Definition c_req (o : option val) : res Z :=
  do x <- c_int o; match x with Some n => Ok n | None => Err TypeError end.
Definition c_opt (o : option val) : res Z := do x <- c_int o; Ok (match x with Some n => n | None => 0 end).
Definition datetime_new (a : nat -> option val) (bad : bool) : res datetime :=
  do y <- c_req (a 0%nat); do m <- c_req (a 1%nat); do d <- c_req (a 2%nat);
  do hh <- c_opt (a 3%nat); do mi <- c_opt (a 4%nat); do ss <- c_opt (a 5%nat); do us <- c_opt (a 6%nat);
  do fo <- c_opt (a 8%nat);
  do _ <- guard bad TypeError;
  do _ <- guard (negb (valid_date y m d && valid_time hh mi ss us && (0 <=? fo) && (fo <=? 1))) ValueError;
  do z <- match a 7%nat with None | Some VNone => Ok None | Some (VTz z) => Ok (Some z) | Some _ => Err TypeError end;
  Ok (mk_dt (mk_wall y m d hh mi ss us) (fo =? 1) z).
(** Positional arguments: [fold] has to be given by name, more than nine arguments are
    refused before any conversion. *)
Definition datetime_of_tuple (l : list val) : res datetime :=
  if Nat.ltb 9 (length l) then Err TypeError
  else datetime_new (fun i => if Nat.ltb i 8 then nth_error l i else None) (Nat.ltb 8 (length l)).
Definition DATETIME_ARGS : list str :=
  [py "year"; py "month"; py "day"; py "hour"; py "minute"; py "second"; py "microsecond"; py "tzinfo"; py "fold"].
(** Keyword arguments. *)
Definition by_name (names : list str) (d : dict val) (i : nat) : option val :=
  match nth_error names i with Some k => dict_get k d | None => None end.
Definition unnamed (names : list str) (d : dict val) : bool :=
  negb (forallb (fun k => existsb (str_eqb k) names) (keys d)).
Definition datetime_of_dict (d : dict val) : res datetime :=
  if Nat.ltb 9 (length d) then Err TypeError
  else datetime_new (by_name DATETIME_ARGS d) (unnamed DATETIME_ARGS d).
(** [timedelta(days, seconds, microseconds, milliseconds, minutes, hours, weeks)]; only
    the sum is bounded. *)
Definition td_arg (o : option val) (unit : Z) : res Z :=
  match o with None => Ok 0 | Some (VInt n) => Ok (n * unit) | Some _ => Err TypeError end.
Definition timedelta_new (a : nat -> option val) (bad : bool) : res Z :=
  do _ <- guard bad TypeError;
  do d <- td_arg (a 0%nat) US_DAY; do s <- td_arg (a 1%nat) US_SEC; do us <- td_arg (a 2%nat) 1;
  do ms <- td_arg (a 3%nat) 1000; do mi <- td_arg (a 4%nat) (60 * US_SEC);
  do hh <- td_arg (a 5%nat) (3600 * US_SEC); do w <- td_arg (a 6%nat) (7 * US_DAY);
  timedelta (d + s + us + ms + mi + hh + w).
Definition timedelta_of_tuple (l : list val) : res Z := timedelta_new (nth_error l) (Nat.ltb 7 (length l)).
Definition TIMEDELTA_ARGS : list str :=
  [py "days"; py "seconds"; py "microseconds"; py "milliseconds"; py "minutes"; py "hours"; py "weeks"].
Definition timedelta_of_dict (d : dict val) : res Z :=
  timedelta_new (by_name TIMEDELTA_ARGS d) (unnamed TIMEDELTA_ARGS d).
(** [ensure_datetime] (utils.py:27-39), [ensure_timedelta] (52-62). *)
Definition ensure_datetime (v : val) : res (option datetime) :=
  match v with
  | VNone => Ok None
  | VDt d => Ok (Some d)
  | VDate w => Ok (Some (mk_dt w false None))
  | VTuple l => rmap Some (datetime_of_tuple l)
  | VDict d => rmap Some (datetime_of_dict d)
  | _ => Err ValueError
  end.
Definition ensure_timedelta (v : val) : res (option Z) :=
  match v with
  | VNone => Ok None
  | VTd us => Ok (Some us)
  | VTuple l => rmap Some (timedelta_of_tuple l)
  | VDict d => rmap Some (timedelta_of_dict d)
  | _ => Err ValueError
  end.
Definition val_of_dt (o : option datetime) : val := match o with Some d => VDt d | None => VNone end.

Inductive cls := CEvent | CTodo.
Definition span_kind (c : cls) : kind := match c with CEvent => KEvent | CTodo => KTodo end.
Definition kind_eqb (a b : kind) : bool :=
  match a, b with KBase, KBase | KEvent, KEvent | KTodo, KTodo => true | _, _ => false end.

Record obj := mk_obj { o_cls : cls; o_attrs : dict val }.

(** State and exceptions. *)
Definition M (A : Type) := obj -> obj * res A.
Definition mret {A} (a : A) : M A := fun o => (o, Ok a).
Definition mraise {A} (e : exn) : M A := fun o => (o, Err e).
Definition mlift {A} (r : res A) : M A := fun o => (o, r).
Definition mbind {A B} (m : M A) (f : A -> M B) : M B :=
  fun o => match m o with (o', Ok a) => f a o' | (o', Err e) => (o', Err e) end.
Notation "'let!' x := m 'in' k" := (mbind m (fun x => k)) (at level 200, x pattern).
Definition store (k : str) (v : val) : M unit :=
  fun o => (mk_obj (o_cls o) (dict_set k v (o_attrs o)), Ok tt).
(** [self.__dict__[k]] *)
Definition load (k : str) : M val :=
  fun o => (o, match dict_get k (o_attrs o) with Some v => Ok v | None => Err AttributeError end).

Section Event.
Variable E : env.
(** The UTC zone of the library (timezone/__init__.py:237). *)
Variable utc : tz.

(** [ensure_utc] (timezone/__init__.py:41-45). *)
Definition ensure_utc (v : val) : res val :=
  do d <- ensure_datetime v;
  match d with
  | None => Ok VNone
  | Some d => rmap VDt (dt_astimezone E d (Some utc))
  end.

(** Converters and validators of the attributes. *)
Definition c_id (v : val) : res val := Ok v.
Definition c_datetime (v : val) : res val := rmap val_of_dt (ensure_datetime v).
(** [c_optional(str.upper)]; [str.upper] of a non-string is a TypeError. *)
Definition c_upper (v : val) : res val :=
  match v with VNone => Ok VNone | VStr s => Ok (VStr (upper s)) | _ => Err TypeError end.
Definition c_list (v : val) : res val :=
  match v with
  | VList l | VTuple l => Ok (VList l)
  | VStr s => Ok (VList (map (fun c => VStr [c]) s))
  | VDict d => Ok (VList (map VStr (keys d)))
  | VObj 3 _ => Ok (VList [])
  | _ => Err TypeError
  end.
(** [make_geo] (geo.py:19-25): tuples of two and dicts of the two names, anything but
    tuples and dicts is dropped. *)
Definition c_geo (v : val) : res val :=
  match v with
  | VTuple [a; b] => Ok (VTuple [a; b])
  | VTuple _ => Err TypeError
  | VDict d =>
      match dict_get (py "latitude") d, dict_get (py "longitude") d with
      | Some a, Some b => if Nat.ltb 2 (length d) then Err TypeError else Ok (VTuple [a; b])
      | _, _ => Err TypeError
      end
  | _ => Ok VNone
  end.
Definition validator := cls -> val -> res unit.
Definition v_any : validator := fun _ _ => Ok tt.
Definition STATUS : list str := [py "TENTATIVE"; py "CONFIRMED"; py "CANCELLED"].
Definition v_status : validator := fun _ v =>
  match v with
  | VNone => Ok tt
  | VStr s => guard (negb (existsb (str_eqb s) STATUS)) ValueError
  | _ => Err ValueError
  end.
Definition v_not_none : validator := fun _ v =>
  match v with VNone => Err ValueError | _ => Ok tt end.
Definition v_range (hi : Z) : validator := fun _ v =>
  match v with
  | VNone => Ok tt
  | VInt n => guard (negb ((0 <=? n) && (n <=? hi))) ValueError
  | _ => Err ValueError
  end.
Definition v_str : validator := fun _ v =>
  match v with VNone | VStr _ => Ok tt | _ => Err TypeError end.
Definition v_instance (c : N) : validator := fun _ v =>
  match v with VNone => Ok tt | VObj c' _ => guard (negb (N.eqb c c')) TypeError | _ => Err TypeError end.
(** [validate_timespan] (event.py:82-85). *)
Definition v_timespan : validator := fun c v =>
  match v with
  | VSpan t => do _ <- guard (negb (kind_eqb (ts_kind t) (span_kind c))) TypeError; validate E t
  | _ => Err TypeError
  end.

Record field := mk_field { fl_conv : val -> res val; fl_valid : validator; fl_default : val }.

(** Attribute tables: CalendarEntryAttrs (event.py:56-70), EventAttrs (253-266),
    TodoAttrs (todo.py:23-29). The defaults of uid and dtstamp come from factories and
    are arguments of the constructor in the model. *)
Definition common_fields (uid dtstamp : val) : list (str * field) :=
  [ (py "timespan", mk_field c_id v_timespan VNone);
    (py "summary", mk_field c_id v_any VNone);
    (py "uid", mk_field c_id v_any uid);
    (py "description", mk_field c_id v_any VNone);
    (py "location", mk_field c_id v_any VNone);
    (py "url", mk_field c_id v_any VNone);
    (py "status", mk_field c_upper v_status VNone);
    (py "created", mk_field ensure_utc v_any VNone);
    (py "last_modified", mk_field ensure_utc v_any VNone);
    (py "dtstamp", mk_field ensure_utc v_not_none dtstamp);
    (py "alarms", mk_field c_list v_any (VList []));
    (py "attach", mk_field c_list v_any (VList [])) ].
Definition class_fields (c : cls) (uid dtstamp : val) : list (str * field) :=
  common_fields uid dtstamp ++
  match c with
  | CEvent =>
    [ (py "classification", mk_field c_id v_str VNone);
      (py "transparent", mk_field c_id v_any VNone);
      (py "organizer", mk_field c_id (v_instance 1) VNone);
      (py "geo", mk_field c_geo v_any VNone);
      (py "attendees", mk_field c_list v_any (VList []));
      (py "categories", mk_field c_list v_any (VList [])) ]
  | CTodo =>
    [ (py "percent", mk_field c_id (v_range 100) VNone);
      (py "priority", mk_field c_id (v_range 9) VNone);
      (py "completed", mk_field c_datetime v_any VNone) ]
  end.
(** Attributes without init parameter (component.py:18-26). *)
Definition v_container : validator := fun _ v => match v with VObj 3 _ => Ok tt | _ => Err TypeError end.
Definition v_dict : validator := fun _ v => match v with VDict _ => Ok tt | _ => Err TypeError end.
Definition hidden_fields : list (str * field) :=
  [ (py "extra", mk_field c_id v_container VNone); (py "extra_params", mk_field c_id v_dict (VDict [])) ].
Definition fields (c : cls) : list (str * field) := class_fields c VNone VNone ++ hidden_fields.

(** [RuntimeAttrValidation.__setattr__] (types.py:126-140) for an attribute that has a
    field; the conversion and validation precede the store. They are skipped unless the
    mark left by [__attrs_post_init__] (122-123) is there. *)
Definition POST_INIT : str := py "__post_init__".
Definition checking (o : obj) : bool :=
  match dict_get POST_INIT (o_attrs o) with Some v => truthy v | None => false end.
Definition set_field (k : str) (v : val) : M unit := fun o =>
  match (if checking o then dict_get k (fields (o_cls o)) else None) with
  | Some f =>
      (let! v' := mlift (fl_conv f v) in
       let! _ := mlift (fl_valid f (o_cls o) v') in
       store k v') o
  | None => store k v o
  end.

Definition get_span : M timespan :=
  let! v := load (py "timespan") in
  match v with VSpan t => mret t | _ => mraise AttributeError end.
Definition set_span (t : timespan) : M unit := set_field (py "timespan") (VSpan t).

(** Setters [begin], [end], [duration] (event.py:101-143). *)
Definition set_begin (v : val) : M unit :=
  let! t := get_span in
  let! b := mlift (ensure_datetime v) in
  let! t' := mlift (ts_replace E t (Some b) None None None) in
  set_span t'.
Definition set_end (v : val) : M unit :=
  let! t := get_span in
  let! e := mlift (ensure_datetime v) in
  let! t' := mlift (ts_replace E t None (Some e) (Some None) None) in
  set_span t'.
Definition set_duration (v : val) : M unit :=
  let! t := get_span in
  let! d := mlift (ensure_timedelta v) in
  let! t' := mlift (ts_replace E t None (Some None) (Some d) None) in
  set_span t'.

(** Read-only properties: assigning to them is an AttributeError. The last two are those
    of todo.py:73-74. *)
Definition readonly (c : cls) : list str :=
  [py "all_day"; py "floating"; py "end_representation"; py "has_explicit_end"; py "__weakref__"] ++
  match c with CTodo => [py "due_representation"; py "has_explicit_due"] | CEvent => [] end.
(** [obj.k = v]: data descriptors of the class win over the instance dictionary. No
    modelled value is a class; a dict can replace the instance dictionary. *)
Definition set_attr (k : str) (v : val) : M unit := fun o =>
  if str_eqb k (py "begin") then set_begin v o
  else if str_eqb k (py "end") then set_end v o
  else if str_eqb k (py "duration") then set_duration v o
  else if str_eqb k (py "due") && match o_cls o with CTodo => true | _ => false end then set_end v o
  else if existsb (str_eqb k) (readonly (o_cls o)) then (o, Err AttributeError)
  else if str_eqb k (py "__class__") then (o, Err TypeError)
  else if str_eqb k (py "__dict__") then
    match v with VDict d => (mk_obj (o_cls o) d, Ok tt) | _ => (o, Err TypeError) end
  else set_field k v o.

(** Methods (event.py:145-185, todo.py:66-69). *)
Definition convert_end (tg : target) : M unit := fun o =>
  let tg' := match o_cls o, tg with CTodo, TDue => TEnd | _, _ => tg end in
  (let! t := get_span in
   let! t' := mlift (ts_convert_end E t tg') in
   set_span t') o.
Definition make_all_day : M unit :=
  let! t := get_span in let! t' := mlift (ts_make_all_day E t) in set_span t'.
Definition unset_all_day : M unit :=
  let! t := get_span in
  let! t' := mlift (ts_replace E t None None None (Some PSeconds)) in set_span t'.
Definition replace_timezone (z : option tz) : M unit :=
  let! t := get_span in let! t' := mlift (ts_replace_timezone E t z) in set_span t'.
Definition convert_timezone (z : option tz) : M unit :=
  let! t := get_span in let! t' := mlift (ts_convert_timezone E t z) in set_span t'.
(** [add_attendee] (event.py:268-271). Todos have no such method. *)
Definition add_attendee (v : val) : M unit := fun o =>
  match o_cls o with
  | CTodo => (o, Err AttributeError)
  | CEvent =>
      match v with
      | VObj 2 _ =>
          (let! l := load (py "attendees") in
           match l with
           | VList l => store (py "attendees") (VList (l ++ [v]))     (* list.append *)
           | VObj 3 _ => mraise TypeError                              (* Container.append *)
           | _ => mraise AttributeError
           end) o
      | _ => (o, Err TypeError)
      end
  end.

Inductive op :=
  | OSet (k : str) (v : val)
  | OConvertEnd (tg : target) | OMakeAllDay | OUnsetAllDay
  | OReplaceTz (z : option tz) | OConvertTz (z : option tz) | OAddAttendee (v : val).
Definition run (p : op) : M unit :=
  match p with
  | OSet k v => set_attr k v
  | OConvertEnd tg => convert_end tg
  | OMakeAllDay => make_all_day
  | OUnsetAllDay => unset_all_day
  | OReplaceTz z => replace_timezone z
  | OConvertTz z => convert_timezone z
  | OAddAttendee v => add_attendee v
  end.
(** A history: exceptions are caught by the caller, who goes on. *)
Definition run_all (ps : list op) (o : obj) : obj := fold_left (fun o p => fst (run p o)) ps o.

(** Reading the properties. *)
Definition get_begin : M (option datetime) := let! t := get_span in mret (ts_begin t).
Definition get_end : M (option datetime) := let! t := get_span in mlift (eff_end E t).
Definition get_duration : M (option Z) := let! t := get_span in mlift (eff_duration E t).

(** Construction (event.py:289-317, todo.py:42-62 and the [__init__] generated by
    attrs): all attributes are converted, then all are validated. [kw] are the keyword
    arguments other than begin, end, duration. *)
Fixpoint convert_all (fs : list (str * field)) (kw : dict val) : res (dict val) :=
  match fs with
  | [] => Ok []
  | (k, f) :: fs' =>
      do v <- fl_conv f (match dict_get k kw with Some v => v | None => fl_default f end);
      do r <- convert_all fs' kw; Ok ((k, v) :: r)
  end.
Fixpoint validate_all (c : cls) (fs : list (str * field)) (attrs : dict val) : res unit :=
  match fs with
  | [] => Ok tt
  | (k, f) :: fs' =>
      do _ <- match dict_get k attrs with Some v => fl_valid f c v | None => Ok tt end;
      validate_all c fs' attrs
  end.
Definition new (c : cls) (b e d uid dtstamp : val) (kw : dict val) : res obj :=
  let given v := match v with VNone => false | _ => true end in
  do _ <- guard ((given b || given e || given d) && dict_mem (py "timespan") kw) ValueError;
  do b' <- ensure_datetime b; do e' <- ensure_datetime e; do d' <- ensure_timedelta d;
  do t <- make E (span_kind c) b' e' d' PSecond;
  let kw' := if dict_mem (py "timespan") kw then kw else dict_set (py "timespan") (VSpan t) kw in
  let fs := class_fields c uid dtstamp in
  do _ <- guard (negb (forallb (fun kv => existsb (fun f => str_eqb (fst kv) (fst f)) fs) kw')) TypeError;
  do attrs <- convert_all fs kw';
  do _ <- validate_all c fs attrs;
  (* [__attrs_post_init__] of types.py:122-123 and component.py:28-30; [True] is [1] *)
  Ok (mk_obj c (attrs ++ [(py "extra_params", VDict []); (POST_INIT, VInt 1); (py "extra", VObj 3 0)])).

End Event.
