(** * Specification: equality of components and which of them can be stored

    "Storable" lists, field by field, the values that iCalendar text can carry with this
    library; nothing here refers to the reading or writing functions. *)
From Verif Require Import M_Base M_Line M_Codec M_Cal M_Time M_Span M_Dt M_Tree M_Comp S_Tree S_Comp S_Codec.
Open Scope N_scope.

(** ** Equality

    Python's [==]: quoted and unquoted parameter values are the same, dictionaries are
    compared by key, and all UTC zones are the same zone. *)
Definition bare (p : xp) : list (list N * list (list N)) := map (fun kv => (fst kv, map pval_str (snd kv))) p.
Definition eq_par (a b : xpar) : Prop :=
  match a, b with
  | XOne p, XOne q => bare p = bare q
  | XMany l, XMany m => map bare l = map bare m
  | _, _ => False
  end.
Definition eq_opt {A} (R : A -> A -> Prop) (a b : option A) : Prop :=
  match a, b with Some x, Some y => R x y | None, None => True | _, _ => False end.

Section Store.
Variable X : ext.
Definition utc (d : datetime) : Prop :=
  match dtz d with Some z => z_is_utc (x_zdb X) z = true | None => False end.
Definition eq_dt (d e : datetime) : Prop :=
  wall d = wall e /\ fold d = fold e /\ (dtz d = dtz e \/ utc d /\ utc e).
Definition eq_span (t u : timespan) : Prop :=
  ts_kind t = ts_kind u /\ eq_opt eq_dt (ts_begin t) (ts_begin u) /\ eq_opt eq_dt (ts_end t) (ts_end u) /\
  ts_dur t = ts_dur u /\ ts_prec t = ts_prec u.
Definition eq_val (v w : val) : Prop :=
  match v, w with
  | VDt d, VDt e => eq_dt d e
  | VPerson r e p, VPerson r' e' p' => r = r' /\ e = e' /\ bare p = bare p'
  | VSpan t, VSpan u => eq_span t u
  | _, _ => v = w
  end.
Definition eq_attr (a b : attr) : Prop :=
  match a, b with
  | ANone, ANone => True
  | AOne v, AOne w => eq_val v w
  | AMany l, AMany m => Forall2 eq_val l m
  | _, _ => False
  end.
Record eq_comp {M} (EM : M -> M -> Prop) (x y : comp M) : Prop := mk_eq_comp {
  eq_cls : c_cls x = c_cls y;
  eq_name : c_name x = c_name y;
  eq_extra : Forall2 item_eq (c_extra x) (c_extra y);
  eq_attrs : forall k, eq_opt eq_attr (dict_get k (c_attrs x)) (dict_get k (c_attrs y));
  eq_mem : forall k, eq_opt (Forall2 EM) (dict_get k (c_mem x)) (dict_get k (c_mem y));
  eq_params : forall k, eq_opt eq_par (dict_get k (c_params x)) (dict_get k (c_params y))
}.

(** Reading a list attribute leaves a note for every value whether the next one stands on
    the same line. This is the component with these notes added where there were none. *)
Definition line_marks (p : xp) (n : nat) : list xp :=
  repeat (p ++ [(py "__merge_next", [PRaw (py "TRUE")])]) (pred n) ++ [p ++ [(py "__merge_next", [PRaw (py "FALSE")])]].
Definition note {M} (x : comp M) (ps : dict xpar) (a : list N) : dict xpar :=
  match dict_get a (c_attrs x), dict_get (upper a) (c_params x) with
  | Some (AMany (v :: vs)), None => dict_set (upper a) (XMany (flat_map (fun _ => line_marks [] 1) (v :: vs))) ps
  | _, _ => ps
  end.
Definition noted {M} (x : comp M) : comp M :=
  set_params (fold_left (note x) [py "attach"; py "attendees"; py "categories"] (c_params x)) x.

(** All list attributes have their notes, or are empty. *)
Definition annotated {M} (x : comp M) : Prop :=
  forall a v vs, In a [py "attach"; py "attendees"; py "categories"] ->
    dict_get a (c_attrs x) = Some (AMany (v :: vs)) -> dict_get (upper a) (c_params x) <> None.

(** ** UTC

    The UTC zone of the library, that of dateutil, and whatever else counts as UTC. *)
Record utc_env : Prop := mk_utc_env {
  ue_utc : z_is_utc (x_zdb X) (z_utc (x_zdb X)) = true;
  ue_ics : z_is_utc (x_zdb X) (x_utc X) = true;
  ue_off : forall z w f, z_is_utc (x_zdb X) z = true -> tz_off (x_env X) z w f = 0%Z;
  ue_from : forall u, tz_fromutc (x_env X) (x_utc X) u = (u, false)
}.

(** ** Zones

    The identifier a value is written with, the zone it has and the zone object that is
    written for it. *)
Definition dt_uses (d : datetime) (id : list N) (z z' : tz) : Prop :=
  dtz d = Some z /\ z_is_utc (x_zdb X) z = false /\ z_from_tzinfo (x_zdb X) z = Ok (Some (id, z')).
(** The identifier leads back to the zone: it is defined, or known to the library. *)
Definition resolves (zs : zones) (id : list N) (z : tz) : Prop :=
  dict_get id zs = Some z \/
  dict_get id zs = None /\
    (z_from_tzid (x_zdb X) id = Ok z \/ z_from_tzid (x_zdb X) id = Err ValueError /\ z_gettz (x_zdb X) id = Some z).
Definition opt_list {A} (o : option A) : list A := match o with Some a => [a] | None => [] end.
Definition val_dts (v : val) : list datetime :=
  match v with VDt d => [d] | VSpan t => opt_list (ts_begin t) ++ opt_list (ts_end t) | _ => [] end.
Definition attr_dts (a : attr) : list datetime :=
  match a with ANone => [] | AOne v => val_dts v | AMany l => flat_map val_dts l end.
Definition comp_uses {M} (UM : M -> list N -> tz -> tz -> Prop) (x : comp M) (id : list N) (z z' : tz) : Prop :=
  (exists k a d, dict_get k (c_attrs x) = Some a /\ In d (attr_dts a) /\ dt_uses d id z z') \/
  (exists k l m, dict_get k (c_mem x) = Some l /\ In m l /\ UM m id z z').

(** The zones recorded by writing: those of the values written, the first one of each
    identifier, in addition to those already there. *)
Definition wrote (U : list N -> tz -> tz -> Prop) (zs zs' : zones) : Prop :=
  (forall id z, dict_get id zs = Some z -> dict_get id zs' = Some z) /\
  (forall id z z', U id z z' -> dict_get id zs' <> None) /\
  (forall id z', dict_get id zs' = Some z' -> dict_get id zs = Some z' \/ exists z, U id z z').

(** ** Values *)
Definition storable_dt (d : datetime) : Prop :=
  fold d = false /\ wall_ok (wall d) = true /\ (wall d mod US_SEC = 0)%Z /\ (1000 <= f_y (fields_of (wall d)))%Z /\
  match dtz d with
  | None => True
  | Some z => z_is_utc (x_zdb X) z = true \/ exists id z', dt_uses d id z z' /\ id <> []
  end.
Definition storable_url (u : url) : Prop := x_urlparse X (x_geturl X u) = Ok u.
Definition storable_dur (t : Z) : Prop := (TD_MIN <= t <= TD_MAX /\ t mod US_SEC = 0)%Z.
Inductive storable_val : vconv -> val -> Prop :=
  | SV_text s : storable_val Text (VStr s)
  | SV_uri u : storable_url u -> storable_val Uri (VUrl u)
  | SV_binary b : Forall byte b -> storable_val Binary (VBytes b)
  | SV_datetime d : storable_dt d -> storable_val Datetime (VDt d)
  | SV_duration t : storable_dur t -> storable_val Duration (VTd t)
  | SV_int n : storable_val Int (VInt n)
  | SV_bool b : storable_val Bool (VBool b)
  | SV_organizer u p : storable_url u -> NoDup (keys p) -> ~ In (py "VALUE") (keys p) ->
      storable_val Organizer (VPerson ROrganizer (EUrl u) p)
  | SV_attendee u p : storable_url u -> NoDup (keys p) -> ~ In (py "VALUE") (keys p) ->
      storable_val Attendee (VPerson RAttendee (EUrl u) p)
  | SV_geo a b : x_float X (x_ffmt X a) = Ok a -> x_float X (x_ffmt X b) = Ok b ->
      ~ In 59 (x_ffmt X a) -> storable_val Geo (VGeo a b).
(** Values of a list: a comma would end them, and persons have a line of their own. *)
Definition listable (t : vconv) (v : val) : Prop :=
  match t, v with
  | Text, _ | Binary, _ => True
  | Uri, VUrl u | Organizer, VPerson _ (EUrl u) _ | Attendee, VPerson _ (EUrl u) _ => ~ In 44 (x_geturl X u)
  | _, _ => False
  end.
Definition is_person (t : vconv) : Prop := t = Organizer \/ t = Attendee.

(** ** Time spans *)
Definition storable_span (t : timespan) : Prop :=
  validate (x_env X) t = Ok tt /\
  (forall b, ts_begin t = Some b -> storable_dt b) /\ (forall e, ts_end t = Some e -> storable_dt e) /\
  (forall d, ts_dur t = Some d -> storable_dur d) /\
  match ts_begin t, ts_end t with
  | None, None => ts_prec t = PNone
  | _, _ => ts_prec t = PDay \/ ts_prec t = PSecond
  end.
(** Parameters of one line, where [absent] are the names that cannot be among them. *)
Definition storable_par {M} (x : comp M) (key : list N) (absent : list (list N)) : Prop :=
  match dict_get key (c_params x) with
  | None => True
  | Some (XOne p) => p <> [] /\ forall k, In k absent -> ~ In k (keys p)
  | Some (XMany _) => False
  end.
Definition no_par {M} (x : comp M) (key : list N) : Prop := dict_get key (c_params x) = None.

(** ** Fields *)
Inductive shape :=
  | One (types : list vconv) (ok : val -> Prop) (optional : bool)
  | Many (types : list vconv)
  | Span (k : kind)
  | Members.
Definition any (v : val) : Prop := True.
Definition status_ok (v : val) : Prop :=
  In v [VStr (py "TENTATIVE"); VStr (py "CONFIRMED"); VStr (py "CANCELLED")].
Definition utc_ok (v : val) : Prop := exists w, v = VDt (mk_dt w false (Some (x_utc X))).
Definition range_ok (hi : Z) (v : val) : Prop := exists n, v = VInt n /\ (0 <= n <= hi)%Z.

Definition entry_shapes (k : kind) : list (list N * shape) := [
  (py "timespan", Span k); (py "summary", One [Text] any true); (py "uid", One [Text] any false);
  (py "description", One [Text] any true); (py "location", One [Text] any true);
  (py "url", One [Text; Uri] any true); (py "status", One [Text] status_ok true);
  (py "created", One [Datetime] utc_ok true); (py "last_modified", One [Datetime] utc_ok true);
  (py "dtstamp", One [Datetime] utc_ok false); (py "alarms", Members); (py "attach", Many [Uri; Binary]) ].
Definition alarm_shapes : list (list N * shape) := [
  (py "trigger", One [Duration; Datetime] any true); (py "repeat", One [Int] any true);
  (py "duration", One [Duration] any true) ].
Definition shapes (c : cls) : list (list N * shape) :=
  match c with
  | CEvent => entry_shapes KEvent ++ [
      (py "classification", One [Text] any true); (py "transparent", One [Bool] any true);
      (py "organizer", One [Organizer] any true); (py "geo", One [Geo] any true);
      (py "attendees", Many [Attendee]); (py "categories", Many [Text]) ]
  | CTodo => entry_shapes KTodo ++ [
      (py "percent", One [Int] (range_ok 100) true); (py "priority", One [Int] (range_ok 9) true);
      (py "completed", One [Datetime] any true) ]
  | CCalendar => [
      (py "version", One [Text] any false); (py "prodid", One [Text] any false);
      (py "scale", One [Text] any true); (py "method", One [Text] any true);
      (py "events", Members); (py "todos", Members) ]
  | CAudio => alarm_shapes ++ [(py "attach", One [Uri; Binary] any true)]
  | CDisplay => alarm_shapes ++ [(py "description", One [Text] any true)]
  | CEmail => alarm_shapes ++ [
      (py "summary", One [Text] any true); (py "description", One [Text] any true);
      (py "attendees", Many [Attendee]); (py "attach", Many [Uri; Binary]) ]
  | CNone => alarm_shapes
  | CCustom => alarm_shapes ++ [(py "_action", One [Text] any true)]
  end.

(** One line of a list attribute: the type of its values, its parameters, its values. *)
Definition aline : Type := vconv * xp * list val.
Definition storable_line (types : list vconv) (l : aline) : Prop :=
  let '(t, p, vs) := l in
  In t types /\ vs <> [] /\ (forall v, In v vs -> storable_val t v /\ listable t v) /\
  NoDup (keys p) /\ ~ In (py "VALUE") (keys p) /\ ~ In (py "__merge_next") (keys p) /\
  (is_person t -> p = [] /\ length vs = 1%nat).
Definition line_values (l : aline) : list val := snd l.
Definition line_notes (l : aline) : list xp := line_marks (snd (fst l)) (length (snd l)).
Definition alone (l : aline) : Prop := snd (fst l) = [] /\ length (snd l) = 1%nat.

Definition storable_field {M} (x : comp M) (a : list N) (s : shape) : Prop :=
  match s with
  | One types ok optional =>
      dict_get a (c_attrs x) = Some ANone /\ optional = true /\ no_par x (upper a) \/
      exists t v, dict_get a (c_attrs x) = Some (AOne v) /\ In t types /\ storable_val t v /\ ok v /\
        storable_par x (upper a) (py "VALUE" :: match t with Datetime => [py "TZID"] | _ => [] end) /\
        (is_person t -> no_par x (upper a))
  | Many types =>
      exists ls, Forall (storable_line types) ls /\
        dict_get a (c_attrs x) = Some (AMany (flat_map line_values ls)) /\
        (dict_get (upper a) (c_params x) =
           match ls with [] => None | _ => Some (XMany (flat_map line_notes ls)) end \/
         no_par x (upper a) /\ Forall alone ls)
  | Span k =>
      exists t, dict_get a (c_attrs x) = Some (AOne (VSpan t)) /\ ts_kind t = k /\ storable_span t /\
        storable_par x (py "BEGIN") [py "VALUE"; py "TZID"] /\ (ts_begin t = None -> no_par x (py "BEGIN")) /\
        storable_par x (py "DURATION") [] /\ (ts_dur t = None -> no_par x (py "DURATION")) /\
        storable_par x (py "DUE") [py "VALUE"; py "TZID"] /\ (ts_end t = None -> no_par x (py "DUE"))
  | Members => dict_get a (c_mem x) <> None
  end.
(** Keys under which parameters are stored. *)
Definition par_keys (c : cls) : list (list N) :=
  flat_map (fun '(a, s) => match s with
                           | One _ _ _ | Many _ => [upper a]
                           | Span KTodo => [py "BEGIN"; py "DURATION"; py "DUE"]
                           | Span _ => [py "BEGIN"; py "DURATION"]
                           | Members => []
                           end) (shapes c) ++
  match c with CAudio | CDisplay | CEmail | CNone | CCustom => [py "ACTION"] | _ => [] end.

Record storable {M} (SM : list N -> M -> Prop) (x : comp M) : Prop := mk_storable {
  st_name : c_name x = NAME (c_cls x);
  st_fields : forall a s, In (a, s) (shapes (c_cls x)) -> storable_field x a s;
  st_attrs : forall a, dict_get a (c_attrs x) <> None ->
    exists s, In (a, s) (shapes (c_cls x)) /\ s <> Members;
  st_mem : forall a, dict_get a (c_mem x) <> None -> In (a, Members) (shapes (c_cls x));
  st_members : forall a l m, dict_get a (c_mem x) = Some l -> In m l -> SM a m;
  st_params : forall k, dict_get k (c_params x) <> None -> In k (par_keys (c_cls x));
  st_extra : Forall (fun it => ~ known (c_cls x) it) (c_extra x)
}.
(** Alarms of the four standard kinds; events and todos with such alarms. *)
Definition std_alarm (c : cls) : Prop := In c [CAudio; CDisplay; CEmail; CNone].
Definition storable_alarm (m : alarm) : Prop :=
  std_alarm (c_cls m) /\ storable (fun _ _ => True) m /\ storable_par m (py "ACTION") [].
Definition alarm_uses (m : alarm) := comp_uses (fun _ _ _ _ => False) m.
Definition storable_entry (x : entry) : Prop := storable (fun _ => storable_alarm) x.
Definition entry_uses (x : entry) := comp_uses alarm_uses x.
(** Equal up to the notes added by reading. *)
Definition back_alarm (m n : alarm) : Prop := eq_comp (fun _ _ => True) (noted m) n.
Definition back_entry (x y : entry) : Prop := eq_comp back_alarm (noted x) y.
End Store.
