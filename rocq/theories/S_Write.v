(** * Specification: what is written for a component

    [alarm_written], [entry_written] and [calendar_written]: what the attributes, the
    parameters and the members of a component say, written out; or the exception that
    stands in the way. Every property is described by itself. The zones that are used are
    listed in order; nothing here refers to the dictionary that collects them. *)
From Verif Require Import M_Base M_Line M_Codec M_Cal M_Time M_Span M_Dt M_Tree M_Comp.
From Verif Require Import S_Codec S_Dt S_Read S_Order.
Open Scope N_scope.

(** ** Texts *)
Inductive escaped : list N -> list N -> Prop :=
  | ES_nil : escaped [] []
  | ES_plain c s w : ~ In c (py "\;," ++ [10; 13]) -> escaped s w -> escaped (c :: s) (c :: w)
  | ES_mark c s w : In c (py "\;,") -> escaped s w -> escaped (c :: s) (92 :: c :: w)
  | ES_lf s w : escaped s w -> escaped (10 :: s) (py "\n" ++ w)
  | ES_cr s w : escaped s w -> escaped (13 :: s) (py "\r" ++ w).

(** A number without superfluous zeros. *)
Definition decimal (n : Z) (s : list N) : Prop := number s n /\ forall t, s = 48 :: t -> t = [].
Inductive integer : Z -> list N -> Prop :=
  | IN_nonneg n s : decimal n s -> integer n s
  | IN_neg n s : (0 < n)%Z -> decimal n s -> integer (- n) (py "-" ++ s).

(** The seconds of a duration of [n] microseconds: the quotient is rounded to a double
    (a multiple of a power of two with 53 binary digits) and cut. *)
Open Scope Z_scope.
Definition whole_seconds (n T : Z) : Prop :=
  0 <= n < 10 ^ 6 /\ T = 0 \/
  10 ^ 6 <= n /\ exists e m, 0 <= e /\ 2 ^ 52 * 10 ^ 6 <= n * 2 ^ e < 2 ^ 53 * 10 ^ 6 /\
    (2 * Z.abs (n * 2 ^ e - m * 10 ^ 6) < 10 ^ 6 \/ 2 * Z.abs (n * 2 ^ e - m * 10 ^ 6) = 10 ^ 6 /\ Z.even m = true) /\
    T = m / 2 ^ e.
(** Amounts of zero are left out. *)
Definition amount (n : Z) (unit s : list N) : Prop :=
  n = 0 /\ s = [] \/ n <> 0 /\ exists ds, decimal n ds /\ s = ds ++ unit.
Definition period_text (T : Z) (s : list N) : Prop :=
  T = 0 /\ s = py "PT0S" \/
  T <> 0 /\ exists d h m x sd sh sm sx,
    T = ((24 * d + h) * 60 + m) * 60 + x /\ 0 <= d /\ 0 <= h < 24 /\ 0 <= m < 60 /\ 0 <= x < 60 /\
    amount d (py "D") sd /\ amount h (py "H") sh /\ amount m (py "M") sm /\ amount x (py "S") sx /\
    s = py "P" ++ sd ++ match sh ++ sm ++ sx with [] => [] | t => py "T" ++ t end.
Definition duration_written (us : Z) (s : list N) : Prop :=
  exists T w, whole_seconds (Z.abs us) T /\ period_text T w /\ s = if us <? 0 then py "-" ++ w else w.

Definition day_written (w : Z) (s : list N) : Prop :=
  let f := fields_of w in
  real_date (f_y f) (f_m f) (f_d f) /\ exists y, decimal (f_y f) y /\ s = y ++ d2 (f_m f) ++ d2 (f_d f).
Definition clock_written (w : Z) (s : list N) : Prop :=
  let f := fields_of w in
  real_time (f_H f) (f_M f) (f_S f) /\
  exists a, day_written w a /\ s = a ++ py "T" ++ d2 (f_H f) ++ d2 (f_M f) ++ d2 (f_S f).
Open Scope N_scope.

(** ** Values *)
Definition uses := list (list N * tz).
Definition named (id : list N) (ps : xp) : xp := dict_set (py "TZID") [PRaw id] ps.

Section Write.
Variable X : ext.

Inductive moment_written (d : datetime) (ps : xp) : res (list N * xp * uses) -> Prop :=
  | MW_floating s : dtz d = None -> clock_written (wall d) s -> moment_written d ps (Ok (s, ps, []))
  | MW_utc z s : dtz d = Some z -> z_is_utc (x_zdb X) z = true -> clock_written (wall d) s ->
      moment_written d ps (Ok (s ++ py "Z", ps, []))
  | MW_local z s : dtz d = Some z -> z_is_utc (x_zdb X) z = false -> z_from_tzinfo (x_zdb X) z = Ok None ->
      clock_written (wall d) s -> moment_written d ps (Ok (s, ps, []))
  | MW_zone z id z' s : dtz d = Some z -> z_is_utc (x_zdb X) z = false ->
      z_from_tzinfo (x_zdb X) z = Ok (Some (id, z')) -> clock_written (wall d) s ->
      moment_written d ps (Ok (s, named id ps, [(id, z')]))
  | MW_unknown z e : dtz d = Some z -> z_is_utc (x_zdb X) z = false -> z_from_tzinfo (x_zdb X) z = Err e ->
      moment_written d ps (Err e).

Definition address (e : email) : list N := match e with EStr s => s | EUrl u => x_geturl X u end.

(** [shows t v ps r]: a value as one of type [t]: text, parameters and zones. *)
Inductive shows : vconv -> val -> xp -> res (list N * xp * uses) -> Prop :=
  | SH_text v s ps : escaped v s -> shows Text (VStr v) ps (Ok (s, ps, []))
  | SH_uri u ps : shows Uri (VUrl u) ps (Ok (x_geturl X u, ps, []))
  | SH_binary b s ps : Forall byte b -> Base64 b s -> shows Binary (VBytes b) ps (Ok (s, ps, []))
  | SH_datetime d ps r : moment_written d ps r -> shows Datetime (VDt d) ps r
  | SH_duration us s ps : duration_written us s -> shows Duration (VTd us) ps (Ok (s, ps, []))
  | SH_int n s ps : integer n s -> shows Int (VInt n) ps (Ok (s, ps, []))
  | SH_true ps : shows Int (VBool true) ps (Ok (py "True", ps, []))
  | SH_false ps : shows Int (VBool false) ps (Ok (py "False", ps, []))
  | SH_yes ps : shows Bool (VBool true) ps (Ok (py "TRUE", ps, []))
  | SH_no ps : shows Bool (VBool false) ps (Ok (py "FALSE", ps, []))
  | SH_organizer e p ps : shows Organizer (VPerson ROrganizer e p) ps (Ok (address e, dict_update ps p, []))
  | SH_attendee e p ps : shows Attendee (VPerson RAttendee e p) ps (Ok (address e, dict_update ps p, []))
  | SH_geo a b ps : shows Geo (VGeo a b) ps (Ok (x_ffmt X a ++ py ";" ++ x_ffmt X b, ps, [])).
(** Which values are of a type. *)
Inductive of_type : vconv -> val -> Prop :=
  | OT_text s : of_type Text (VStr s)
  | OT_uri u : of_type Uri (VUrl u)
  | OT_binary b : of_type Binary (VBytes b)
  | OT_datetime d : of_type Datetime (VDt d)
  | OT_duration t : of_type Duration (VTd t)
  | OT_int n : of_type Int (VInt n)
  | OT_int_bool b : of_type Int (VBool b)
  | OT_bool b : of_type Bool (VBool b)
  | OT_organizer e p : of_type Organizer (VPerson ROrganizer e p)
  | OT_attendee e p : of_type Attendee (VPerson RAttendee e p)
  | OT_geo a b : of_type Geo (VGeo a b).

(** The first type that fits is taken, and named in VALUE if it is not the default. *)
Inductive value_written (ts : types) (v : val) (ps : xp) : res (list N * xp * uses) -> Prop :=
  | VW_none : (forall w t, In (w, t) ts -> ~ of_type t v) -> value_written ts v ps (Err ValueError)
  | VW_default w t post r : ts = (w, t) :: post -> of_type t v -> shows t v ps r -> value_written ts v ps r
  | VW_other pre w t post r : pre <> [] -> ts = pre ++ (w, t) :: post ->
      (forall w' t', In (w', t') pre -> ~ of_type t' v) -> of_type t v ->
      shows t v (dict_set (py "VALUE") [PRaw w] ps) r -> value_written ts v ps r.

(** ** Properties *)
Section Members.
Context {M : Type}.
Variable member_written : M -> res (item * uses) -> Prop.

(** The parameters of a property with one value. *)
Inductive own_params (x : comp M) (key : list N) : res xp -> Prop :=
  | OP_none : dict_get key (c_params x) = None -> own_params x key (Ok [])
  | OP_one p : dict_get key (c_params x) = Some (XOne p) -> own_params x key (Ok p)
  | OP_empty : dict_get key (c_params x) = Some (XMany []) -> own_params x key (Ok [])
  | OP_list p ps : dict_get key (c_params x) = Some (XMany (p :: ps)) -> own_params x key (Err AttributeError).

Definition result := res (list item * uses).
Inductive one_written (x : comp M) (n a : list N) (ts : types) : result -> Prop :=
  | OW_none : get_attr a x = ANone -> one_written x n a ts (Ok ([], []))
  | OW_params e : get_attr a x <> ANone -> own_params x (upper a) (Err e) -> one_written x n a ts (Err e)
  | OW_list l ps : get_attr a x = AMany l -> own_params x (upper a) (Ok ps) -> one_written x n a ts (Err ValueError)
  | OW_fails v ps e : get_attr a x = AOne v -> own_params x (upper a) (Ok ps) -> value_written ts v ps (Err e) ->
      one_written x n a ts (Err e)
  | OW_line v ps s q us : get_attr a x = AOne v -> own_params x (upper a) (Ok ps) ->
      value_written ts v ps (Ok (s, q, us)) -> one_written x n a ts (Ok ([ILine (mk_line n q s)], us)).

(** Values that are marked share a line with the next one. The parameters of all values
    of a line are the same, up to quoting. *)
Definition marked (vp : val * xp) : Prop :=
  exists t, dict_get (py "__merge_next") (snd vp) = Some [t] /\ pval_str t = py "TRUE".
Definition part_written (ts : types) (vp : val * xp) (r : res (list N * xp * uses)) : Prop :=
  value_written ts (fst vp) (dict_del (py "__merge_next") (snd vp)) r.
Definition same_params (p q : xp) : Prop :=
  length p = length q /\
  forall k vs, In (k, vs) p -> exists ws, dict_get k q = Some ws /\ map pval_str vs = map pval_str ws.
Definition shown_text (o : list N * xp * uses) : list N := fst (fst o).
Definition shown_params (o : list N * xp * uses) : xp := snd (fst o).
Definition shown_uses (o : list N * xp * uses) : uses := snd o.
(** The values [vps] are written as [os], with the same parameters. *)
Definition parts_written (ts : types) (vps : list (val * xp)) (os : list (list N * xp * uses)) : Prop :=
  Forall2 (fun vp o => part_written ts vp (Ok o)) vps os /\
  match os with [] => True | o :: os' => Forall (fun o' => same_params (shown_params o) (shown_params o')) os' end.
Inductive lines_written (ts : types) (n : list N) : list (val * xp) -> result -> Prop :=
  | LW_nil : lines_written ts n [] (Ok ([], []))
  | LW_line g vp rest os o w its us : Forall marked g -> ~ marked vp -> parts_written ts (g ++ [vp]) (os ++ [o]) ->
      commas (map shown_text (os ++ [o])) w -> lines_written ts n rest (Ok (its, us)) ->
      lines_written ts n (g ++ vp :: rest)
        (Ok (ILine (mk_line n (shown_params o) w) :: its, concat (map shown_uses (os ++ [o])) ++ us))
  | LW_later g vp rest os e : Forall marked g -> ~ marked vp -> parts_written ts (g ++ [vp]) os ->
      lines_written ts n rest (Err e) -> lines_written ts n (g ++ vp :: rest) (Err e)
  (* the last value is marked *)
  | LW_open g os : g <> [] -> Forall marked g -> parts_written ts g os -> lines_written ts n g (Err ValueError)
  (* a value of the line cannot be written *)
  | LW_fails g vp rest os e : Forall marked g -> parts_written ts g os -> part_written ts vp (Err e) ->
      lines_written ts n (g ++ vp :: rest) (Err e)
  (* a value of the line has other parameters than the first *)
  | LW_differ g vp rest o os o' : Forall marked g -> parts_written ts g (o :: os) -> part_written ts vp (Ok o') ->
      ~ same_params (shown_params o) (shown_params o') -> lines_written ts n (g ++ vp :: rest) (Err ValueError).
Inductive many_written (x : comp M) (n a : list N) (ts : types) : result -> Prop :=
  | NW_one v : get_attr a x = AOne v -> many_written x n a ts (Err TypeError)
  | NW_none : get_attr a x = ANone -> many_written x n a ts (Err TypeError)
  | NW_bare vs r : get_attr a x = AMany vs ->
      In (dict_get (upper a) (c_params x)) [None; Some (XOne []); Some (XMany [])] ->
      lines_written ts n (map (fun v => (v, [])) vs) r -> many_written x n a ts r
  | NW_params vs ps r : get_attr a x = AMany vs -> dict_get (upper a) (c_params x) = Some (XMany ps) -> ps <> [] ->
      length ps = length vs -> lines_written ts n (combine vs ps) r -> many_written x n a ts r
  | NW_count vs ps : get_attr a x = AMany vs -> dict_get (upper a) (c_params x) = Some (XMany ps) -> ps <> [] ->
      length ps <> length vs -> many_written x n a ts (Err ValueError)
  | NW_dict vs p : get_attr a x = AMany vs -> dict_get (upper a) (c_params x) = Some (XOne p) -> p <> [] ->
      many_written x n a ts (Err (if Nat.eq_dec (length p) (length vs) then AttributeError else ValueError)).

(** The time span. *)
Inductive time_written (day : bool) (d : datetime) (ps : xp) : res (list N * xp * uses) -> Prop :=
  | TW_day s : day = true -> day_written (wall d) s -> time_written day d ps (Ok (s, dict_set (py "VALUE") [PRaw (py "DATE")] ps, []))
  | TW_time r : day = false -> moment_written d ps r -> time_written day d ps r.
Inductive time_line (x : comp M) (n key : list N) (day : bool) (d : datetime) : result -> Prop :=
  | TL_params e : own_params x key (Err e) -> time_line x n key day d (Err e)
  | TL_fails ps e : own_params x key (Ok ps) -> time_written day d ps (Err e) -> time_line x n key day d (Err e)
  | TL_line ps s q us : own_params x key (Ok ps) -> time_written day d ps (Ok (s, q, us)) ->
      time_line x n key day d (Ok ([ILine (mk_line n q s)], us)).
Inductive begin_written (x : comp M) (t : timespan) : result -> Prop :=
  | BW_none : ts_begin t = None -> begin_written x t (Ok ([], []))
  | BW_some b r : ts_begin t = Some b -> time_line x (py "DTSTART") (py "BEGIN") (is_day (ts_prec t)) b r -> begin_written x t r.
Definition end_line (k : kind) : list N := match k with KTodo => py "DUE" | _ => py "DTEND" end.
Inductive end_written (x : comp M) (t : timespan) : result -> Prop :=
  | EW_none : ts_dur t = None -> ts_end t = None -> end_written x t (Ok ([], []))
  | EW_end e r : ts_dur t = None -> ts_end t = Some e ->
      time_line x (end_line (ts_kind t)) (end_line (ts_kind t)) (is_day (ts_prec t)) e r -> end_written x t r
  | EW_params d e : ts_dur t = Some d -> own_params x (py "DURATION") (Err e) -> end_written x t (Err e)
  | EW_duration d ps s : ts_dur t = Some d -> own_params x (py "DURATION") (Ok ps) -> duration_written d s ->
      end_written x t (Ok ([ILine (mk_line (py "DURATION") ps s)], [])).
(** One thing after the other; the first exception counts. *)
Definition both (a b : result) : result :=
  match a, b with
  | Err e, _ | _, Err e => Err e
  | Ok (its, us), Ok (its', us') => Ok (its ++ its', us ++ us')
  end.
Inductive span_written (x : comp M) : result -> Prop :=
  | SW_span t a b : get_attr (py "timespan") x = AOne (VSpan t) -> begin_written x t a -> end_written x t b -> span_written x (both a b)
  | SW_none : (forall t, get_attr (py "timespan") x <> AOne (VSpan t)) -> span_written x (Err AttributeError).

(** The ACTION of an alarm. *)
Inductive action_is (x : comp M) : res (list N) -> Prop :=
  | AI_class c s : In (c, s) [(CAudio, py "AUDIO"); (CDisplay, py "DISPLAY"); (CEmail, py "EMAIL"); (CNone, py "NONE")] ->
      c_cls x = c -> action_is x (Ok s)
  | AI_custom s : c_cls x = CCustom -> get_attr (py "_action") x = AOne (VStr s) -> action_is x (Ok s)
  | AI_no_text : c_cls x = CCustom -> (forall s, get_attr (py "_action") x <> AOne (VStr s)) -> action_is x (Err TypeError).
Inductive action_written (x : comp M) : result -> Prop :=
  | AW_none e : action_is x (Err e) -> action_written x (Err e)
  | AW_params s e : action_is x (Ok s) -> own_params x (py "ACTION") (Err e) -> action_written x (Err e)
  | AW_line s ps : action_is x (Ok s) -> own_params x (py "ACTION") (Ok ps) ->
      action_written x (Ok ([ILine (mk_line (py "ACTION") ps s)], [])).

(** The members. *)
Inductive members_written : list M -> result -> Prop :=
  | MM_nil : members_written [] (Ok ([], []))
  | MM_fails m l e : member_written m (Err e) -> members_written (m :: l) (Err e)
  | MM_cons m l it us r : member_written m (Ok (it, us)) -> members_written l r -> members_written (m :: l) (both (Ok ([it], us)) r).
Definition has_params (x : comp M) (key : list N) : Prop :=
  exists o, dict_get key (c_params x) = Some o /\ o <> XOne [] /\ o <> XMany [].
Inductive subs_written (x : comp M) (a : list N) : result -> Prop :=
  | UW_params : has_params x (upper a) -> subs_written x a (Err ValueError)
  | UW_members r : ~ has_params x (upper a) -> members_written (get_mem a x) r -> subs_written x a r.

Inductive slot_written (x : comp M) : slot -> result -> Prop :=
  | SL_span r : span_written x r -> slot_written x Span r
  | SL_action r : action_written x r -> slot_written x Action r
  | SL_one n a ts rl r : In (mk_single a n ts rl) (singles (c_cls x)) -> one_written x n a ts r -> slot_written x (One n a) r
  | SL_many n a ts r : In (mk_multiple a n ts) (multiples (c_cls x)) -> many_written x n a ts r -> slot_written x (Many n a) r
  | SL_subs a r : subs_written x a r -> slot_written x (Subs a) r.
Inductive slots_written (x : comp M) : list slot -> result -> Prop :=
  | SS_nil : slots_written x [] (Ok ([], []))
  | SS_cons s ss a b : slot_written x s a -> slots_written x ss b -> slots_written x (s :: ss) (both a b).

(** A component other than a calendar. *)
Inductive comp_written (x : comp M) : res (item * uses) -> Prop :=
  | CW_fails e : c_cls x <> CCalendar -> slots_written x (slots (c_cls x)) (Err e) -> comp_written x (Err e)
  | CW_nameless its us : c_cls x <> CCalendar -> slots_written x (slots (c_cls x)) (Ok (its, us)) -> c_name x = [] ->
      comp_written x (Err ValueError)
  | CW_comp its us : c_cls x <> CCalendar -> slots_written x (slots (c_cls x)) (Ok (its, us)) -> c_name x <> [] ->
      comp_written x (Ok (ICont (written_name x) (its ++ c_extra x), us)).
End Members.

Definition nobody_written (m : Empty_set) (r : res (item * uses)) : Prop := match m with end.
Definition alarm_written : alarm -> res (item * uses) -> Prop := comp_written nobody_written.
Definition entry_written : entry -> res (item * uses) -> Prop := comp_written alarm_written.

(** The zones in use: the first use of an identifier counts. *)
Fixpoint collect (zs : uses) (us : uses) : uses :=
  match us with
  | [] => zs
  | (id, z) :: us' => collect (match dict_get id zs with None => zs ++ [(id, z)] | Some _ => zs end) us'
  end.
Inductive zones_dumped : uses -> res (list item) -> Prop :=
  | ZD_nil : zones_dumped [] (Ok [])
  | ZD_fails id z zs e : x_tz_dump X z = Err e -> zones_dumped ((id, z) :: zs) (Err e)
  | ZD_later id z zs it e : x_tz_dump X z = Ok it -> zones_dumped zs (Err e) -> zones_dumped ((id, z) :: zs) (Err e)
  | ZD_cons id z zs it its : x_tz_dump X z = Ok it -> zones_dumped zs (Ok its) -> zones_dumped ((id, z) :: zs) (Ok (it :: its)).
(** A calendar: its properties, the zones in use, its members. *)
Inductive calendar_written (x : calendar) : res item -> Prop :=
  | KW_fails a b e : slots_written entry_written x calendar_head a -> slots_written entry_written x calendar_tail b ->
      both a b = Err e -> calendar_written x (Err e)
  | KW_zones its us its' us' e : slots_written entry_written x calendar_head (Ok (its, us)) ->
      slots_written entry_written x calendar_tail (Ok (its', us')) -> zones_dumped (collect [] (us ++ us')) (Err e) ->
      calendar_written x (Err e)
  | KW_nameless its us its' us' tzs : slots_written entry_written x calendar_head (Ok (its, us)) ->
      slots_written entry_written x calendar_tail (Ok (its', us')) -> zones_dumped (collect [] (us ++ us')) (Ok tzs) ->
      c_name x = [] -> calendar_written x (Err ValueError)
  | KW_calendar its us its' us' tzs : slots_written entry_written x calendar_head (Ok (its, us)) ->
      slots_written entry_written x calendar_tail (Ok (its', us')) -> zones_dumped (collect [] (us ++ us')) (Ok tzs) ->
      c_name x <> [] -> calendar_written x (Ok (ICont (written_name x) (its ++ tzs ++ its' ++ c_extra x))).

(** Writing with zones collected before. *)
Definition with_zones {A} (zs : zones) (r : res (A * uses)) : res (A * zones) :=
  match r with Ok (a, us) => Ok (a, collect zs us) | Err e => Err e end.

(** ** Values that exist: times of the calendar, durations of Python, bytes. *)
Definition real_value (v : val) : Prop :=
  match v with
  | VBytes b => Forall byte b
  | VDt d => wall_ok (wall d) = true
  | VTd t => (TD_MIN <= t <= TD_MAX)%Z
  | VSpan t => (forall b, ts_begin t = Some b -> wall_ok (wall b) = true) /\
      (forall e, ts_end t = Some e -> wall_ok (wall e) = true) /\
      (forall d, ts_dur t = Some d -> (TD_MIN <= d <= TD_MAX)%Z)
  | _ => True
  end.
Definition real_attr (a : attr) : Prop :=
  match a with ANone => True | AOne v => real_value v | AMany l => Forall real_value l end.
Definition real_comp {M} (ok : M -> Prop) (x : comp M) : Prop :=
  (forall a, real_attr (get_attr a x)) /\ (forall a, Forall ok (get_mem a x)).
Definition real_alarm (x : alarm) : Prop := is_alarm (c_cls x) = true /\ real_comp (fun _ => True) x.
Definition real_entry (x : entry) : Prop := is_entry (c_cls x) = true /\ real_comp real_alarm x.
Definition real_calendar (x : calendar) : Prop := c_cls x = CCalendar /\ real_comp real_entry x.
End Write.
