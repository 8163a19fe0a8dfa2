(** * Specification: converters found from declarations *)
From Verif Require Import M_Base M_Line M_Cal M_Time M_Span M_Dt M_Tree M_Comp M_Rrule M_Zone M_Vtz M_Decl.
From Coq Require Import Permutation Sorted.

(** ** Types as written in a source file *)
(** The classes a type admits, and if it is a list of values. *)
Inductive members_of : list ty -> list pyclass -> Prop :=
  | MO_nil : members_of [] []
  | MO_none l cs : members_of l cs -> members_of (TyNone :: l) cs
  | MO_class c l cs : members_of l cs -> members_of (TyClass c :: l) (c :: cs).
Inductive source_type : ty -> bool -> list pyclass -> Prop :=
  | ST_class c : c <> Pbytearray -> c <> PContainer -> source_type (TyClass c) false [c]
  | ST_union l cs : members_of l cs -> cs <> [] -> source_type (TyUnion l) false cs
  | ST_list t cs : source_type t false cs -> source_type (TyList t) true cs.

(** The property name: capital letters, dashes for underscores. *)
Definition name_char (a b : N) : Prop :=
  (97 <= a <= 122 /\ b = a - 32 \/ a = 95 /\ b = 45)%N.
Definition property_name (attr ics : list N) : Prop := Forall2 name_char attr ics.
(** No underscore at the ends. *)
Definition inner_underscores (s : list N) : Prop :=
  (forall s', s <> 95%N :: s') /\ (forall s', s <> s' ++ [95%N]).

(** A declaration takes part if it is an argument of the constructor and is not marked. *)
Definition taking_part (d : decl) : Prop :=
  d_ignore d = Some false \/ d_ignore d = None /\ d_init d = true.
(** There are classes with a converter of their own, used when no other class is possible. *)
Definition special (cs : list pyclass) : Prop :=
  exists c, cs = [c] /\ In c [PTimespan; PEventTimespan; PTodoTimespan; Prruleset; PBaseAlarm; PEvent; PTodo; PTimezone; PTimezoneObservance].
(** Class, converter, names, priority *)
Definition SPANS : list (list N) := [py "DTSTART"; py "DTEND"; py "DUE"; py "DURATION"].
Definition SPECIAL : list (pyclass * dkind * list (list N) * Z) := [
  (PTimespan, DSpan, SPANS, 1000%Z); (PEventTimespan, DSpan, SPANS, 1000%Z); (PTodoTimespan, DSpan, SPANS, 1000%Z);
  (Prruleset, DRules, [py "RRULE"; py "RDATE"; py "EXRULE"; py "EXDATE"; py "DTSTART"], 0%Z);
  (PBaseAlarm, DMember PBaseAlarm, [py "VALARM"], 0%Z); (PEvent, DMember PEvent, [py "VEVENT"], 0%Z);
  (PTodo, DMember PTodo, [py "VTODO"], 0%Z); (PTimezone, DMember PTimezone, [py "VTIMEZONE"], 0%Z);
  (PTimezoneObservance, DObservances, [py "STANDARD"; py "DAYLIGHT"], 0%Z) ].
Definition required_attribute (d : decl) : Prop :=
  d_required d = Some true \/ d_required d = None /\ d_init d = true /\ d_default d = false.

(** The converter a list of registrations yields: the last assignment, otherwise the first
    default. *)
Definition about (t : pyclass) (r : registration) : Prop :=
  match r with RDefault t' _ | RAssign t' _ => t = t' end.
Definition assigns (t : pyclass) (r : registration) : Prop := exists c, r = RAssign t c.
Inductive winner (rs : list registration) (t : pyclass) (c : anyconv) : Prop :=
  | W_assigned a b : rs = a ++ RAssign t c :: b -> Forall (fun r => ~ assigns t r) b -> winner rs t c
  | W_default a b : rs = a ++ RDefault t c :: b -> Forall (fun r => ~ about t r) a -> Forall (fun r => ~ assigns t r) b ->
      winner rs t c.

(** ** Sorting *)
Definition by_priority (a b : dconv) : Prop := (dc_prio b <= dc_prio a)%Z.
(** The same converters, by falling priority; those of the same priority keep their order. *)
Definition sorted_as (l l' : list dconv) : Prop :=
  Permutation l l' /\ StronglySorted by_priority l' /\
  forall p, filter (fun a => (dc_prio a =? p)%Z) l' = filter (fun a => (dc_prio a =? p)%Z) l.
(** The converters that answer to a name, in order. *)
Inductive answering (n : list N) : list dconv -> list dconv -> Prop :=
  | An_nil : answering n [] []
  | An_yes a l r : In n (dc_names a) -> answering n l r -> answering n (a :: l) (a :: r)
  | An_no a l r : ~ In n (dc_names a) -> answering n l r -> answering n (a :: l) r.

(** ** The tables of the other models say the same *)
Definition same_conv (a : anyconv) (v : vconv) : Prop :=
  match a, v with
  | CText, Text | CUri, Uri | CBinary, Binary | CDatetime, Datetime | CDuration, Duration | CInteger, Int
  | CBoolean, Bool | COrganizer, Organizer | CAttendee, Attendee | CGeo, Geo => True
  | _, _ => False
  end.
Definition span_kind (c : cls) : kind := match c with CTodo => KTodo | _ => KEvent end.
Definition same_kind (c : cls) (d : dkind) (k : akind) : Prop :=
  match d, k with
  | DValue vs m r s, KVal ws m' r' s' => Forall2 same_conv vs ws /\ m = m' /\ r = r' /\ s = s'
  | DSpan, KSpan k => k = span_kind c
  | DMember PBaseAlarm, KMember MAlarm | DMember PEvent, KMember MEvent | DMember PTodo, KMember MTodo => True
  | DAction, KAction | DZones, KZones => True
  | _, _ => False
  end.
Definition same_row (c : cls) (d : dconv) (a : aconv) : Prop :=
  dc_attr d = a_attr a /\ dc_names d = a_names a /\ dc_prio d = a_prio a /\ same_kind c (dc_kind d) (a_kind a).
Definition same_zconv (a : anyconv) (v : zconv) : Prop :=
  match a, v with COffset, ZCOffset | CText, ZCText | CUri, ZCUri | CDatetime, ZCDatetime => True | _, _ => False end.
Definition same_zitem (d : dconv) (z : zitem) : Prop :=
  match dc_kind d, z with
  | DValue [v] false r _, ZField f =>
      dc_attr d = zf_attr f /\ dc_names d = [zf_ics f] /\ same_zconv v (zf_conv f) /\ r = zf_required f
  | DRules, ZRules => True
  | DObservances, ZMembers => dc_names d = [py "STANDARD"; py "DAYLIGHT"]
  | _, _ => False
  end.
