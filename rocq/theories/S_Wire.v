(** * Specification: components that can be written as text, storable calendars (C45, C46) *)
From Verif Require Import M_Base M_Text M_Line M_Codec M_Cal M_Time M_Span M_Dt M_Tree M_Comp.
From Verif Require Import S_Text S_Codec S_Line S_Fold S_Tree S_Comp S_Store S_Ref.
Open Scope N_scope.

Section Wire.
Variable X : ext.
(** Parameters that have a written form. *)
Definition wire_par (p : xp) : Prop :=
  NoDup (keys p) /\ forall k vs, In (k, vs) p -> none_of [61; 58; 59] k /\ no_break k /\ wf_pvals vs.
(** Values whose written form has no line break; identifiers of zones that can be a
    parameter value. *)
Definition wire_id (id : list N) : Prop := id <> [] /\ ~ In 13 id.
Definition wire_val (v : val) : Prop :=
  match v with
  | VUrl u => no_break (x_geturl X u)
  | VPerson _ e p => no_break (email_str X e) /\ wire_par p
  | VGeo a b => no_break (x_ffmt X a) /\ no_break (x_ffmt X b)
  | VBytes b => Forall byte b
  | _ => True
  end.
Definition wire_attr (a : attr) : Prop :=
  match a with ANone => True | AOne v => wire_val v | AMany l => Forall wire_val l end.
Definition wire_xpar (p : xpar) : Prop := match p with XOne p => wire_par p | XMany l => Forall wire_par l end.
Record wire {M} (WM : M -> Prop) (x : comp M) : Prop := mk_wire {
  wi_name : c_name x = NAME (c_cls x);
  wi_cls : c_cls x <> CCustom;
  wi_attrs : forall k a, dict_get k (c_attrs x) = Some a -> wire_attr a;
  wi_mem : forall k l m, dict_get k (c_mem x) = Some l -> In m l -> WM m;
  wi_params : forall k p, dict_get k (c_params x) = Some p -> wire_xpar p;
  wi_extra : Forall (wf_item ok_line) (c_extra x)
}.
Definition wire_alarm : alarm -> Prop := wire (fun _ => True).
Definition wire_entry (x : entry) : Prop := wire wire_alarm x /\ forall id z z', entry_uses X x id z z' -> wire_id id.
Definition wire_calendar (c : calendar) : Prop :=
  wire (wire wire_alarm) c /\ forall id z z', calendar_uses X c id z z' -> wire_id id.

(** Storable calendars: a list of storable events and one of storable todos. *)
Definition storable_calendar (c : calendar) : Prop :=
  c_cls c = CCalendar /\
  storable X (fun a m => storable_entry X m /\ c_cls m = if str_eqb a (py "events") then CEvent else CTodo) c.
Definition back_calendar (c d : calendar) : Prop := eq_comp X (back_entry X) (noted c) d.

(** Zones that survive being written as VTIMEZONE and read again, with the identifier
    they were written with. Objects standing for the same zone are not distinguished. *)
Definition zone_stored (id : list N) (z z' : tz) : Prop :=
  exists sub, x_tz_dump X z' = Ok (ICont (py "VTIMEZONE") sub) /\ wf_item ok_line (ICont (py "VTIMEZONE") sub) /\
    forall sub', Forall2 item_eq sub sub' -> x_tz_load X sub' = Ok (id, z).
Definition zones_stored (c : calendar) : Prop :=
  (forall id z z', calendar_uses X c id z z' -> zone_stored id z z') /\ distinct_zones X c.
End Wire.

(** The pieces of a text cut after every line boundary: each piece ends with one, except
    possibly the last, and none has one before its end; CR LF is one and is not cut. *)
Definition line_boundary (c : N) : Prop := In c [10; 13; 11; 12; 28; 29; 30; 133; 8232; 8233].
Inductive whole_line : list N -> Prop :=
  | WL_one s c : (forall d, In d s -> ~ line_boundary d) -> line_boundary c -> whole_line (s ++ [c])
  | WL_crlf s : (forall d, In d s -> ~ line_boundary d) -> whole_line (s ++ [13; 10]).
Inductive Pieces : list N -> list (list N) -> Prop :=
  | PC_nil : Pieces [] []
  | PC_last s : s <> [] -> (forall d, In d s -> ~ line_boundary d) -> Pieces s [s]
  | PC_more s t ls : whole_line s -> (forall s' t', s = s' ++ [13] -> t <> 10 :: t') -> Pieces t ls -> Pieces (s ++ t) (s :: ls).
