(** * Specification: what must hold of a calendar that was read for it to be kept when it is written again (C59)

    Reading accepts more than writing can say. [keepable] lists the differences; nothing
    here refers to the reading or writing functions. *)
From Verif Require Import M_Base M_Line M_Codec M_Cal M_Time M_Span M_Dt M_Tree M_Comp S_Line S_Tree S_Store S_Ref S_Wire.
Open Scope N_scope.

Section Again.
Variable X : ext.
(** External functions. The text of an address has no comma or line break unless the text
    it was read from has one; numbers are written without semicolon and line break; the
    current time is a UTC time. *)
Record text_env : Prop := mk_text_env {
  te_url : forall s u c, x_urlparse X s = Ok u -> In c [44; 13; 10] -> ~ In c s -> ~ In c (x_geturl X u);
  te_float : forall a c, In c [59; 13; 10] -> ~ In c (x_ffmt X a);
  te_now : exists w, x_now X = mk_dt w false (Some (x_utc X)) /\ wall_ok w = true
}.

(** Whole seconds (converting to UTC may give others), a year of four digits, and a zone
    that has an identifier. *)
Definition keepable_dt (d : datetime) : Prop :=
  (wall d mod US_SEC = 0)%Z /\ (1000 <= f_y (fields_of (wall d)))%Z /\
  match dtz d with
  | None => True
  | Some z => z_is_utc (x_zdb X) z = true \/ exists id z', dt_uses X d id z z' /\ id <> []
  end.
(** Addresses equal to the address read from their text; coordinates with six decimals. *)
Definition keepable_val (v : val) : Prop :=
  match v with
  | VDt d => keepable_dt d
  | VSpan t => forall d, In d (val_dts (VSpan t)) -> keepable_dt d
  | VUrl u | VPerson _ (EUrl u) _ => storable_url X u
  | VGeo a b => x_float X (x_ffmt X a) = Ok a /\ x_float X (x_ffmt X b) = Ok b
  | _ => True
  end.
(** In addition, persons of a list have a line of their own: those that share the line of
    another one have a note for a parameter. *)
Definition own_line (v : val) : Prop :=
  match v with VPerson _ _ p => ~ In (py "__merge_next") (keys p) | _ => True end.
Definition keepable_attr (a : attr) : Prop :=
  match a with
  | ANone => True
  | AOne v => keepable_val v
  | AMany l => Forall (fun v => keepable_val v /\ own_line v) l
  end.
(** The note is the last parameter: only a line that has a parameter of that name has it
    elsewhere. *)
Definition note_last (q : xp) : Prop := exists p w, q = p ++ [(py "__merge_next", w)].

(** No custom alarm, no parameters of DTEND, and none of DUE in events. *)
Record keepable {M} (KM : M -> Prop) (x : comp M) : Prop := mk_keepable {
  ke_cls : c_cls x <> CCustom;
  ke_attrs : forall k a, dict_get k (c_attrs x) = Some a -> keepable_attr a;
  ke_notes : forall k qs, dict_get k (c_params x) = Some (XMany qs) -> Forall note_last qs;
  ke_end : no_par x (py "END");
  ke_due : c_cls x = CEvent -> no_par x (py "DUE");
  ke_mem : forall k l m, dict_get k (c_mem x) = Some l -> In m l -> KM m
}.
Definition keepable_alarm : alarm -> Prop := keepable (fun _ => True).
Definition keepable_entry : entry -> Prop := keepable keepable_alarm.
Definition keepable_calendar : calendar -> Prop := keepable keepable_entry.

(** Equal calendars, with equal events, todos and alarms. *)
Definition equal_alarm : alarm -> alarm -> Prop := eq_comp X (fun _ _ => True).
Definition equal_entry : entry -> entry -> Prop := eq_comp X equal_alarm.
Definition equal_calendar : calendar -> calendar -> Prop := eq_comp X equal_entry.

(** The identifiers of the zones can be parameter values. *)
Definition wire_ids (c : calendar) : Prop := forall id z z', calendar_uses X c id z z' -> wire_id id.
End Again.
