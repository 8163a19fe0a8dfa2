(** * Specification: references to timezones in a written calendar (C43) *)
From Verif Require Import M_Base M_Text M_Line M_Codec M_Cal M_Time M_Span M_Dt M_Tree M_Comp S_Store.
Open Scope N_scope.

(** The zone identifiers used on the properties of an item and of its parts, leaving out
    the definitions of zones. *)
Definition line_refs (l : content_line) : list (list N) :=
  match dict_get (py "TZID") (cl_params l) with Some vs => map pval_str vs | None => [] end.
Fixpoint refs (it : item) : list (list N) :=
  match it with
  | ILine l => line_refs l
  | ICont n its => if str_eqb n (py "VTIMEZONE") then [] else flat_map refs its
  end.
(** The definition of a zone: its TZID property has the identifier as its text. *)
Definition zone_part (it : item) : Prop := exists its, it = ICont (py "VTIMEZONE") its.
Definition defines (id : list N) (it : item) : Prop :=
  exists its p, it = ICont (py "VTIMEZONE") its /\ In (ILine (mk_line (py "TZID") p (text_serialize id))) its.
Definition entry_part (it : item) : Prop := exists its, it = ICont (py "VEVENT") its \/ it = ICont (py "VTODO") its.

(** Exactly one item defines the identifier, and no event or todo comes before it. *)
Definition defined_once (id : list N) (its : list item) (t : item) : Prop :=
  exists pre post, its = pre ++ t :: post /\ defines id t /\
    Forall (fun it => ~ defines id it) (pre ++ post) /\ Forall (fun it => ~ entry_part it) pre.

Section Ref.
Variable X : ext.
(** Writing a zone gives a VTIMEZONE with the identifier of the zone and no other. *)
Definition zone_writer : Prop :=
  forall id z z' t, z_from_tzinfo (x_zdb X) z = Ok (Some (id, z')) -> x_tz_dump X z' = Ok t ->
    zone_part t /\ forall i, defines i t <-> i = id.

(** Components whose unknown properties and parameters mention no zone. *)
Definition clean_par (p : xp) : Prop := dict_get (py "TZID") p = None.
Definition clean_val (v : val) : Prop := match v with VPerson _ _ p => clean_par p | _ => True end.
Definition clean_attr (a : attr) : Prop :=
  match a with ANone => True | AOne v => clean_val v | AMany l => Forall clean_val l end.
Definition clean_xpar (p : xpar) : Prop := match p with XOne p => clean_par p | XMany l => Forall clean_par l end.
Record clean {M} (CM : M -> Prop) (x : comp M) : Prop := mk_clean {
  cl_cname : c_name x = NAME (c_cls x);
  cl_attrs : forall k a, dict_get k (c_attrs x) = Some a -> clean_attr a;
  cl_mem : forall k l m, dict_get k (c_mem x) = Some l -> In m l -> CM m;
  cl_pars : forall k p, dict_get k (c_params x) = Some p -> clean_xpar p;
  cl_extra : Forall (fun it => refs it = []) (c_extra x)
}.
Definition clean_alarm : alarm -> Prop := clean (fun _ => True).
Definition clean_entry (x : entry) : Prop := In (c_cls x) [CEvent; CTodo] /\ clean clean_alarm x.
Definition clean_calendar (c : calendar) : Prop :=
  c_cls c = CCalendar /\ clean clean_entry c /\ Forall (fun it => ~ zone_part it) (c_extra c).

(** The zones of the values of a calendar; different zones have different identifiers. *)
Definition calendar_uses (c : calendar) : list N -> tz -> tz -> Prop := comp_uses X (entry_uses X) c.
Definition distinct_zones (c : calendar) : Prop :=
  forall id z1 z1' z2 z2', calendar_uses c id z1 z1' -> calendar_uses c id z2 z2' -> z1' = z2'.
End Ref.
