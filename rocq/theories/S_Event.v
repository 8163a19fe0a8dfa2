(** * Specification: histories of an event or todo and what they must preserve *)
From Verif Require Import M_Base M_Codec M_Cal M_Time M_Span S_Span M_Event.
Open Scope Z_scope.

(** Operations that do not tamper with the mark that switches the checks on, nor with
    the instance dictionary as a whole. *)
Definition ordinary (p : op) : Prop :=
  forall v, p <> OSet (py "__post_init__") v /\ p <> OSet (py "__dict__") v.

(** Objects that a program can have: constructed, then any number of operations,
    failing ones included. *)
Definition reachable (E : env) (utc : tz) (o : obj) : Prop :=
  exists c b e d uid ds kw o0 ps, new E utc c b e d uid ds kw = Ok o0 /\ Forall ordinary ps /\ o = run_all E utc ps o0.

(** Reading a property (readings do not change the object). *)
Definition reading {A} (m : M A) (o : obj) : res A := snd (m o).

(** Every attribute except the time span is unchanged. *)
Definition others_same (o o' : obj) : Prop :=
  o_cls o' = o_cls o /\ forall k, k <> py "timespan" -> dict_get k (o_attrs o') = dict_get k (o_attrs o).

(** Values an attribute may hold. *)
Definition utc_time (utc : tz) (v : val) : Prop := exists d, v = VDt d /\ dtz d = Some utc.
Definition int_upto (n : Z) (v : val) : Prop := v = VNone \/ exists i, v = VInt i /\ 0 <= i <= n.
Definition a_list (v : val) : Prop := exists l, v = VList l.
Definition one_of (l : list str) (v : val) : Prop := v = VNone \/ exists s, v = VStr s /\ In s l.

(** [holds o k P]: the attribute [k] of [o] exists and satisfies [P]. *)
Definition holds (o : obj) (k : str) (P : val -> Prop) : Prop :=
  exists v, dict_get k (o_attrs o) = Some v /\ P v.

Definition attributes_ok (utc : tz) (o : obj) : Prop :=
  holds o (py "status") (one_of [py "TENTATIVE"; py "CONFIRMED"; py "CANCELLED"]) /\
  holds o (py "created") (fun v => v = VNone \/ utc_time utc v) /\
  holds o (py "last_modified") (fun v => v = VNone \/ utc_time utc v) /\
  holds o (py "dtstamp") (utc_time utc) /\
  holds o (py "alarms") a_list /\ holds o (py "attach") a_list /\
  holds o (py "extra") (fun v => exists n, v = VObj 3 n) /\ holds o (py "extra_params") (fun v => exists d, v = VDict d) /\
  match o_cls o with
  | CEvent =>
      holds o (py "attendees") a_list /\ holds o (py "categories") a_list /\
      holds o (py "classification") (fun v => v = VNone \/ exists s, v = VStr s) /\
      holds o (py "organizer") (fun v => v = VNone \/ exists n, v = VObj 1 n) /\
      holds o (py "geo") (fun v => v = VNone \/ exists a b, v = VTuple [a; b])
  | CTodo =>
      holds o (py "percent") (int_upto 100) /\ holds o (py "priority") (int_upto 9) /\
      holds o (py "completed") (fun v => v = VNone \/ exists d, v = VDt d)
  end.
