(** * Specification: what it means to read into a component that already has contents (C60)

    Compared with what is read into a new component ([y]) and with the contents before ([x0]).
    The lists of properties are those of S_Read. *)
From Verif Require Import M_Base M_Line M_Tree M_Comp M_Open S_Comp S_Multi S_Reorder S_Read.
Open Scope N_scope.

(** Lists are lists, and have lists of notes. *)
Record mergeable {M} (x0 : comp M) : Prop := mk_mergeable {
  mb_many : forall f, In f (multiples (c_cls x0)) -> exists l, dict_get (h_attr f) (c_attrs x0) = Some (AMany l);
  mb_notes : forall f p, In f (multiples (c_cls x0)) -> dict_get (upper (h_attr f)) (c_params x0) <> Some (XOne p);
  mb_mem : forall a n k, In (a, n, k) (members (c_cls x0)) -> dict_get a (c_mem x0) <> None
}.
Definition notes (o : option xpar) : list xp := match o with Some (XMany l) => l | _ => [] end.

Record merged {M} (its : list item) (x0 y x : comp M) : Prop := mk_merged {
  me_cls : c_cls x = c_cls x0;
  me_name : c_name x = c_name x0;
  (* unknown items are added *)
  me_extra : c_extra x = c_extra x0 ++ c_extra y;
  (* a single value is replaced if there is a line *)
  me_one : forall f, In f (singles (c_cls x0)) -> dict_get (g_attr f) (c_attrs x) =
    match lines (g_name f) its with [] => dict_get (g_attr f) (c_attrs x0) | _ => dict_get (g_attr f) (c_attrs y) end;
  (* its parameters are replaced only if the line has any *)
  me_params : forall k, (forall f, In f (multiples (c_cls x0)) -> k <> upper (h_attr f)) -> dict_get k (c_params x) =
    match dict_get k (c_params y) with Some p => Some p | None => dict_get k (c_params x0) end;
  (* lists, their notes and the members are added *)
  me_many : forall f, In f (multiples (c_cls x0)) -> exists old new, dict_get (h_attr f) (c_attrs x0) = Some (AMany old) /\
    dict_get (h_attr f) (c_attrs y) = Some (AMany new) /\ dict_get (h_attr f) (c_attrs x) = Some (AMany (old ++ new));
  me_notes : forall f, In f (multiples (c_cls x0)) -> let k := upper (h_attr f) in
    notes (dict_get k (c_params x)) = notes (dict_get k (c_params x0)) ++ notes (dict_get k (c_params y)) /\
    (forall p, dict_get k (c_params x) <> Some (XOne p)) /\
    (dict_get k (c_params x) = None <-> dict_get k (c_params x0) = None /\ dict_get k (c_params y) = None);
  me_mem : forall a n k, In (a, n, k) (members (c_cls x0)) -> exists old new, dict_get a (c_mem x0) = Some old /\
    dict_get a (c_mem y) = Some new /\ dict_get a (c_mem x) = Some (old ++ new);
  (* the time span is always replaced *)
  me_span : is_entry (c_cls x0) = true -> dict_get (py "timespan") (c_attrs x) = dict_get (py "timespan") (c_attrs y);
  (* everything else stays *)
  me_attrs : forall k, ~ In k (attr_names (c_cls x0)) -> dict_get k (c_attrs x) = dict_get k (c_attrs x0);
  me_mems : forall k, ~ In k (map (fun m => fst (fst m)) (members (c_cls x0))) -> dict_get k (c_mem x) = dict_get k (c_mem x0)
}.

(** The one container that is imported. *)
Definition imported (i : imports) (n : list N) (its : list item) : Prop :=
  match i with
  | FromContainer m l => m = n /\ l = its
  | FromStr t => string_to_containers t = ([ICont n its], None)
  | FromLines ls => lines_to_containers ls = ([ICont n its], None)
  | _ => False
  end.

(** The members under a name, of one calendar and of the fresh ones read from containers. *)
Definition under {M} (k : list N) (x : comp M) : list M := match dict_get k (c_mem x) with Some l => l | None => [] end.
