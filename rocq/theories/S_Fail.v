(** * Specification: what a failing [populate] leaves behind (C71)

    [sofar]: the component after the items [its] have been read into [x0], before the
    checks at the end. [stopped]: what the item that cannot be read still changes. The
    meaning of lines is that of S_Read. *)
From Verif Require Import M_Base M_Line M_Codec M_Cal M_Time M_Span M_Dt M_Tree M_Comp.
From Verif Require Import S_Text S_Codec S_Dt S_Comp S_Multi S_Read S_Merge.
Open Scope N_scope.

Section Fail.
Variable X : ext.
Variable zs : zones.

(** Parameters replace the old ones only if there are any. *)
Definition over (ps : xp) (old : option xpar) : option xpar := match ps with [] => old | _ => Some (XOne ps) end.
Definition added (qs : list xp) (old : option xpar) : option xpar := match qs with [] => old | _ => Some (XMany (notes old ++ qs)) end.
Definition times : list (list N * list N) := [(py "DTSTART", py "BEGIN"); (py "DTEND", py "END"); (py "DUE", py "DUE")].

Record sofar {M} (RM : mkind -> list item -> M -> Prop) (x0 : comp M) (its : list item) (x : comp M) : Prop := mk_sofar {
  sf_cls : c_cls x = c_cls x0;
  sf_name : c_name x = c_name x0;
  sf_extra : exists us, Unknown (c_cls x0) its us /\ c_extra x = c_extra x0 ++ us;
  sf_one : forall f, In f (singles (c_cls x0)) -> let k := upper (g_attr f) in
    exists ls, only_lines (g_name f) its ls /\
    match ls with
    | [] => dict_get (g_attr f) (c_attrs x) = dict_get (g_attr f) (c_attrs x0) /\ dict_get k (c_params x) = dict_get k (c_params x0)
    | [l] => exists t v w rest, typed (g_types f) (cl_params l) t /\
        denotes X zs t (cl_value l) (dict_del (py "VALUE") (cl_params l)) v rest /\ kept X (g_rule f) v w /\
        dict_get (g_attr f) (c_attrs x) = Some (AOne w) /\ dict_get k (c_params x) = over rest (dict_get k (c_params x0))
    | _ => False
    end;
  sf_many : forall f, In f (multiples (c_cls x0)) -> let k := upper (h_attr f) in
    exists ls vs qs old, only_lines (h_name f) its ls /\ lines_read X zs (h_types f) ls vs qs /\
      dict_get (h_attr f) (c_attrs x0) = Some (AMany old) /\ dict_get (h_attr f) (c_attrs x) = Some (AMany (old ++ vs)) /\
      dict_get k (c_params x) = added qs (dict_get k (c_params x0));
  sf_members : forall a n k, In (a, n, k) (members (c_cls x0)) -> (forall l, In (ILine l) its -> cl_name l <> n) /\
    exists old ms, dict_get a (c_mem x0) = Some old /\ dict_get a (c_mem x) = Some (old ++ ms) /\ Forall2 (RM k) (subs n its) ms;
  (* the times of a span are read, all of one precision, but not yet stored *)
  sf_times : is_entry (c_cls x0) = true -> exists p, forall n key, In (n, key) times -> exists ls, only_lines n its ls /\
    match ls with
    | [] => dict_get key (c_params x) = dict_get key (c_params x0)
    | [l] => exists d rest, time_value X zs l p d rest /\ dict_get key (c_params x) = over rest (dict_get key (c_params x0))
    | _ => False
    end;
  sf_length : is_entry (c_cls x0) = true -> let k := py "DURATION" in exists ls, only_lines k its ls /\
    match ls with
    | [] => dict_get k (c_params x) = dict_get k (c_params x0)
    | [l] => (exists secs, Accepted (cl_value l) secs /\ (TD_MIN <= secs * 1000000 <= TD_MAX)%Z) /\
        dict_get k (c_params x) = over (cl_params l) (dict_get k (c_params x0))
    | _ => False
    end;
  (* the action is that of the class; the last parameters count *)
  sf_action : is_alarm (c_cls x0) = true -> let k := py "ACTION" in exists ls, only_lines k its ls /\
    Forall (fun l => action_class (cl_value l) (c_cls x0)) ls /\
    dict_get k (c_params x) = fold_left (fun old l => over (cl_params l) old) ls (dict_get k (c_params x0));
  (* everything else stays, the time span too *)
  sf_attrs : forall k, ~ In k (map g_attr (singles (c_cls x0)) ++ map h_attr (multiples (c_cls x0))) ->
    dict_get k (c_attrs x) = dict_get k (c_attrs x0);
  sf_params : forall k, ~ In k (param_names (c_cls x0)) -> dict_get k (c_params x) = dict_get k (c_params x0);
  sf_mems : forall k, ~ In k (map (fun m => fst (fst m)) (members (c_cls x0))) -> dict_get k (c_mem x) = dict_get k (c_mem x0)
}.

(** ** The item that cannot be read *)
(** The first values of a line, each with the note that another one follows. *)
Inductive values_begun (t : vconv) : list (list N) -> xp -> list val -> list xp -> Prop :=
  | VB_nil ps : values_begun t [] ps [] []
  | VB_more s ss ps v rest vs qs : denotes X zs t s ps v rest -> values_begun t ss (note_as (py "TRUE") rest) vs qs ->
      values_begun t (s :: ss) ps (v :: vs) (note_as (py "TRUE") rest :: qs).
Definition begun (ts : types) (l : content_line) (n : nat) (vs : list val) (qs : list xp) : Prop :=
  exists t ss rest, length ss = n /\ typed ts (cl_params l) t /\ commas (ss ++ [rest]) (cl_value l) /\ (t <> Text -> Forall (fun s => ~ In 44 s) ss) /\
    values_begun t ss (dict_del (py "VALUE") (cl_params l)) vs qs.
(** As many as can be read, but not the last one of the line. *)
Definition begun_most (ts : types) (l : content_line) (vs : list val) (qs : list xp) : Prop :=
  (exists n, begun ts l n vs qs /\ forall m vs' qs', begun ts l m vs' qs' -> (m <= n)%nat) \/
  vs = [] /\ qs = [] /\ forall m vs' qs', ~ begun ts l m vs' qs'.

(** Parameters that are stored before the line fails: those of a value that is read but
    not allowed, those of a DURATION, and those of the action of a custom alarm. *)
Inductive left_over (c : cls) (pre : list item) : item -> list N -> xp -> Prop :=
  | LO_one f l t v rest : In f (singles c) -> cl_name l = g_name f -> lines (g_name f) pre = [] -> typed (g_types f) (cl_params l) t ->
      denotes X zs t (cl_value l) (dict_del (py "VALUE") (cl_params l)) v rest -> (forall w, ~ kept X (g_rule f) v w) ->
      left_over c pre (ILine l) (upper (g_attr f)) rest
  | LO_length l : is_entry c = true -> cl_name l = py "DURATION" -> lines (py "DURATION") pre = [] ->
      left_over c pre (ILine l) (py "DURATION") (cl_params l)
  | LO_action l : c = CCustom -> cl_name l = py "ACTION" -> action_class (cl_value l) CCustom ->
      left_over c pre (ILine l) (py "ACTION") (cl_params l).
Definition list_of (c : cls) (it : item) (f : multiple) (l : content_line) : Prop :=
  In f (multiples c) /\ it = ILine l /\ cl_name l = h_name f.

Record stopped {M} (pre : list item) (it : item) (y x : comp M) : Prop := mk_stopped {
  st_cls : c_cls x = c_cls y;
  st_name : c_name x = c_name y;
  st_extra : c_extra x = c_extra y;
  st_mem : c_mem x = c_mem y;
  st_many : forall f l, list_of (c_cls y) it f l -> let k := upper (h_attr f) in
    exists old vs qs, begun_most (h_types f) l vs qs /\ dict_get (h_attr f) (c_attrs y) = Some (AMany old) /\
      dict_get (h_attr f) (c_attrs x) = Some (AMany (old ++ vs)) /\ dict_get k (c_params x) = added qs (dict_get k (c_params y));
  st_attrs : forall k, (forall f l, list_of (c_cls y) it f l -> k <> h_attr f) -> dict_get k (c_attrs x) = dict_get k (c_attrs y);
  st_left : forall k ps, left_over (c_cls y) pre it k ps -> dict_get k (c_params x) = over ps (dict_get k (c_params y));
  st_params : forall k, (forall f l, list_of (c_cls y) it f l -> k <> upper (h_attr f)) -> (forall ps, ~ left_over (c_cls y) pre it k ps) ->
    dict_get k (c_params x) = dict_get k (c_params y)
}.

(** Why the checks at the end fail: a property that is needed is not there, or the times
    are not a time span. *)
Definition unclosed (M : Type) (c : cls) (its : list item) : Prop :=
  (exists f, In f (singles c) /\ In (g_name f) (required c) /\ lines (g_name f) its = []) \/
  is_entry c = true /\ forall x : comp M, ~ span_read X zs c its x.
End Fail.
