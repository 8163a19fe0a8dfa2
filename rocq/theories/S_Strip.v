(** * Specification: removing extra content *)
From Verif Require Import M_Base M_Line M_Tree M_Comp S_Multi.

(** What is asked for. *)
Definition asked (all : bool) (o : option bool) : Prop := o = Some true \/ o = None /\ all = true.

(** Python dicts have each key once. *)
Definition dicts {M} (x : comp M) : Prop :=
  Forall (fun kv => match snd kv with XOne p => NoDup (keys p) | XMany l => Forall (fun p => NoDup (keys p)) l end) (c_params x).

(** Parameters without the marker that joins values. *)
Definition without_marker (p p' : xp) : Prop := p' = filter (fun kv => negb (str_eqb (fst kv) (py "__merge_next"))) p.
Definition unmarked (a b : xpar) : Prop :=
  match a, b with
  | XOne p, XOne p' => p' = p
  | XMany l, XMany l' => Forall2 without_marker l l'
  | _, _ => False
  end.

(** [y] is [x] without its unknown items ([P]), remembered parameters ([R]), markers ([J]). *)
Definition stripped {M} (P R J : Prop) (x y : comp M) : Prop :=
  c_cls y = c_cls x /\ c_name y = c_name x /\ c_attrs y = c_attrs x /\ c_mem y = c_mem x /\
  (P -> c_extra y = []) /\ (~ P -> c_extra y = c_extra x) /\
  (R -> c_params y = []) /\ (~ R -> ~ J -> c_params y = c_params x) /\
  (~ R -> J -> Forall2 (fun kv kv' => fst kv' = fst kv /\ unmarked (snd kv) (snd kv')) (c_params x) (c_params y)).

(** A line taken apart: one line per value, values being separated by commas. *)
Fixpoint commas (ws : list (list N)) : list N :=
  match ws with [] => [] | [w] => w | w :: ws' => w ++ 44%N :: commas ws' end.
Definition texts (ps : xp) (k : list N) : option (list (list N)) := option_map (map pval_str) (dict_get k ps).
(** The parameters are kept, or ([drop]) only those that the value itself needs. *)
Definition own_params (n k : list N) : Prop :=
  k = py "VALUE" \/ k = py "TZID" \/ n = py "ORGANIZER" \/ n = py "ATTENDEE".
Definition same_params (drop : bool) (l l' : content_line) : Prop :=
  if drop then forall k vs, texts (cl_params l') k = Some vs -> texts (cl_params l) k = Some vs /\ own_params (cl_name l) k
  else forall k, texts (cl_params l') k = texts (cl_params l) k.
Definition apart (drop : bool) (it : item) (its : list item) : Prop :=
  match it with
  | ILine l => exists ws, ws <> [] /\ cl_value l = commas ws /\
      Forall2 (fun w i => exists l', i = ILine l' /\ cl_name l' = cl_name l /\ cl_value l' = w /\ same_params drop l l') ws its
  | ICont _ _ => its = [it]
  end.
Definition all_apart (drop : bool) (its its' : list item) : Prop :=
  exists groups, its' = concat groups /\ Forall2 (apart drop) its groups.

(** What a component writes itself, and the content of a container. *)
Definition content (it : item) : list item := match it with ICont _ its => its | ILine _ => [] end.

(** The properties with several values: attribute and name. *)
Definition listed (c : cls) : list (list N * list N) :=
  match c with
  | CEvent => [(py "attach", py "ATTACH"); (py "attendees", py "ATTENDEE"); (py "categories", py "CATEGORIES")]
  | CTodo => [(py "attach", py "ATTACH")]
  | CEmail => [(py "attach", py "ATTACH"); (py "attendees", py "ATTENDEE")]
  | _ => []
  end.
(** What is written before ([its]) and after ([its']) removing: the unknown items at the
    end are left out if asked; lines are taken apart if parameters or markers are removed,
    so that there is a line for each value. *)
Definition written_after {M} (P R J : Prop) (x : comp M) (its its' : list item) : Prop :=
  exists base base' last', its = base ++ c_extra x /\ its' = base' ++ last' /\
    (P -> last' = []) /\ (~ P -> last' = c_extra x) /\
    (R -> all_apart true base base') /\ (~ R -> J -> all_apart false base base') /\ (~ R -> ~ J -> base' = base) /\
    (R \/ J -> forall a n vs, In (a, n) (listed (c_cls x)) -> get_attr a x = AMany vs -> length (S_Multi.lines n base') = length vs).
