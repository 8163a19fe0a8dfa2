(** * Equality, hash and text of recurrence rules and sets (src/ics/rrule.py)

    The functions replace those of dateutil's classes (rrule.py:91-97). The attributes of a
    rule are values of any type [V] with its [==] and [hash]. The text of a rule is the one
    of dateutil 2.8 ([rrule.__str__]: the line DTSTART, if there is a start, and the line
    RRULE); there a rule is its start and the text of its RRULE line (M_Rrule). *)
From Verif Require Import M_Base M_Line M_Codec M_Cal M_Time M_Span M_Dt M_Rrule M_Show.
Open Scope Z_scope.

Section RuleEq.
Variable V : Type.
Variable veq : V -> V -> bool.
(** [hash] of a value, of a string, of a tuple (by the hashes of its items). *)
Variable vhash : V -> Z.
Variable shash : str -> Z.
Variable thash : list Z -> Z.

Record rrule := mk_rr {
  rr_interval : V; rr_count : V; rr_dtstart : V; rr_freq : V; rr_until : V; rr_wkst : V;
  rr_original : dict V                       (* _original_rule *)
}.
(** [rrule_to_dict] (rrule.py:18-28) *)
Definition rrule_to_dict (r : rrule) : dict V :=
  dict_update [(py "interval", rr_interval r); (py "count", rr_count r); (py "dtstart", rr_dtstart r);
               (py "freq", rr_freq r); (py "until", rr_until r); (py "wkst", rr_wkst r)] (rr_original r).
(** [==] of two dicts and of two lists *)
Definition dict_eq (a b : dict V) : bool :=
  Nat.eqb (length a) (length b) &&
  forallb (fun kv => match dict_get (fst kv) b with Some w => veq (snd kv) w | None => false end) a.
Fixpoint list_eq {A} (eq : A -> A -> bool) (a b : list A) : bool :=
  match a, b with
  | [], [] => true
  | x :: a', y :: b' => eq x y && list_eq eq a' b'
  | _, _ => false
  end.
(** [rrule_eq], [rrule_hash] (rrule.py:38-45) *)
Definition rrule_eq (a b : rrule) : bool := dict_eq (rrule_to_dict a) (rrule_to_dict b).
Definition rrule_hash (r : rrule) : Z :=
  thash (map (fun kv => thash [shash (fst kv); vhash (snd kv)]) (rrule_to_dict r)).

(** [rruleset_eq], [rruleset_hash] (rrule.py:52-55, 80-88) *)
Record rruleset := mk_rrs { rrs_rrule : list rrule; rrs_rdate : list V; rrs_exrule : list rrule; rrs_exdate : list V }.
Definition rruleset_eq (a b : rruleset) : bool :=
  list_eq rrule_eq (rrs_rrule a) (rrs_rrule b) && list_eq veq (rrs_rdate a) (rrs_rdate b) &&
  list_eq rrule_eq (rrs_exrule a) (rrs_exrule b) && list_eq veq (rrs_exdate a) (rrs_exdate b).
Definition rruleset_hash (s : rruleset) : Z :=
  thash [thash (map rrule_hash (rrs_rrule s)); thash (map vhash (rrs_rdate s));
         thash (map rrule_hash (rrs_exrule s)); thash (map vhash (rrs_exdate s))].
End RuleEq.

(** [str(rule)] of dateutil *)
Definition rule_str (r : rule) : str :=
  (match r_start r with Some d => py "DTSTART:" ++ fmt_datetime d ++ [10%N] | None => [] end) ++ py "RRULE:" ++ r_text r.
(** [str(date)] of a datetime without zone *)
Definition wall_str (w : Z) : str := dt_str (mk_env (fun _ _ _ => 0) (fun _ u => (u, false)) (fun _ _ => 0) (fun _ => 0) (fun _ _ => 0) (fun u => (u, false))) (mk_dt w false None).
(** [rruleset_str] (rrule.py:58-68) *)
Definition rruleset_str (s : ruleset) : str :=
  flat_map (fun r => rule_str r ++ [10%N]) (rs_rules s) ++
  flat_map (fun r => py "EX" ++ tl (rule_str r) ++ [10%N]) (rs_exrules s) ++
  flat_map (fun d => wall_str d ++ [10%N]) (rs_dates s) ++
  flat_map (fun d => wall_str d ++ [10%N]) (rs_exdates s).
