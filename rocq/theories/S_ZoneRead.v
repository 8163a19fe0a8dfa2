(** * Specification: what the lines of a time zone definition mean (C61)

    [zone_reads its z]: the zone [z] is what the items [its] of a VTIMEZONE say. Nothing
    here refers to the reading loop or to the order in which converters are asked. *)
From Verif Require Import M_Base M_Line M_Codec M_Cal M_Time M_Span M_Dt M_Tree M_Comp M_Rrule M_Vtz.
From Verif Require Import S_Text S_Codec S_Dt S_Comp S_Multi S_Read S_Vtz.
From Coq Require Import Sorting.Sorted.
Open Scope N_scope.

Section ZoneRead.
Variable X : ext.
(** dateutil's reader of rules and of dates. *)
Variable rule_parse : option Z -> list N -> res M_Rrule.rule.
Variable date_parse : list N -> res Z.

(** ** Recurrence sets *)
Definition RULE_NAMES : list (list N) := [py "RRULE"; py "RDATE"; py "EXRULE"; py "EXDATE"; py "DTSTART"].
(** The lines of the recurrence set, in order. *)
Definition rule_lines (its : list item) : list content_line :=
  flat_map (fun it => match it with ILine l => if existsb (str_eqb (cl_name l)) RULE_NAMES then [l] else [] | ICont _ _ => [] end) its.
(** The parameters the lines can have: VALUE=DATE-TIME at dates, in any case and without
    quotes, VALUE=DATE at EXDATE and DTSTART. *)
Definition spelled (p : list N * list pval) (w : list N) : Prop := upper (fst p ++ py "=" ++ serialize_pvals (snd p)) = w.
Definition bare (n : list N) (ps : M_Line.params) : Prop :=
  ps = [] \/
  n = py "RDATE" /\ Forall (fun p => spelled p (py "VALUE=DATE-TIME")) ps \/
  In n [py "EXDATE"; py "DTSTART"] /\ exists p, ps = [p] /\ (spelled p (py "VALUE=DATE-TIME") \/ spelled p (py "VALUE=DATE")).
(** The dates of a line, separated by commas. *)
Definition dates_on (l : content_line) (ds : list Z) : Prop :=
  exists ss, commas ss (cl_value l) /\ Forall (fun s => ~ In 44 s) ss /\ Forall2 (fun s d => date_parse s = Ok d) ss ds.
(** Every DTSTART line has one date; the last one counts. *)
Definition start_is (its : list item) (s : option Z) : Prop :=
  exists ds, Forall2 (fun l d => dates_on l [d]) (lines (py "DTSTART") its) ds /\ s = last (map Some ds) None.
Record set_read (its : list item) (rs : ruleset) : Prop := mk_set_read {
  sr_lines : forall n l, In n RULE_NAMES -> ~ In (ICont n l) its;
  sr_any : exists n l, In n RULE_NAMES /\ In l (lines n its);
  sr_bare : forall n l, In n RULE_NAMES -> In l (lines n its) -> bare n (cl_params l);
  sr_all : exists s ds, start_is its s /\
    Forall2 (fun l r => rule_parse s (cl_value l) = Ok r) (lines (py "RRULE") its) (rs_rules rs) /\
    Forall2 (fun l r => rule_parse s (cl_value l) = Ok r) (lines (py "EXRULE") its) (rs_exrules rs) /\
    Forall2 dates_on (lines (py "RDATE") its) ds /\ forall t, In t (rs_dates rs) <-> In t (concat ds) \/ s = Some t;
  sr_exall : exists ds, Forall2 dates_on (lines (py "EXDATE") its) ds /\ forall t, In t (rs_exdates rs) <-> In t (concat ds);
  (* each date once, in order *)
  sr_once : StronglySorted Z.lt (rs_dates rs);
  sr_exonce : StronglySorted Z.lt (rs_exdates rs)
}.

(** ** Properties: at most one line, of the one type there is *)
Definition typed_as (w : list N) (ps : xp) : Prop :=
  match dict_get (py "VALUE") ps with
  | None | Some [] => True
  | Some [p] => pval_str p = w
  | Some _ => False
  end.
Definition field_read {A} (n w : list N) (means : list N -> xp -> A -> xp -> Prop) (key : list N)
  (its : list item) (pars : dict xp) (o : option A) : Prop :=
  exists ls, only_lines n its ls /\
  match ls with
  | [] => o = None /\ dict_get key pars = None
  | [l] => exists v rest, typed_as w (cl_params l) /\ means (cl_value l) (dict_del (py "VALUE") (cl_params l)) v rest /\
      o = Some v /\ dict_get key pars = match rest with [] => None | _ => Some rest end
  | _ => False
  end.
Definition means_offset (s : list N) (ps : xp) (x : Z) (rest : xp) : Prop :=
  exists v, OffsetValue s v /\ x = (v * US_SEC)%Z /\ rest = ps.
Definition means_text (s : list N) (ps : xp) (t : list N) (rest : xp) : Prop := TextEsc s t /\ rest = ps.
Definition means_url (s : list N) (ps : xp) (u : url) (rest : xp) : Prop := x_urlparse X s = Ok u /\ rest = ps.
Definition means_utc (s : list N) (ps : xp) (e : datetime) (rest : xp) : Prop :=
  exists d, moment X [] datetime_text s ps d /\ rest = dict_del (py "TZID") ps /\
    dt_astimezone (x_env X) d (Some (x_utc X)) = Ok e.

(** ** Observances and zones *)
Definition others (names : list (list N)) (its : list item) : list item :=
  filter (fun it => negb (existsb (str_eqb (item_name it)) names)) its.
Record obs_reads (n : list N) (its : list item) (o : observance) : Prop := mk_obs_reads {
  or_name : n = if o_dst o then py "DAYLIGHT" else py "STANDARD";
  or_from : field_read (py "TZOFFSETFROM") (py "UTC-OFFSET") means_offset (py "TZOFFSETFROM") its (o_params o) (Some (o_from o));
  or_to : field_read (py "TZOFFSETTO") (py "UTC-OFFSET") means_offset (py "TZOFFSETTO") its (o_params o) (Some (o_to o));
  or_rules : set_read its (o_rules o);
  or_tzname : field_read (py "TZNAME") (py "TEXT") means_text (py "TZNAME") its (o_params o) (o_name o);
  or_comment : field_read (py "COMMENT") (py "TEXT") means_text (py "COMMENT") its (o_params o) (o_comment o);
  or_extra : o_extra o = others OBS_NAMES its;
  or_params : forall k, dict_get k (o_params o) <> None -> In k [py "TZOFFSETFROM"; py "TZOFFSETTO"; py "TZNAME"; py "COMMENT"]
}.
(** The observances of a zone, of both kinds, in order. *)
Definition obs_parts (its : list item) : list (list N * list item) :=
  flat_map (fun it => match it with
                      | ICont n l => if str_eqb n (py "STANDARD") || str_eqb n (py "DAYLIGHT") then [(n, l)] else []
                      | ILine _ => []
                      end) its.
Record zone_reads (its : list item) (z : timezone) : Prop := mk_zone_reads {
  zr_id : field_read (py "TZID") (py "TEXT") means_text (py "TZID") its (t_params z) (Some (t_id z));
  zr_obs_lines : forall l, In (ILine l) its -> ~ In (cl_name l) [py "STANDARD"; py "DAYLIGHT"];
  zr_obs : Forall2 (fun p o => obs_reads (fst p) (snd p) o) (obs_parts its) (t_obs z);
  zr_url : field_read (py "TZURL") (py "URI") means_url (py "TZURL") its (t_params z) (t_url z);
  zr_modified : field_read (py "LAST-MODIFIED") (py "DATE-TIME") means_utc (py "LAST_MODIFIED") its (t_params z) (t_modified z);
  zr_extra : t_extra z = others ZONE_NAMES its;
  zr_params : forall k, dict_get k (t_params z) <> None -> In k [py "TZID"; py "TZURL"; py "LAST_MODIFIED"]
}.
(** Equal up to the order in which parameters are stored. *)
Definition same_params (p q : dict xp) : Prop := forall k, dict_get k p = dict_get k q.
Record same_obs (a b : observance) : Prop := mk_same_obs {
  sb_dst : o_dst a = o_dst b; sb_from : o_from a = o_from b; sb_to : o_to a = o_to b; sb_rules : o_rules a = o_rules b;
  sb_name : o_name a = o_name b; sb_comment : o_comment a = o_comment b; sb_extra : o_extra a = o_extra b;
  sb_params : same_params (o_params a) (o_params b)
}.
Record same_zone (a b : timezone) : Prop := mk_same_zone {
  sz_id : t_id a = t_id b; sz_obss : Forall2 same_obs (t_obs a) (t_obs b); sz_url' : t_url a = t_url b;
  sz_modified' : t_modified a = t_modified b; sz_extra' : t_extra a = t_extra b;
  sz_params' : same_params (t_params a) (t_params b)
}.
End ZoneRead.

(** ** Items that differ only in order: lines of each name in the same order, the same
    parts, the same unknown items. *)
Record reordered (names : list (list N)) (its its' : list item) : Prop := mk_reordered {
  ro_lines : forall n, lines n its = lines n its';
  ro_conts : forall n l, In (ICont n l) its <-> In (ICont n l) its';
  ro_parts : obs_parts its = obs_parts its';
  ro_others : others names its = others names its'
}.
