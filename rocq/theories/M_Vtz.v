(** * Model of VTIMEZONE components

    src/ics/timezone/__init__.py:98-160 (the attributes), src/ics/converter/component.py:187-266
    (ImmutableComponentMeta), src/ics/converter/types/timezone.py and the attribute
    converters of src/ics/converter/value.py for attributes with one value of one type.

    Simplifications. The name of [extra] is that of the class. [extra_params] has one
    dictionary per attribute (none of the attributes that can have parameters is a list). A
    component is made in one go by its constructor from what was collected
    (component.py:194-209), so nothing is visible before. Two attributes never answer to
    one name, so at most one converter is asked per line. *)
From Verif Require Import M_Base M_Text M_Line M_Codec M_Cal M_Time M_Span M_Dt M_Tree M_Comp M_Rrule M_Zone.

(** TimezoneStandardObservance and TimezoneDaylightObservance (timezone/__init__.py:101-127) *)
Record observance := mk_observance {
  o_dst : bool; o_from : Z; o_to : Z; o_rules : ruleset;
  o_name : option str; o_comment : option str;
  o_extra : list item; o_params : dict xp }.
(** Timezone (timezone/__init__.py:130-140) *)
Record timezone := mk_timezone {
  t_id : str; t_obs : list observance; t_url : option url; t_modified : option datetime;
  t_extra : list item; t_params : dict xp }.

Definition STANDARD : str := py "STANDARD".
Definition DAYLIGHT : str := py "DAYLIGHT".
Definition obs_name (dst : bool) : str := if dst then DAYLIGHT else STANDARD.

(** ** Converters *)
Inductive zval := ZOffset (us : Z) | ZText (s : str) | ZUrl (u : url) | ZDt (d : datetime).
Inductive zconv := ZCOffset | ZCText | ZCUri | ZCDatetime.
Definition ztype (c : zconv) : str :=
  match c with ZCOffset => py "UTC-OFFSET" | ZCText => py "TEXT" | ZCUri => py "URI" | ZCDatetime => py "DATE-TIME" end.
(** AttributeValueConverter; name of the attribute, of the property, type, [is_required]
    (base.py:131-139: no default value). *)
Record zfield := mk_zfield { zf_attr : str; zf_ics : str; zf_conv : zconv; zf_required : bool }.
Inductive zitem := ZField (f : zfield) | ZRules | ZMembers.
Definition ff (attr ics : str) (c : zconv) (required : bool) : zitem := ZField (mk_zfield attr ics c required).
Definition obs_fields : list zitem := [
  ff (py "tzoffsetfrom") (py "TZOFFSETFROM") ZCOffset true;
  ff (py "tzoffsetto") (py "TZOFFSETTO") ZCOffset true;
  ZRules;
  ff (py "tzname") (py "TZNAME") ZCText false;
  ff (py "comment") (py "COMMENT") ZCText false ].
Definition zone_fields : list zitem := [
  ff (py "tzid") (py "TZID") ZCText true;
  ZMembers;
  ff (py "tzurl") (py "TZURL") ZCUri false;
  ff (py "last_modified") (py "LAST-MODIFIED") ZCDatetime false ].
(** [filter_ics_names] (value.py:45-47, various.py:32-34, timezone.py:44-46) *)
Definition znames (i : zitem) : list str :=
  match i with
  | ZField f => [zf_ics f]
  | ZRules => [py "RRULE"; py "RDATE"; py "EXRULE"; py "EXDATE"; py "DTSTART"]
  | ZMembers => [STANDARD; DAYLIGHT]
  end.
Definition zlookup (l : list zitem) (n : str) : option zitem :=
  find (fun i => existsb (str_eqb n) (znames i)) l.

Section Vtz.
Variable X : ext.
Variable rule_parse : option Z -> str -> res rule.
Variable date_parse : str -> res Z.

Definition zparse (c : zconv) (s : str) (ps : xp) (zs : zones) : res (zval * xp * zones) :=
  match c with
  | ZCOffset => do x <- utcoffset_parse s; Ok (ZOffset x, ps, zs)
  | ZCText => do t <- text_parse s; Ok (ZText t, ps, zs)
  | ZCUri => do u <- x_urlparse X s; Ok (ZUrl u, ps, zs)
  | ZCDatetime => do (d, ps', zs') <- dt_parse X FDatetime s ps zs; Ok (ZDt d, ps', zs')
  end.
(** A value of another type is a ValueError (value.py:173-182). *)
Definition zserialize (c : zconv) (v : zval) (ps : xp) (zs : zones) : res (str * xp * zones) :=
  match c, v with
  | ZCOffset, ZOffset x => Ok (utcoffset_serialize x, ps, zs)
  | ZCText, ZText s => Ok (text_serialize s, ps, zs)
  | ZCUri, ZUrl u => Ok (x_geturl X u, ps, zs)
  | ZCDatetime, ZDt d => dt_serialize X d ps zs
  | _, _ => Err ValueError
  end.
(** [__prepare_params] (value.py:95-109) with a single type *)
Definition zprepare (c : zconv) (ps : xp) : res xp :=
  match dict_get VALUE ps with
  | Some (_ :: _ :: _) => Err ValueError
  | Some [t] => if str_eqb (ztype c) (pval_str t) then Ok (dict_del VALUE ps) else Err ValueError
  | Some [] | None => Ok (dict_del VALUE ps)
  end.

(** ** Reading *)
(** What was collected: MutablePseudoComponent and the context. *)
Record zst (O : Type) := mk_zst {
  z_vals : dict zval; z_lines : option (list content_line); z_rules : option ruleset; z_mem : list O;
  z_extra : list item; z_pars : dict xp; z_zones : zones }.
Arguments mk_zst {O}. Arguments z_vals {O}. Arguments z_lines {O}. Arguments z_rules {O}. Arguments z_mem {O}.
Arguments z_extra {O}. Arguments z_pars {O}. Arguments z_zones {O}.
Definition z0 {O} : zst O := mk_zst [] None None [] [] [] [].

Section Load.
Variable O : Type.
Variable load_o : str -> list item -> res O.
(** AttributeValueConverter.populate (value.py:49-90); the count is that of the values. *)
Definition zpopulate_field (f : zfield) (cl : content_line) (st : zst O) : res (zst O) :=
  match dict_get (zf_attr f) (z_vals st) with
  | Some _ => Err ValueError
  | None =>
      do ps <- zprepare (zf_conv f) (cl_params cl);
      do (v, ps', zs) <- zparse (zf_conv f) (cl_value cl) ps (z_zones st);
      Ok (mk_zst (dict_set (zf_attr f) v (z_vals st)) (z_lines st) (z_rules st) (z_mem st) (z_extra st)
            (match ps' with [] => z_pars st | _ => dict_set (upper (zf_attr f)) ps' (z_pars st) end) zs)
  end.
(** One line or component (component.py:151-157; various.py:36-46; timezone.py:48-66) *)
Definition zpopulate (fields : list zitem) (it : item) (st : zst O) : res (zst O) :=
  match zlookup fields (item_name it), it with
  | None, _ => Ok (mk_zst (z_vals st) (z_lines st) (z_rules st) (z_mem st) (z_extra st ++ [it]) (z_pars st) (z_zones st))
  | Some (ZField f), ILine cl => zpopulate_field f cl st
  | Some ZRules, ILine cl =>
      let ls := match z_lines st with Some ls => ls | None => [] end in
      Ok (mk_zst (z_vals st) (Some (ls ++ [cl])) (z_rules st) (z_mem st) (z_extra st) (z_pars st) (z_zones st))
  | Some ZMembers, ICont n its =>
      do o <- load_o n its;
      Ok (mk_zst (z_vals st) (z_lines st) (z_rules st) (z_mem st ++ [o]) (z_extra st) (z_pars st) (z_zones st))
  | Some _, _ => Err AssertionError
  end.
Fixpoint zpopulate_all (fields : list zitem) (its : list item) (st : zst O) : res (zst O) :=
  match its with [] => Ok st | it :: its' => do st' <- zpopulate fields it st; zpopulate_all fields its' st' end.
(** [post_populate] (value.py:111-115, various.py:48-58) *)
Definition zpost (i : zitem) (st : zst O) : res (zst O) :=
  match i with
  | ZField f =>
      if zf_required f && negb (dict_mem (zf_attr f) (z_vals st)) then Err ValueError else Ok st
  | ZRules =>
      do rs <- read_rules rule_parse date_parse (z_lines st);
      Ok (mk_zst (z_vals st) None (Some rs) (z_mem st) (z_extra st) (z_pars st) (z_zones st))
  | ZMembers => Ok st
  end.
Fixpoint zposts (l : list zitem) (st : zst O) : res (zst O) :=
  match l with [] => Ok st | i :: l' => do st' <- zpost i st; zposts l' st' end.
Definition zload (fields : list zitem) (its : list item) : res (zst O) :=
  do st <- zpopulate_all fields its z0; zposts fields st.
End Load.

(** [ImmutableComponentMeta.load_instance] (component.py:194-209) of an observance; a
    missing argument of the constructor is a TypeError, which does not occur. *)
Definition no_obs (n : str) (its : list item) : res Empty_set := Err AssertionError.
Definition load_obs (n : str) (its : list item) : res observance :=
  if str_eqb n STANDARD || str_eqb n DAYLIGHT then
    do st <- zload Empty_set no_obs obs_fields its;
    match dict_get (py "tzoffsetfrom") (z_vals st), dict_get (py "tzoffsetto") (z_vals st), z_rules st with
    | Some (ZOffset x), Some (ZOffset y), Some rs =>
        Ok (mk_observance (str_eqb n DAYLIGHT) x y rs
              (match dict_get (py "tzname") (z_vals st) with Some (ZText s) => Some s | _ => None end)
              (match dict_get (py "comment") (z_vals st) with Some (ZText s) => Some s | _ => None end)
              (z_extra st) (z_pars st))
    | _, _, _ => Err TypeError
    end
  else Err ValueError.
(** ... and of a zone; [converter=ensure_utc] is run by the constructor. *)
Definition load_zone (n : str) (its : list item) : res timezone :=
  if str_eqb n (py "VTIMEZONE") then
    do st <- zload observance load_obs zone_fields its;
    do m <- match dict_get (py "last_modified") (z_vals st) with
            | Some (ZDt d) => rmap Some (dt_astimezone (x_env X) d (Some (x_utc X)))
            | _ => Ok None
            end;
    match dict_get (py "tzid") (z_vals st) with
    | Some (ZText id) =>
        Ok (mk_timezone id (z_mem st)
              (match dict_get (py "tzurl") (z_vals st) with Some (ZUrl u) => Some u | _ => None end)
              m (z_extra st) (z_pars st))
    | _ => Err TypeError
    end
  else Err ValueError.

(** ** Writing *)
(** AttributeValueConverter.serialize (value.py:117-131) *)
Definition zdump_field (attr ics : str) (c : zconv) (v : option zval) (pars : dict xp) (zs : zones)
  : res (list item * zones) :=
  match v with
  | None => Ok ([], zs)
  | Some v =>
      let ps := match dict_get (upper attr) pars with Some p => p | None => [] end in
      do (s, ps', zs') <- zserialize c v ps zs;
      Ok ([ILine (ContentLine ics ps' s)], zs')
  end.
Definition dump_obs (o : observance) : res item :=
  do (a, _) <- zdump_field (py "tzoffsetfrom") (py "TZOFFSETFROM") ZCOffset (Some (ZOffset (o_from o))) (o_params o) [];
  do (b, _) <- zdump_field (py "tzoffsetto") (py "TZOFFSETTO") ZCOffset (Some (ZOffset (o_to o))) (o_params o) [];
  do r <- write_rules (o_rules o) None;
  do (n, _) <- zdump_field (py "tzname") (py "TZNAME") ZCText (option_map ZText (o_name o)) (o_params o) [];
  do (c, _) <- zdump_field (py "comment") (py "COMMENT") ZCText (option_map ZText (o_comment o)) (o_params o) [];
  Container (obs_name (o_dst o)) (a ++ b ++ map ILine r ++ n ++ c ++ o_extra o).
Fixpoint dump_all (l : list observance) : res (list item) :=
  match l with [] => Ok [] | o :: l' => do it <- dump_obs o; do r <- dump_all l'; Ok (it :: r) end.
Definition dump_zone (z : timezone) : res item :=
  do (a, zs1) <- zdump_field (py "tzid") (py "TZID") ZCText (Some (ZText (t_id z))) (t_params z) [];
  do obs <- dump_all (t_obs z);
  do (u, zs2) <- zdump_field (py "tzurl") (py "TZURL") ZCUri (option_map ZUrl (t_url z)) (t_params z) zs1;
  do (m, _) <- zdump_field (py "last_modified") (py "LAST-MODIFIED") ZCDatetime (option_map ZDt (t_modified z)) (t_params z) zs2;
  Container (py "VTIMEZONE") (a ++ obs ++ u ++ m ++ t_extra z).
End Vtz.

(** The observance as [_find_observance] (M_Zone) sees it; [before] is
    [rruleset.before(dt, inc=True)]. *)
Definition as_obs (before : ruleset -> Z -> option Z) (o : observance) : obs :=
  mk_obs (o_from o) (o_to o) (o_dst o) (o_name o) (before (o_rules o)).
Arguments mk_zst {O}. Arguments z_vals {O}. Arguments z_lines {O}. Arguments z_rules {O}. Arguments z_mem {O}.
Arguments z_extra {O}. Arguments z_pars {O}. Arguments z_zones {O}.
