(** * Model of recurrence rules

    src/ics/rrule.py:31-36, src/ics/converter/types/various.py:27-93 (RecurrenceConverter).
    Rules are dateutil's. A rule is its DTSTART and the text of its RRULE line, which is
    what ics writes of it (rrule.py:31-36). Dates are wall clock readings without zone, as
    in time zone definitions; dates with a zone are not modelled. *)
From Verif Require Import M_Base M_Line M_Codec M_Cal M_Time M_Span M_Dt.
Open Scope Z_scope.

Record rule := mk_rule { r_start : option Z; r_text : str }.
(** [dateutil.rrule.rruleset] *)
Record ruleset := mk_set { rs_rules : list rule; rs_exrules : list rule; rs_dates : list Z; rs_exdates : list Z }.

(** [list(unique_justseen(sorted(l)))] (various.py:27-28, 57-58) *)
Fixpoint insert_date (d : Z) (l : list Z) : list Z :=
  match l with [] => [d] | e :: l' => if d <=? e then d :: l else e :: insert_date d l' end.
Definition sorted (l : list Z) : list Z := fold_right insert_date [] l.
Fixpoint unique_justseen (l : list Z) : list Z :=
  match l with
  | [] => []
  | d :: l' => match unique_justseen l' with
               | e :: r => if d =? e then e :: r else d :: e :: r
               | [] => [d]
               end
  end.
Definition dates_of (l : list Z) : list Z := unique_justseen (sorted l).

(** The first loop of [serialize] (various.py:64-75): [start] is [context["DTSTART"]];
    a line is written when it is set. *)
Fixpoint write_start (l : list rule) (start : option Z) : res (list content_line) :=
  match l with
  | [] => Ok []
  | r :: l' =>
      match r_start r with
      | None => write_start l' start
      | Some d =>
          match start with
          | Some s => do _ <- guard (negb (s =? d)) ValueError; write_start l' start
          | None =>
              do ls <- write_start l' (Some d);
              Ok (mk_line (py "DTSTART") [] (fmt_datetime d) :: ls)
          end
      end
  end.
Definition rule_line (name : str) (r : rule) : content_line := mk_line name [] (r_text r).
Definition date_line (name : str) (d : Z) : content_line := mk_line name [] (fmt_datetime d).
(** [RecurrenceConverter.serialize] (various.py:60-88) *)
Definition write_rules (rs : ruleset) (start : option Z) : res (list content_line) :=
  do ls <- write_start (rs_rules rs ++ rs_exrules rs) start;
  Ok (ls ++ map (rule_line (py "RRULE")) (rs_rules rs) ++ map (rule_line (py "EXRULE")) (rs_exrules rs)
         ++ map (date_line (py "RDATE")) (dates_of (rs_dates rs))
         ++ map (date_line (py "EXDATE")) (dates_of (rs_exdates rs))).

(** [dateutil.rrule.rrulestr(text, compatible=True)], dateutil 2.8, on the text of lines.
    It is not part of the repository. Of the parameters dateutil takes VALUE=DATE-TIME
    (RDATE, EXDATE, DTSTART, in any case), VALUE=DATE (EXDATE, DTSTART) and TZID (EXDATE,
    DTSTART); TZID, which gives dates with a zone, is rejected here. dateutil first puts the
    text in upper case, trims the lines and splits them at every line separator of
    [str.splitlines]; values with such separators are not modelled, the rest belongs to
    [rule_parse] and [date_parse]. [compatible] makes DTSTART one of the dates. [rule_parse] reads the
    text of a rule with its DTSTART, [date_parse] is [dateutil.parser.parse]. *)
Section Read.
Variable rule_parse : option Z -> str -> res rule.
Variable date_parse : str -> res Z.
Record found := mk_found {
  fo_start : option Z; fo_rules : list str; fo_exrules : list str; fo_dates : list str; fo_exdates : list Z }.
Fixpoint parse_all {A B} (f : A -> res B) (l : list A) : res (list B) :=
  match l with [] => Ok [] | a :: l' => do b <- f a; do r <- parse_all f l'; Ok (b :: r) end.
Definition par_is (w : str) (p : str * list pval) : bool :=
  str_eqb (upper (fst p ++ [c_eq] ++ serialize_pvals (snd p))) w.
Definition takes (n : str) (ps : M_Line.params) : bool :=
  if str_eqb n (py "RRULE") || str_eqb n (py "EXRULE") then match ps with [] => true | _ => false end
  else if str_eqb n (py "RDATE") then forallb (par_is (py "VALUE=DATE-TIME")) ps
  else match ps with
       | [] => true
       | [p] => par_is (py "VALUE=DATE-TIME") p || par_is (py "VALUE=DATE") p
       | _ => false
       end.
Definition collect1 (cl : content_line) (f : found) : res found :=
  match takes (cl_name cl) (cl_params cl) with
  | false => Err ValueError
  | true =>
      let v := cl_value cl in
      if str_eqb (cl_name cl) (py "RRULE") then
        Ok (mk_found (fo_start f) (fo_rules f ++ [v]) (fo_exrules f) (fo_dates f) (fo_exdates f))
      else if str_eqb (cl_name cl) (py "EXRULE") then
        Ok (mk_found (fo_start f) (fo_rules f) (fo_exrules f ++ [v]) (fo_dates f) (fo_exdates f))
      else if str_eqb (cl_name cl) (py "RDATE") then
        Ok (mk_found (fo_start f) (fo_rules f) (fo_exrules f) (fo_dates f ++ split_on c_comma v) (fo_exdates f))
      else if str_eqb (cl_name cl) (py "EXDATE") then
        do ds <- parse_all date_parse (split_on c_comma v);
        Ok (mk_found (fo_start f) (fo_rules f) (fo_exrules f) (fo_dates f) (fo_exdates f ++ ds))
      else if str_eqb (cl_name cl) (py "DTSTART") then
        do ds <- parse_all date_parse (split_on c_comma v);
        match ds with
        | [d] => Ok (mk_found (Some d) (fo_rules f) (fo_exrules f) (fo_dates f) (fo_exdates f))
        | _ => Err ValueError
        end
      else Err ValueError
  end.
Fixpoint collect (ls : list content_line) (f : found) : res found :=
  match ls with [] => Ok f | cl :: ls' => do f' <- collect1 cl f; collect ls' f' end.
Definition rrulestr (ls : list content_line) : res ruleset :=
  match ls with
  | [] => Err ValueError                                   (* "empty string" *)
  | _ =>
      do f <- collect ls (mk_found None [] [] [] []);
      do rules <- parse_all (rule_parse (fo_start f)) (fo_rules f);
      do dates <- parse_all date_parse (fo_dates f);
      do exrules <- parse_all (rule_parse (fo_start f)) (fo_exrules f);
      Ok (mk_set rules exrules
            (dates ++ match fo_start f with Some d => [d] | None => [] end) (fo_exdates f))
  end.
(** [RecurrenceConverter.post_populate] (various.py:48-58): [pop] of lines that were
    never collected is a KeyError. *)
Definition read_rules (ls : option (list content_line)) : res ruleset :=
  match ls with
  | None => Err KeyError
  | Some ls =>
      do rs <- rrulestr ls;
      Ok (mk_set (rs_rules rs) (rs_exrules rs) (dates_of (rs_dates rs)) (dates_of (rs_exdates rs)))
  end.
End Read.
