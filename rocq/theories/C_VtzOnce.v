(** * Property C50: no attribute of a time zone is given twice *)
From Verif Require Import M_Base M_Text M_Line M_Codec M_Cal M_Time M_Span M_Dt M_Tree M_Comp M_Rrule M_Zone M_Vtz S_Toy P_VtzEx P_VtzOnce.
Open Scope Z_scope.

(** C50. A zone with two lines of the same name is not read; if everything before the
    second is a zone, the error is a ValueError. *)
Theorem C50_zone_once : forall X rule_parse date_parse pre l l' c, In (ILine l) pre -> cl_name l' = cl_name l ->
  In (cl_name l) [py "TZID"; py "TZURL"; py "LAST-MODIFIED"] ->
  exists e, load_zone X rule_parse date_parse (py "VTIMEZONE") (pre ++ ILine l' :: c) = Err e /\
    ((exists z, load_zone X rule_parse date_parse (py "VTIMEZONE") pre = Ok z) -> e = ValueError).
Proof. exact zone_second. Qed.
Print Assumptions C50_zone_once.
(** C50. The same for the parts of a zone. *)
Theorem C50_part_once : forall X rule_parse date_parse n pre l l' c, In n [STANDARD; DAYLIGHT] -> In (ILine l) pre ->
  cl_name l' = cl_name l -> In (cl_name l) [py "TZOFFSETFROM"; py "TZOFFSETTO"; py "TZNAME"; py "COMMENT"] ->
  exists e, load_obs X rule_parse date_parse n (pre ++ ILine l' :: c) = Err e /\
    ((exists o, load_obs X rule_parse date_parse n pre = Ok o) -> e = ValueError).
Proof. exact obs_second. Qed.
Print Assumptions C50_part_once.
Example C50_once_example : let l := mk_line (py "TZID") [] (py "X") in
  (exists z, load_zone toy vx_rule vx_date (py "VTIMEZONE") [ILine l] = Ok z) /\
  load_zone toy vx_rule vx_date (py "VTIMEZONE") ([ILine l] ++ [ILine l]) = Err ValueError.
Proof. split; [eexists|]; vm_compute; reflexivity. Qed.
