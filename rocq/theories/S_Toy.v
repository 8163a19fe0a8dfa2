(** * A small concrete choice of the external functions, for examples *)
From Verif Require Import M_Base M_Text M_Line M_Codec M_Cal M_Time M_Span M_Dt M_Tree M_Comp.

(** Zone 0 is UTC; zone [n] has the TZID "Zn" and is found under it; all have offset 0;
    URLs are not taken apart. *)
Definition toy_id (z : tz) : list N := match z with TzObj n => 90%N :: dec n | _ => py "Z" end.
Definition toy_zone (id : list N) : tz := match id with _ :: s => TzObj (undec s) | [] => TzObj 0 end.
Definition toy_env : env :=
  mk_env (fun _ _ _ => 0%Z) (fun _ u => (u, false)) (fun _ _ => 0%Z) (fun _ => 0%Z) (fun _ _ => 0%Z) (fun u => (u, false)).
Definition toy_zdb : zone_db :=
  mk_zdb (fun z => match z with TzObj 0 => true | _ => false end) (fun z => Ok (Some (toy_id z, z)))
    (fun id => Ok (toy_zone id)) (fun _ => None) (TzObj 0).
Definition toy : ext :=
  mk_ext toy_env toy_zdb (TzObj 0) (fun s => Ok [s]) (fun u => concat u) (fun s => Ok (undec s)) dec
    (py "uid") (mk_dt (mk_wall 2020 1 1 0 0 0 0) false (Some (TzObj 0)))
    (fun its => match its with [ILine l] => Ok (cl_value l, toy_zone (cl_value l)) | _ => Err ValueError end)
    (fun z => Ok (ICont (py "VTIMEZONE") [ILine (mk_line (py "TZID") [] (toy_id z))])).
Definition line (name value : list N) : item := ILine (mk_line name [] value).
