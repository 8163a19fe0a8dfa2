(** * C32: multi-valued properties keep their values and line grouping *)
From Verif Require Import M_Base M_Text M_Line M_Tree M_Comp S_Text S_Multi S_Toy P_Cat P_Multi.

(** C32. A raw text denotes at most one list of values. *)
Theorem C32_values_unique : forall w vs1 vs2, ValueList w vs1 -> ValueList w vs2 -> vs1 = vs2.
Proof. exact value_list_det. Qed.
Print Assumptions C32_values_unique.

(** C32. The categories of an event that was read are the values of its CATEGORIES lines,
    in order. *)
Theorem C32_read : forall X n its zs x zs', load_entry X CEvent n its zs = Ok (x, zs') ->
  Forall plain_params (lines (py "CATEGORIES") its) ->
  exists vss, Forall2 (fun l vs => ValueList (cl_value l) vs) (lines (py "CATEGORIES") its) vss /\
    get_attr (py "categories") x = AMany (map VStr (concat vss)).
Proof. exact read_lemma. Qed.
Print Assumptions C32_read.

(** C32. Writing gives the same lines: the same values, on the same number of lines, each
    with the same parameters. *)
Theorem C32_written : forall X n its zs x zs' it z1 z2, load_entry X CEvent n its zs = Ok (x, zs') ->
  Forall plain_params (lines (py "CATEGORIES") its) -> dump_entry X x z1 = Ok (it, z2) ->
  exists out vss, it = ICont (py "VEVENT") out /\
    Forall2 (fun l vs => ValueList (cl_value l) vs) (lines (py "CATEGORIES") its) vss /\
    carry (lines (py "CATEGORIES") its) vss (lines (py "CATEGORIES") out).
Proof. exact kept_lines. Qed.
Print Assumptions C32_written.

(** C32. Other values are distributed over the lines like the old ones. *)
Theorem C32_modified : forall X n its zs x zs' vs it z1 z2, load_entry X CEvent n its zs = Ok (x, zs') ->
  Forall plain_params (lines (py "CATEGORIES") its) ->
  forall vss, Forall2 (fun l vs => ValueList (cl_value l) vs) (lines (py "CATEGORIES") its) vss -> length vs = length (concat vss) ->
  dump_entry X (set_cats vs x) z1 = Ok (it, z2) ->
  exists m out vss', it = ICont m out /\ concat vss' = vs /\ map (@length _) vss' = map (@length _) vss /\
    carry (lines (py "CATEGORIES") its) vss' (lines (py "CATEGORIES") out).
Proof. exact modified_lines. Qed.
Print Assumptions C32_modified.

(** C32. An event that can be written can be written with another list of categories
    exactly if that list has the same length (or there were no CATEGORIES lines); else
    writing is a ValueError. *)
Theorem C32_modified_writable : forall X n its zs x zs' z1 r vs, load_entry X CEvent n its zs = Ok (x, zs') ->
  Forall plain_params (lines (py "CATEGORIES") its) -> dump_entry X x z1 = Ok r ->
  forall vss, Forall2 (fun l vs => ValueList (cl_value l) vs) (lines (py "CATEGORIES") its) vss ->
  ((exists r', dump_entry X (set_cats vs x) z1 = Ok r') <-> lines (py "CATEGORIES") its = [] \/ length vs = length (concat vss)) /\
  (lines (py "CATEGORIES") its <> [] -> length vs <> length (concat vss) -> dump_entry X (set_cats vs x) z1 = Err ValueError).
Proof. exact writable_iff. Qed.
Print Assumptions C32_modified_writable.

(** C32. Without remembered parameters (a new event, or after [strip_extras]) every list
    can be written. *)
Theorem C32_fresh : forall X x vs0 vs z r, c_cls x = CEvent -> get_attr (py "categories") x = AMany (map VStr vs0) ->
  dict_get (py "CATEGORIES") (c_params x) = None -> dump_entry X x z = Ok r -> exists r', dump_entry X (set_cats vs x) z = Ok r'.
Proof. exact fresh_writable. Qed.
Print Assumptions C32_fresh.
Theorem C32_stripped : forall X p m x y vs0 vs z r, c_cls x = CEvent -> get_attr (py "categories") x = AMany (map VStr vs0) ->
  strip_extras p true m x = Ok y -> dump_entry X y z = Ok r -> exists r', dump_entry X (set_cats vs y) z = Ok r'.
Proof. exact stripped_writable. Qed.
Print Assumptions C32_stripped.

Definition C32_in : list item := [line (py "UID") (py "u");
  ILine (mk_line (py "CATEGORIES") [(py "LANGUAGE", [PRaw (py "de")])] (py "a\,b,,c"));
  line (py "X-A") (py "1"); line (py "CATEGORIES") (py "d\\")].
Definition C32_event : entry :=
  match event_from_container toy (py "VEVENT") C32_in with Ok x => x | Err _ => new_comp toy alarm CEvent end.
Definition C32_out (a b : list N) : item := ICont (py "VEVENT") [line (py "UID") (py "u"); line (py "DTSTAMP") (py "20200101T000000Z");
  ILine (mk_line (py "CATEGORIES") [(py "LANGUAGE", [PRaw (py "de")])] a); line (py "CATEGORIES") b; line (py "X-A") (py "1")].
Example C32_example : load_entry toy CEvent (py "VEVENT") C32_in [] = Ok (C32_event, []) /\
  Forall plain_params (lines (py "CATEGORIES") C32_in) /\
  get_attr (py "categories") C32_event = AMany (map VStr [py "a,b"; []; py "c"; py "d\"]) /\
  dump_entry toy C32_event [] = Ok (C32_out (py "a\,b,,c") (py "d\\"), []) /\
  dump_entry toy (set_cats [py "x"; py "y"; py "z"; py ","] C32_event) [] = Ok (C32_out (py "x,y,z") (py "\,"), []) /\
  dump_entry toy (set_cats [py "x"] C32_event) [] = Err ValueError.
Proof.
  split; [vm_compute; reflexivity|]. split.
  - change (lines (py "CATEGORIES") C32_in) with [mk_line (py "CATEGORIES") [(py "LANGUAGE", [PRaw (py "de")])] (py "a\,b,,c"); mk_line (py "CATEGORIES") [] (py "d\\")].
    repeat constructor; cbn; intuition discriminate.
  - split; [vm_compute; reflexivity|]. split; [vm_compute; reflexivity|]. split; vm_compute; reflexivity.
Qed.

(** A list whose length was changed after reading can not be written. *)
Theorem C32_length_refuted : exists X its x r vs, event_from_container X (py "VEVENT") its = Ok x /\ to_container X x = Ok r /\
  Forall plain_params (lines (py "CATEGORIES") its) /\ to_container X (set_cats vs x) = Err ValueError.
Proof. exact length_refuted. Qed.
Print Assumptions C32_length_refuted.
(** An explicit VALUE=TEXT parameter is not written again. *)
Theorem C32_value_refuted : exists X x out, event_from_container X (py "VEVENT")
    [ILine (mk_line (py "CATEGORIES") [(py "VALUE", [PRaw (py "TEXT")])] (py "a"))] = Ok x /\
  to_container X x = Ok (ICont (py "VEVENT") out) /\ lines (py "CATEGORIES") out = [mk_line (py "CATEGORIES") [] (py "a")].
Proof. exact value_refuted. Qed.
Print Assumptions C32_value_refuted.
