(** * Removing extra content (C55) *)
From Verif Require Import M_Base M_Line M_Tree M_Comp M_Strip S_Strip S_Toy.
From Verif Require Import P_Strip P_StripOut P_StripEx.

(** [strip_extras] succeeds exactly if something is asked for, and removes exactly that. *)
Theorem C55_exact : forall M (x y : comp M) all p r m, dicts x ->
  strip_call all p r m x = Ok y <->
  (asked all p \/ asked all r \/ asked all m) /\ stripped (asked all p) (asked all r) (asked all m) x y.
Proof. exact (fun M x y all p r m => strip_iff x all p r m y). Qed.
Print Assumptions C55_exact.
Theorem C55_nothing : forall M (x : comp M) all p r m,
  (~ (asked all p \/ asked all r \/ asked all m) <-> strip_call all p r m x = Err ValueError) /\
  forall e, strip_call all p r m x = Err e -> e = ValueError.
Proof. exact (fun M x => strip_nothing x). Qed.
Print Assumptions C55_nothing.
(** Doing it again changes nothing. *)
Theorem C55_twice : forall M (x y : comp M) all p r m, dicts x -> strip_call all p r m x = Ok y -> strip_call all p r m y = Ok y.
Proof. exact (fun M x y all p r m => strip_twice x all p r m y). Qed.
Print Assumptions C55_twice.
Example C55_example : dicts ex_strip. Proof. exact ex_strip_dicts. Qed.

(** What could be written before can be written afterwards, with the same time zones; see
    [written_after] for the lines. *)
Theorem C55_alarm : forall X (x y : alarm) all p r m zs n its zs', dicts x -> strip_call all p r m x = Ok y ->
  dump_alarm X x zs = Ok (ICont n its, zs') ->
  exists its', dump_alarm X y zs = Ok (ICont n its', zs') /\ written_after (asked all p) (asked all r) (asked all m) x its its'.
Proof. exact alarm_after. Qed.
Print Assumptions C55_alarm.
Theorem C55_entry : forall X (x y : entry) all p r m zs n its zs', dicts x -> strip_call all p r m x = Ok y ->
  dump_entry X x zs = Ok (ICont n its, zs') ->
  exists its', dump_entry X y zs = Ok (ICont n its', zs') /\ written_after (asked all p) (asked all r) (asked all m) x its its'.
Proof. exact entry_after. Qed.
Print Assumptions C55_entry.
Theorem C55_calendar : forall X, (forall z it, x_tz_dump X z = Ok it -> exists n sub, it = ICont n sub) ->
  forall (x y : calendar) all p r m n its, c_cls x = CCalendar -> dicts x -> strip_call all p r m x = Ok y ->
  dump_calendar X x = Ok (ICont n its) ->
  exists its', dump_calendar X y = Ok (ICont n its') /\ written_after (asked all p) (asked all r) (asked all m) x its its'.
Proof. exact calendar_after. Qed.
Print Assumptions C55_calendar.
Example C55_example_lines :
  map (fun it => match it with ILine l => (cl_name l, cl_value l) | _ => ([], []) end) (ex_written (Ok ex_strip)) =
    [(py "UID", py "u"); (py "CREATED", py "20200101T000000Z"); (py "DTSTAMP", py "20200101T000000Z"); (py "CATEGORIES", py "a,b"); (py "X-A", py "1")] /\
  map (fun it => match it with ILine l => (cl_name l, cl_value l) | _ => ([], []) end) (ex_written (strip_call false None None (Some true) ex_strip)) =
    [(py "UID", py "u"); (py "CREATED", py "20200101T000000Z"); (py "DTSTAMP", py "20200101T000000Z"); (py "CATEGORIES", py "a"); (py "CATEGORIES", py "b"); (py "X-A", py "1")] /\
  ex_written (strip_call true None None None ex_strip) =
    [line (py "UID") (py "u"); line (py "CREATED") (py "20200101T000000Z"); line (py "DTSTAMP") (py "20200101T000000Z"); line (py "CATEGORIES") (py "a"); line (py "CATEGORIES") (py "b")].
Proof. exact ex_strip_lines. Qed.
