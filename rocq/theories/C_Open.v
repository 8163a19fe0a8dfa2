(** * C34: opening one calendar is strict about there being one *)
From Verif Require Import M_Base M_Line S_Line M_Fold S_Fold M_Tree S_Tree P_Tree C_Tree M_Open S_Open P_Open.

(** [Calendar(text)] succeeds with [c] iff the text holds exactly one container and
    nothing else, and [c] is what is read from that container. *)
Theorem C34_open_ok : forall C (populate : str -> list item -> res C) fresh txt c,
  Calendar populate fresh (FromStr txt) = Ok c <->
  exists n its, holds txt [(n, its)] /\ populate n its = Ok c.
Proof. exact open_ok. Qed.
Print Assumptions C34_open_ok.

(** A text without content is a ValueError. *)
Theorem C34_zero : forall C (populate : str -> list item -> res C) fresh txt,
  holds txt [] -> Calendar populate fresh (FromStr txt) = Err ValueError.
Proof. exact open_zero. Qed.
Print Assumptions C34_zero.

(** Two or more calendars are a ValueError, if the first one can be read. What follows
    the second one is not looked at. *)
Theorem C34_several : forall C (populate : str -> list item -> res C) fresh txt n its c it rest e,
  string_to_containers txt = (ICont n its :: it :: rest, e) -> populate n its = Ok c ->
  Calendar populate fresh (FromStr txt) = Err ValueError.
Proof. exact open_several_lazy. Qed.
Print Assumptions C34_several.

(** A text starting with a line outside any container is a ValueError. *)
Theorem C34_stray : forall C (populate : str -> list item -> res C) fresh txt l rest e,
  string_to_containers txt = (ILine l :: rest, e) ->
  Calendar populate fresh (FromStr txt) = Err ValueError.
Proof. exact open_stray. Qed.
Print Assumptions C34_stray.

(** Other exceptions: reading the first calendar raises whatever [populate] raises, even
    if there are more; a syntax error after at most one readable calendar surfaces. *)
Theorem C34_bad_first_refuted : forall C (populate : str -> list item -> res C) fresh txt n its rest e x,
  string_to_containers txt = (ICont n its :: rest, e) ->
  populate n its = Err x -> Calendar populate fresh (FromStr txt) = Err x.
Proof. exact open_bad_first. Qed.
Print Assumptions C34_bad_first_refuted.
Theorem C34_bad_text_refuted : forall C (populate : str -> list item -> res C) fresh txt its x,
  string_to_containers txt = (its, Some x) ->
  its = [] \/ (exists n i c, its = [ICont n i] /\ populate n i = Ok c) ->
  Calendar populate fresh (FromStr txt) = Err x.
Proof. exact open_bad_text. Qed.
Print Assumptions C34_bad_text_refuted.

(** [parse_multiple] returns one calendar per container of the text, in order; it
    succeeds iff the text holds nothing but containers and each one can be read. *)
Theorem C34_multiple : forall C (populate : str -> list item -> res C) fresh txt cs,
  parse_multiple populate fresh txt = Ok cs <->
  exists conts, holds txt conts /\ Forall2 (fun k c => populate (fst k) (snd k) = Ok c) conts cs.
Proof. exact parse_multiple_ok. Qed.
Print Assumptions C34_multiple.

(** [string_to_container], [lines_to_container]. *)
Theorem C34_string_to_container : forall txt it,
  string_to_container txt = Ok it <-> exists ls, text_lines txt ls /\ Forest ls [it].
Proof. exact (fun txt it => iff_trans (one_ok (string_to_containers txt) it) (string_exact txt [it])). Qed.
Print Assumptions C34_string_to_container.
Theorem C34_one : forall A (g : gen A) x,
  one g = Err x <->
  (exists l, fst g = l /\ (2 <= length l)%nat /\ x = ValueError) \/
  (fst g = [] /\ snd g = None /\ x = ValueError) \/
  ((length (fst g) <= 1)%nat /\ snd g = Some x).
Proof. exact @one_err. Qed.
Print Assumptions C34_one.

(** Examples; a calendar is represented by its number of items. *)
Definition nl : str := [c_cr; c_lf].
Definition one_cal : str := py "BEGIN:VCALENDAR" ++ nl ++ py "VERSION:2.0" ++ nl ++ py "END:VCALENDAR" ++ nl.
Definition size (n : str) (its : list item) : res nat :=
  if str_eqb n (py "VCALENDAR") then Ok (length its) else Err KeyError.
Example C34_open_ok_ex : Calendar size 0%nat (FromStr one_cal) = Ok 1%nat.
Proof. vm_compute. reflexivity. Qed.
Example C34_zero_ex : holds [] [].
Proof. exists []. split; [reflexivity|constructor]. Qed.
Example C34_several_ex :
  exists n its it, string_to_containers (one_cal ++ one_cal) = ([ICont n its; it], None) /\ size n its = Ok 1%nat.
Proof. do 3 eexists. split; vm_compute; reflexivity. Qed.
Example C34_stray_ex : exists l r, string_to_containers (py "VERSION:2.0" ++ nl ++ one_cal) = (ILine l :: r, None).
Proof. do 2 eexists. vm_compute. reflexivity. Qed.
Example C34_bad_first_refuted_ex :
  Calendar size 0%nat (FromStr (py "BEGIN:A" ++ nl ++ py "END:A" ++ nl ++ one_cal)) = Err KeyError.
Proof. vm_compute. reflexivity. Qed.
Example C34_bad_text_refuted_ex :
  Calendar size 0%nat (FromStr (one_cal ++ py "BEGIN:VCALENDAR" ++ nl)) = Err ParseError /\
  Calendar size 0%nat (FromStr (py "BEGIN:VCALENDAR" ++ nl)) = Err ParseError.
Proof. split; vm_compute; reflexivity. Qed.
Example C34_multiple_ex :
  parse_multiple size 0%nat (one_cal ++ one_cal ++ one_cal) = Ok [1; 1; 1]%nat /\
  parse_multiple size 0%nat (one_cal ++ py "X:1" ++ nl) = Err KeyError /\
  parse_multiple size 0%nat [] = Ok [].
Proof. repeat split; vm_compute; reflexivity. Qed.
