(** * Examples for C62 *)
From Verif Require Import M_Base M_Text M_Line M_Codec M_Cal M_Time M_Span M_Dt M_Fold M_Tree M_Comp M_Open M_Serial M_Rrule M_Vtz.
From Verif Require Import S_Text S_Codec S_Dt S_Line S_Fold S_Tree S_Comp S_Store S_Ref S_Wire S_Toy S_Vtz S_Again S_ZoneAgain.
From Verif Require Import P_Base P_VtzEx P_AgainEx.
Open Scope N_scope.

Lemma vx_rules_env : rules_env vx_rule.
Proof. constructor; unfold vx_rule; [now intros d t r [= <-]|now intros s t r [= <-]|now intros s t r [= <-]]. Qed.
Definition za_lines (summer to : list (list N)) : list N := flat_map nl ([
  py "BEGIN:VTIMEZONE"; py "TZID:Europe/Berlin"; py "BEGIN:DAYLIGHT"] ++ summer ++ [py "RRULE:FREQ=YEARLY;BYMONTH=3;BYDAY=-1SU"; py "RDATE:19800406T020000,19960331T020000";
  py "EXDATE:19800406T020000"; py "TZOFFSETFROM:+0100"] ++ to ++ [py "TZNAME;LANGUAGE=en:CE\,ST"; py "END:DAYLIGHT"; py "X-A:b"; py "TZURL:http://x.org/"; py "LAST-MODIFIED:20200101T000000Z"; py "END:VTIMEZONE"]).
Definition za_text : list N := za_lines [py "DTSTART:19960331T020000"] [py "TZOFFSETTO:+0200"].
Definition za_items : list item := Eval vm_compute in match fst (string_to_containers za_text) with [ICont _ its] => its | _ => [] end.
Definition za_zone : timezone := Eval vm_compute in match load_zone toy vx_rule vx_date (py "VTIMEZONE") za_items with Ok z => z | Err _ => vx_zone end.
Lemma za_read : string_to_containers za_text = ([ICont (py "VTIMEZONE") za_items], None) /\ load_zone toy vx_rule vx_date (py "VTIMEZONE") za_items = Ok za_zone.
Proof. split; vm_compute; reflexivity. Qed.
Lemma za_keep : keepable_zone toy za_zone.
Proof.
  constructor.
  - constructor; [|constructor]. constructor; [vm_compute; reflexivity|vm_compute; reflexivity| | | |].
    + repeat (apply Forall_cons; [vm_compute; intuition discriminate|]); apply Forall_nil.
    + repeat (apply Forall_cons; [vm_compute; intuition discriminate|]); apply Forall_nil.
    + intros r r' [<-|[]] [<-|[]]. reflexivity.
    + intros r d [<-|[]] [= <-]. vm_compute. intuition discriminate.
  - intros u [= <-]. vm_compute. reflexivity.
  - intros d [= <-]. split; [reflexivity|]. split; [vm_compute; discriminate|]. left. reflexivity.
Qed.
Lemma za_started : started za_items.
Proof.
  intros n sub l I _ _ _. cbn [za_items In] in I. repeat destruct I as [I|I]; try discriminate I; try contradiction. injection I as <- <-. eexists. split; [now left|]. reflexivity.
Qed.

(** An offset of more than 100 hours, which has two digits for the hours. *)
Definition za_far : list N := za_lines [py "DTSTART:19960331T020000"] [py "TZOFFSETTO:+9999"].
Definition far_items : list item := Eval vm_compute in match fst (string_to_containers za_far) with [ICont _ its] => its | _ => [] end.
Definition far_zone : timezone := Eval vm_compute in match load_zone toy vx_rule vx_date (py "VTIMEZONE") far_items with Ok z => z | Err _ => vx_zone end.
Definition far_out : item := Eval vm_compute in match dump_zone toy far_zone with Ok it => it | Err _ => ICont [] [] end.
Definition far_txt : list N := Eval vm_compute in match item_serialize true (fun t => [t]) (Some 75%nat) far_out true with Ok t => t | Err _ => [] end.
Definition far_sub : list item := Eval vm_compute in match fst (string_to_containers far_txt) with [ICont _ its] => its | _ => [] end.
Lemma far_lost : exists its z it txt sub, string_to_containers za_far = ([ICont (py "VTIMEZONE") its], None) /\ load_zone toy vx_rule vx_date (py "VTIMEZONE") its = Ok z /\ started its /\
  dump_zone toy z = Ok it /\ item_serialize true (fun t => [t]) (Some 75%nat) it true = Ok txt /\ string_to_containers txt = ([ICont (py "VTIMEZONE") sub], None) /\
  load_zone toy vx_rule vx_date (py "VTIMEZONE") sub = Err ValueError.
Proof.
  exists far_items, far_zone, far_out, far_txt, far_sub. split; [vm_compute; reflexivity|]. split; [vm_compute; reflexivity|]. split.
  { intros n sub l I _ _ _. cbn [far_items In] in I. repeat destruct I as [I|I]; try discriminate I; try contradiction. injection I as <- <-. eexists. split; [now left|]. reflexivity. }
  split; [vm_compute; reflexivity|]. split; [vm_compute; reflexivity|]. split; vm_compute; reflexivity.
Qed.
(** A rule without DTSTART starts when it is read, as dateutil has it. *)
Definition now_rule (s : option Z) (t : list N) : res rule := Ok (mk_rule (Some (match s with Some d => d | None => vx_winter end)) t).
Lemma now_rules_env : rules_env now_rule.
Proof. constructor; unfold now_rule; [now intros d t r [= <-]|now intros s t r [= <-]|now intros s t r [= <-]]. Qed.
Definition za_bare : list N := za_lines [] [py "TZOFFSETTO:+0200"].
Definition bare_items : list item := Eval vm_compute in match fst (string_to_containers za_bare) with [ICont _ its] => its | _ => [] end.
Definition bare_zone : timezone := Eval vm_compute in match load_zone toy now_rule vx_date (py "VTIMEZONE") bare_items with Ok z => z | Err _ => vx_zone end.
Definition bare_out : item := Eval vm_compute in match dump_zone toy bare_zone with Ok it => it | Err _ => ICont [] [] end.
Definition bare_txt : list N := Eval vm_compute in match item_serialize true (fun t => [t]) (Some 75%nat) bare_out true with Ok t => t | Err _ => [] end.
Definition bare_sub : list item := Eval vm_compute in match fst (string_to_containers bare_txt) with [ICont _ its] => its | _ => [] end.
Definition bare_zone2 : timezone := Eval vm_compute in match load_zone toy now_rule vx_date (py "VTIMEZONE") bare_sub with Ok z => z | Err _ => vx_zone end.
Lemma bare_changed : exists its z it txt sub z', string_to_containers za_bare = ([ICont (py "VTIMEZONE") its], None) /\ load_zone toy now_rule vx_date (py "VTIMEZONE") its = Ok z /\ keepable_zone toy z /\
  dump_zone toy z = Ok it /\ item_serialize true (fun t => [t]) (Some 75%nat) it true = Ok txt /\ string_to_containers txt = ([ICont (py "VTIMEZONE") sub], None) /\
  load_zone toy now_rule vx_date (py "VTIMEZONE") sub = Ok z' /\ map (fun o => rs_dates (o_rules o)) (t_obs z) = [[vx_extra; vx_summer]] /\ map (fun o => rs_dates (o_rules o)) (t_obs z') = [[vx_extra; vx_summer; vx_winter]].
Proof.
  exists bare_items, bare_zone, bare_out, bare_txt, bare_sub, bare_zone2. split; [vm_compute; reflexivity|]. split; [vm_compute; reflexivity|]. split.
  { constructor.
    - constructor; [|constructor]. constructor; [vm_compute; reflexivity|vm_compute; reflexivity| | | |].
      + repeat (apply Forall_cons; [vm_compute; intuition discriminate|]); apply Forall_nil.
      + repeat (apply Forall_cons; [vm_compute; intuition discriminate|]); apply Forall_nil.
      + intros r r' [<-|[]] [<-|[]]. reflexivity.
      + intros r d [<-|[]] [= <-]. vm_compute. intuition discriminate.
    - intros u [= <-]. vm_compute. reflexivity.
    - intros d [= <-]. split; [reflexivity|]. split; [vm_compute; discriminate|]. left. reflexivity. }
  split; [vm_compute; reflexivity|]. split; [vm_compute; reflexivity|]. split; [vm_compute; reflexivity|]. split; [vm_compute; reflexivity|]. split; vm_compute; reflexivity.
Qed.
