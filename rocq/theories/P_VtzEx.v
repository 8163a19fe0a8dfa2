(** * Example time zones: proofs that they meet the conditions of C49-C51 *)
From Verif Require Import M_Base M_Text M_Line M_Codec M_Cal M_Time M_Span M_Dt M_Tree M_Comp M_Rrule M_Zone M_Vtz.
From Verif Require Import S_Text S_Codec S_Line S_Fold S_Dt S_Tree S_Comp S_Store S_Ref S_Wire S_Vtz S_Toy.
From Verif Require Import P_Base P_Codec P_Dt P_Wire P_Rrule.
From Coq Require Import Lia ZifyBool ZifyNat ZifyN.
Open Scope Z_scope.

(** A reader of rules that keeps their text, and one of dates. *)
Definition vx_rule (s : option Z) (t : list N) : res rule := Ok (mk_rule s t).
Definition vx_date (t : list N) : res Z := strptime FDatetime t.
Lemma vx_reads : reads_dates vx_date.
Proof. intros d (H & Hs & Hy). unfold vx_date. rewrite <- fmt_stamp by easy. now apply fmt_datetime_strptime. Qed.

Definition vx_hour : Z := 3600 * US_SEC.
Definition vx_summer : Z := mk_wall 1996 3 31 2 0 0 0.
Definition vx_winter : Z := mk_wall 1996 10 27 3 0 0 0.
Definition vx_extra : Z := mk_wall 1980 4 6 2 0 0 0.
Definition vx_rule_s : rule := mk_rule (Some vx_summer) (py "FREQ=YEARLY;BYMONTH=3;BYDAY=-1SU").
Definition vx_rule_w : rule := mk_rule (Some vx_winter) (py "FREQ=YEARLY;BYMONTH=10;BYDAY=-1SU").
Definition vx_set_s : ruleset := mk_set [vx_rule_s] [] [vx_summer; vx_extra; vx_summer] [].
Definition vx_zone : timezone := mk_timezone (py "Europe/Berlin")
  [ mk_observance true vx_hour (2 * vx_hour) vx_set_s (Some (py "CEST")) None [] [];
    mk_observance false (2 * vx_hour) vx_hour (mk_set [vx_rule_w] [] [] []) (Some (py "CET")) (Some (py "winter"))
      [line (py "X-NOTE") (py "a")] [(py "TZNAME", [(py "LANGUAGE", [PRaw (py "en")])])] ]
  (Some [py "http://x.org/"]) (Some (mk_dt (mk_wall 2020 1 1 0 0 0 0) false (Some (TzObj 0)))) [] [].
Lemma vx_set_s_ok : storable_rules vx_rule vx_set_s.
Proof.
  constructor.
  - exists (Some vx_summer). split; [intros d [= <-]; vm_compute; intuition discriminate|]. intros r [<-|[]]. now split.
  - repeat constructor; vm_compute; intuition discriminate.
  - constructor.
  - discriminate.
Qed.
Lemma vx_set_w_ok : storable_rules vx_rule (mk_set [vx_rule_w] [] [] []).
Proof.
  constructor.
  - exists (Some vx_winter). split; [intros d [= <-]; vm_compute; intuition discriminate|]. intros r [<-|[]]. now split.
  - constructor.
  - constructor.
  - discriminate.
Qed.
Lemma vx_zone_ok : storable_zone toy vx_rule vx_zone.
Proof.
  constructor.
  - constructor; [|constructor; [|constructor]].
    + constructor; [vm_compute; intuition discriminate|vm_compute; intuition discriminate|exact vx_set_s_ok|intros k p H; discriminate H|constructor].
    + constructor; [vm_compute; intuition discriminate|vm_compute; intuition discriminate|exact vx_set_w_ok| |].
      * intros k p H. cbn [o_params dict_get] in H. destruct (str_eqb k (py "TZNAME")) eqn:E; [|easy]. apply str_eqb_eq in E. subst k. injection H as <-.
        split; [easy|]. exists []. split; [cbn; auto|]. intros n [<-|[]]. vm_compute. intuition discriminate.
      * constructor; [|constructor]. vm_compute. intuition discriminate.
  - intros u [= <-]. vm_compute. reflexivity.
  - intros d [= <-]. split; [vm_compute; intuition discriminate|]. eexists. reflexivity.
  - intros k p H. discriminate H.
  - constructor.
Qed.
Lemma vx_nb s : forallb (fun c => negb (N.eqb c 13) && negb (N.eqb c 10)) s = true -> no_break s.
Proof.
  intros H c Hc I. rewrite forallb_forall in H. apply H in I. cbn in Hc. destruct Hc as [<-|[<-|[]]]; discriminate I.
Qed.
Lemma vx_line_ok : wf_item ok_line (line (py "X-NOTE") (py "a")).
Proof.
  cbn [line wf_item]. apply name_line; [reflexivity|split; [constructor|easy]|apply vx_nb; reflexivity].
Qed.
Lemma vx_zone_wire : wire_zone toy vx_zone.
Proof.
  constructor.
  - constructor; [|constructor; [|constructor]].
    + constructor; [intros r [<-|[]]; apply vx_nb; reflexivity|intros k p H; discriminate H|constructor].
    + constructor; [intros r [<-|[]]; apply vx_nb; reflexivity| |constructor; [exact vx_line_ok|constructor]].
      intros k p H. cbn [o_params dict_get] in H. destruct (str_eqb k (py "TZNAME")) eqn:E; [|easy]. injection H as <-.
      split; [constructor; [easy|constructor]|]. intros j vs [E2|[]]. apply pair_equal_spec in E2 as [<- <-]. split; [intros c Hc Hin; vm_compute in Hc, Hin; intuition (subst; discriminate)|]. split; [apply vx_nb; reflexivity|].
      split; [easy|]. split; [intros v [<-|[]]; vm_compute; intuition discriminate|discriminate].
  - intros u [= <-]. apply vx_nb. reflexivity.
  - intros k p H. discriminate H.
  - constructor.
Qed.
(** A calendar environment in which zones are written as definitions. *)
Definition vx_fixed (z : tz) : timezone :=
  mk_timezone (toy_id z) [mk_observance false 0 0 (mk_set [] [] [vx_extra] []) None None [] []] None None [] [].
Definition vx_tz (t : timezone) : tz := toy_zone (t_id t).
Definition vx_toy : ext :=
  mk_ext (x_env toy) (x_zdb toy) (x_utc toy) (x_urlparse toy) (x_geturl toy) (x_float toy) (x_ffmt toy) (x_uid toy) (x_now toy)
    (fun its => rmap (fun t => (t_id t, vx_tz t)) (load_zone toy vx_rule vx_date (py "VTIMEZONE") its)) (fun z => dump_zone toy (vx_fixed z)).
