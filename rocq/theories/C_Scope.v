(** * C37: wrap width and deterministic event data are restored *)
From Verif Require Import M_Base M_Codec M_Cal M_Time M_Scope S_Scope P_Scope.
Open Scope Z_scope.

(** C37. Any code that changes the wrap width only through scopes, nested in any way,
    ending normally, by an exception raised anywhere or by leaving a block, leaves the
    width as it was. (Code inside a scope may change the width as it likes.) *)
Theorem C37_width : forall p s s' o, exec p s s' o -> width_scoped p -> g_width s' = g_width s.
Proof. exact width_restored. Qed.
Print Assumptions C37_width.
(** C37. The same for the uid and dtstamp factories. *)
Theorem C37_factories : forall p s s' o, exec p s s' o -> data_scoped p ->
  g_uid s' = g_uid s /\ g_stamp s' = g_stamp s.
Proof. exact data_restored. Qed.
Print Assumptions C37_factories.
(** The body of a scope runs with the width asked for, and a bad width is rejected
    before anything changes. *)
Theorem C37_inside : forall w p s s' o, exec (PWrap w p) s s' o ->
  (w = WBad /\ o = Raised TypeError /\ s' = s) \/
  (exists n s1, asked w n /\ exec p (mk_gs n (g_uid s) (g_stamp s)) s1 o /\ g_width s' = g_width s /\
     g_uid s' = g_uid s1 /\ g_stamp s' = g_stamp s1).
Proof. exact wrap_inside. Qed.
Print Assumptions C37_inside.
(** The body of the other scope runs with the uid and time stamp given. *)
Theorem C37_data_inside : forall u d p s s' o, exec (PDet u d p) s s' o ->
  exists s1, exec p (mk_gs (g_width s) (Some u) (Some d)) s1 o /\ g_width s' = g_width s1 /\ g_uid s' = g_uid s /\ g_stamp s' = g_stamp s.
Proof. exact det_inside. Qed.
Print Assumptions C37_data_inside.

Definition C37_prog := PTry (PWrap (WInt 40) (PSeq (PDet (py "u") (mk_dt 0 false None)
  (PWrap WNone (PSeq (PSetWidth 7) (PRaise KeyError)))) PSkip)) (PWrap (WInt (-1)) PSkip).
Definition C37_start := mk_gs 75 None None.
Example C37_example : width_scoped C37_prog /\ data_scoped C37_prog /\ exec C37_prog C37_start C37_start Normal.
Proof.
  split; [|split]; [cbn; tauto..|]. unfold C37_prog.
  refine (ETry _ _ _ C37_start C37_start KeyError _ _ _).
  - refine (EWrap (WInt 40) 40 _ C37_start (set_width 40 C37_start) _ eq_refl _).
    apply ESeqStop; [|discriminate].
    refine (EDet _ _ _ (set_width 40 C37_start) (mk_gs 40 (Some (py "u")) (Some (mk_dt 0 false None))) _ _).
    refine (EWrap WNone MAXSIZE _ (mk_gs 40 (Some (py "u")) (Some (mk_dt 0 false None))) (mk_gs 7 (Some (py "u")) (Some (mk_dt 0 false None))) _ eq_refl _).
    eapply ESeq; [apply ESetWidth|apply ERaise].
  - refine (EWrap (WInt (-1)) MAXSIZE _ C37_start (set_width MAXSIZE C37_start) _ eq_refl _). apply ESkip.
Qed.

(** C37, two threads. The factories are context variables: whatever the interleaving,
    each thread finds its own values restored. *)
Theorem C37_threads_factories : forall tr t s, balanced (of_thread t tr) -> ow_val (ow_run s tr) t = ow_val s t.
Proof. exact own_restored. Qed.
Print Assumptions C37_threads_factories.
(** The wrap width is shared by all threads. It is restored if scopes of different
    threads do not overlap partially... *)
Theorem C37_threads_width : forall tr, nested tr -> forall s,
  sh_width (sh_run s tr) = sh_width s /\ forall u, sh_old (sh_run s tr) u = sh_old s u.
Proof. exact nested_restored. Qed.
Print Assumptions C37_threads_width.

Definition C37_overlap : trace := [(true, Enter 40); (false, Enter 60); (true, Exit); (false, Exit)].
(** ... but not otherwise: two overlapping scopes leave the width of one of them behind
    for good, though each thread entered and left its scope properly. *)
Theorem C37_threads_refuted : exists tr s,
  balanced (of_thread true tr) /\ balanced (of_thread false tr) /\
  sh_width s = 75 /\ sh_old s true = [] /\ sh_old s false = [] /\ sh_width (sh_run s tr) = 40.
Proof.
  exists C37_overlap, (mk_sh 75 (fun _ => [])).
  split; [exact (bal_scope 40 [] [] bal_nil bal_nil)|]. split; [exact (bal_scope 60 [] [] bal_nil bal_nil)|].
  repeat split; reflexivity.
Qed.
Print Assumptions C37_threads_refuted.
Example C37_threads_example : nested [(true, Enter 40); (false, Enter 60); (false, Exit); (true, Exit)] /\
  balanced (of_thread true C37_overlap) /\ ow_val (ow_run (mk_own (fun _ => 0) (fun _ => [])) (firstn 2 C37_overlap)) true = 40.
Proof.
  split; [exact (nest_scope true 40 [(false, Enter 60); (false, Exit)] [] (nest_scope false 60 [] [] nest_nil nest_nil) nest_nil)|].
  split; [exact (bal_scope 40 [] [] bal_nil bal_nil)|reflexivity].
Qed.
