(** * C64: what the texts of spans and entries say *)
From Verif Require Import M_Base M_Codec M_Cal M_Time M_Span M_Dt M_Cmp M_Show.
From Verif Require Import S_Codec S_Dt S_Show P_Show3 P_ShowEx.
Open Scope Z_scope.

(** [str(timespan)] is the kind, begin, end and length, each in its usual notation. *)
Theorem C64_span : forall E t s, python_times E t -> span_str E t = Ok s -> span_shown E s t.
Proof. exact span_says. Qed.
Print Assumptions C64_span.
Example C64_span_example : python_times show_env (span1 1) /\ python_times show_env day1 /\
  span_str show_env (span1 1) = Ok (py "<EventTimespan begin: 2023-10-29 02:30:00-00:30 end: 2023-10-29 04:00:00-00:30 fixed duration: 1:30:00>") /\
  span_str show_env day1 = Ok (py "<all-day EventTimespan begin: 2024-02-29 end: 2024-03-01>").
Proof. split; [exact (times1 1)|]. split; [exact (timesd _)|]. split; [exact text1|exact (textd _)]. Qed.
(** [str(entry)] also has the summary, if there is one. *)
Theorem C64_entry : forall E x s, python_times E (en_span x) -> entry_str E x = Ok s -> entry_shown E s x.
Proof. exact entry_says. Qed.
Print Assumptions C64_entry.
Example C64_entry_example : python_times show_env (en_span (mk_entry (span1 1) (Some (py "it's")) 0)) /\ entry_str show_env (mk_entry (span1 1) (Some (py "it's")) 0) =
  Ok (py "<Event 'it's' begin: 2023-10-29 02:30:00-00:30 end: 2023-10-29 04:00:00-00:30 fixed duration: 1:30:00>").
Proof. split; [exact (times1 1)|exact text_entry]. Qed.
(** Two spans have the same text exactly if they show the same. *)
Theorem C64_span_unique : forall E t t' s, python_times E t -> python_times E t' -> span_str E t = Ok s ->
  (span_str E t' = Ok s <-> same_view E t t').
Proof. exact span_tells. Qed.
Print Assumptions C64_span_unique.
(** The summary of an entry can be told from its text, whatever characters it has. *)
Theorem C64_entry_unique : forall E x y s, python_times E (en_span x) -> python_times E (en_span y) -> entry_str E x = Ok s ->
  (entry_str E y = Ok s <-> same_view E (en_span x) (en_span y) /\ en_name x = en_name y).
Proof. exact entry_tells. Qed.
Print Assumptions C64_entry_unique.
(** Valid spans of the same precision and with the same text are equal, unless a clock
    reading occurs twice. *)
Theorem C64_equal : forall E t t' s, python_times E t -> python_times E t' -> validate E t = Ok tt -> validate E t' = Ok tt ->
  (forall d, ts_begin t = Some d \/ ts_end t = Some d \/ ts_begin t' = Some d \/ ts_end t' = Some d -> fold_matters E d = false) ->
  ts_prec t = ts_prec t' -> span_str E t = Ok s -> span_str E t' = Ok s -> span_eqb E t t' = true.
Proof. exact text_equal. Qed.
Print Assumptions C64_equal.
Example C64_equal_example : python_times show_env (span1 1) /\ python_times show_env (span1 2) /\ validate show_env (span1 1) = Ok tt /\ validate show_env (span1 2) = Ok tt /\
  ts_prec (span1 1) = ts_prec (span1 2) /\ span_str show_env (span1 1) = span_str show_env (span1 2) /\
  (forall d, ts_begin (span1 1) = Some d \/ ts_end (span1 1) = Some d \/ ts_begin (span1 2) = Some d \/ ts_end (span1 2) = Some d -> fold_matters show_env d = false).
Proof. split; [exact (times1 1)|]. split; [exact (times1 2)|]. do 4 (split; [vm_compute; reflexivity|]). intros d [H|[H|[H|H]]]; try discriminate H; injection H as <-; reflexivity. Qed.
(** Neither condition can be left out. *)
Theorem C64_precision_refuted : ~ (forall E t t' s, python_times E t -> python_times E t' -> validate E t = Ok tt -> validate E t' = Ok tt ->
  (forall d, ts_begin t = Some d \/ ts_end t = Some d \/ ts_begin t' = Some d \/ ts_end t' = Some d -> fold_matters E d = false) ->
  span_str E t = Ok s -> span_str E t' = Ok s -> span_eqb E t t' = true).
Proof. exact precision_refuted. Qed.
Print Assumptions C64_precision_refuted.
Theorem C64_zone_refuted : ~ (forall E t t' s, python_times E t -> python_times E t' -> validate E t = Ok tt -> validate E t' = Ok tt ->
  ts_prec t = ts_prec t' -> span_str E t = Ok s -> span_str E t' = Ok s -> span_eqb E t t' = true).
Proof. exact zone_refuted. Qed.
Print Assumptions C64_zone_refuted.
