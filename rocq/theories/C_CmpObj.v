(** * C73: predicates and operators between entries, spans and instants *)
From Verif Require Import M_Base M_Codec M_Cal M_Time M_Span S_Span P_Span M_Cmp S_Cmp P_Cmp C_Cmp M_CmpObj S_CmpObj P_CmpObj.
Open Scope Z_scope.

(** Entries answer as their spans, and take entries and spans alike; spans take spans. *)
Theorem C73_predicates : forall E P p a b B N B' N', good_local E -> tame E P ->
  occupies E P a B N -> occupies E P b B' N' -> (is_span a -> is_span b) ->
  exists x, call_pred E p a b = Ok x /\ (x = true <-> says p B N B' N').
Proof. exact call_spec. Qed.
Print Assumptions C73_predicates.
(** Of the predicates only [includes] takes an instant; anything else is an AttributeError. *)
Theorem C73_instants : forall E P a B N d, good_local E -> tame E P -> occupies E P a B N -> convertible E d -> P d ->
  (exists b, call_pred E PIncludes a (CInstant d) = Ok b /\ (b = true <-> B <= moment E d < N)) /\
  (forall p, p <> PIncludes -> call_pred E p a (CInstant d) = Err AttributeError) /\
  (forall p, call_pred E p a COther = Err AttributeError).
Proof. exact call_instant. Qed.
Print Assumptions C73_instants.
(** Instants and other objects do not have the predicates. *)
Theorem C73_receiver : forall E p a b, ~ is_entry a -> ~ is_span a -> call_pred E p a b = Err AttributeError.
Proof. exact call_receiver. Qed.
Print Assumptions C73_receiver.
Example C73_receiver_example : ~ is_entry (CInstant (cx_at 8 None)) /\ ~ is_span (CInstant (cx_at 8 None)).
Proof. split; intros [x H]; discriminate H. Qed.
(** Finding: a span does not take an entry, though the entry takes the span. *)
Theorem C73_span_entry_refuted : forall E P p s x B N, good_local E -> tame E P -> interval E P s B N ->
  call_pred E p (CSpan s) (CEntry x) = Err AttributeError.
Proof. exact call_entry_span. Qed.
Print Assumptions C73_span_entry_refuted.
(** [in] is [includes] for spans; finding: entries do not have it. *)
Theorem C73_in_refuted : forall E P s o B N, good_local E -> tame E P -> interval E P s B N ->
  (forall t B' N', o = CSpan t -> interval E P t B' N' ->
     exists b, contains_op E (CSpan s) o = Ok b /\ (b = true <-> B <= B' /\ N' < N)) /\
  (forall d, o = CInstant d -> convertible E d -> P d ->
     exists b, contains_op E (CSpan s) o = Ok b /\ (b = true <-> B <= moment E d < N)) /\
  (forall x, contains_op E (CEntry x) o = Err TypeError).
Proof. exact contains_spec. Qed.
Print Assumptions C73_in_refuted.
(** The four operators of entries and of spans, by the sort keys of C25. *)
Theorem C73_compare_entries : forall E P o x y k l, good_local E -> tame E P ->
  sort_key E P (en_span x) k -> sort_key E P (en_span y) l ->
  exists b, compare_op E o (CEntry x) (CEntry y) = Ok b /\ (b = true <-> means_op o entry_lt (k, en_name x) (l, en_name y)).
Proof. exact compare_entries. Qed.
Print Assumptions C73_compare_entries.
Theorem C73_compare_spans : forall E P o s t k l, good_local E -> tame E P -> sort_key E P s k -> sort_key E P t l ->
  exists b, compare_op E o (CSpan s) (CSpan t) = Ok b /\ (b = true <-> means_op o key_lt k l).
Proof. exact compare_spans. Qed.
Print Assumptions C73_compare_spans.
(** The operators compare entries with entries and spans with spans only. *)
Theorem C73_mixed : forall E o a b,
  (is_entry a /\ ~ is_entry b) \/ (~ is_entry a /\ is_entry b) \/
  (is_span a /\ ~ is_span b) \/ (~ is_span a /\ is_span b) ->
  compare_op E o a b = Err TypeError.
Proof. exact compare_mixed. Qed.
Print Assumptions C73_mixed.

Definition co_e := CEntry (mk_entry cx_s (Some (py "a")) 0).
Example C73_example : good_local env_ex /\ tame env_ex ex_tame /\
  occupies env_ex ex_tame co_e (ref - 2 * hour) (ref + 8 * hour) /\
  occupies env_ex ex_tame (CSpan cx_o) (ref - hour) (ref + 4 * hour) /\
  call_pred env_ex PIncludes co_e (CSpan cx_o) = Ok true /\ call_pred env_ex PIsIncludedIn co_e (CSpan cx_o) = Ok false /\
  call_pred env_ex PIncludes co_e (CInstant (cx_at 8 None)) = Ok true /\
  compare_op env_ex CLt co_e (CSpan cx_o) = Err TypeError /\ is_entry co_e /\ ~ is_entry (CSpan cx_o).
Proof.
  destruct C23_example as (H1 & H2 & H3 & H4 & _). do 4 (split; [assumption|]).
  do 4 (split; [vm_compute; reflexivity|]). split; [eexists; reflexivity|]. intros [x H]. discriminate H.
Qed.
