(** * Proofs for C74: assigning attributes *)
From Verif Require Import M_Base M_Codec M_Cal M_Time M_Span M_Event S_Event S_Assign P_Base P_Span P_Event P_Assign.
From Coq Require Import Lia ZifyBool ZifyNat ZifyN.
Open Scope Z_scope.

Section Assign.
Variable E : env.
Variable utc : tz.

(** What the model does with the value for one attribute. *)
Definition pass (f : field) (c : cls) (v : val) : res val := do w <- fl_conv f v; do _ <- fl_valid f c w; Ok w.
Definition kind_field (K : attr_kind) (conv : val -> res val) (valid : validator) : Prop :=
  match K with
  | KSpan => conv = c_id /\ valid = v_timespan E
  | KStatus => conv = c_upper /\ valid = v_status
  | KUtc => conv = ensure_utc E utc /\ valid = v_any
  | KStamp => conv = ensure_utc E utc /\ valid = v_not_none
  | KList => conv = c_list /\ valid = v_any
  | KText => conv = c_id /\ valid = v_str
  | KOrganizer => conv = c_id /\ valid = v_instance 1
  | KGeo => conv = c_geo /\ valid = v_any
  | KUpto n => conv = c_id /\ valid = v_range n
  | KMoment => conv = c_datetime /\ valid = v_any
  | KExtra => conv = c_id /\ valid = v_container
  | KParams => conv = c_id /\ valid = v_dict
  | KFree => conv = c_id /\ valid = v_any
  end.

Lemma upper_capitals s : capitals s (upper s).
Proof.
  induction s as [|a s IH]; constructor; [|exact IH]. unfold upper_char. destruct (_ && _)%bool eqn:EB; [right|left]; lia.
Qed.
Lemma capitals_upper s w : capitals s w -> w = upper s.
Proof.
  induction 1 as [|a b s w H _ IH]; [reflexivity|]. cbn [upper map]. rewrite IH. f_equal. unfold upper_char.
  destruct (_ && _)%bool eqn:EB; lia.
Qed.
Lemma two_keys (d : dict val) k1 k2 a b : k1 <> k2 -> dict_get k1 d = Some a -> dict_get k2 d = Some b -> (2 <= length d)%nat.
Proof.
  intros N H1 H2. destruct d as [|[k x] [|[k' y] d]]; [discriminate| |cbn; lia]. cbn [dict_get] in *.
  destruct (str_eqb k1 k) eqn:E1; [|discriminate]. destruct (str_eqb k2 k) eqn:E2; [|discriminate].
  apply str_eqb_eq in E1, E2. congruence.
Qed.
Lemma geo_nodup : NoDup [py "latitude"; py "longitude"]. Proof. apply nodup_dec. reflexivity. Qed.

Lemma taken_exists c K f v : kind_field K (fl_conv f) (fl_valid f) -> taken E utc c K v (pass f c v).
Proof.
  intros HK. unfold pass. destruct K; cbn [kind_field] in HK; destruct HK as [-> ->].
  - unfold c_id. cbn [bind]. destruct v; cbn [v_timespan bind]; try (apply TK_span_other; discriminate).
    destruct (kind_eqb (ts_kind t) (span_kind c)) eqn:EK; cbn [negb guard bind].
    + assert (HK : ts_kind t = span_kind c) by (destruct (ts_kind t), c; easy). pose proof (TK_span E utc c t _ HK eq_refl) as H.
      destruct (validate E t) as [[]|e]; exact H.
    + apply TK_span_kind. intros HK. rewrite HK in EK. now destruct c.
  - destruct v; cbn [c_upper bind v_status]; try (apply TK_status_other; discriminate); [constructor|].
    destruct (existsb (str_eqb (upper s)) STATUS) eqn:EX; cbn [negb guard bind].
    + apply TK_status; [apply upper_capitals|]. now apply existsb_In in EX.
    + apply TK_status_bad. intros w I C. apply capitals_upper in C as ->. assert (existsb (str_eqb (upper s)) STATUS = true); [|congruence].
      apply existsb_exists. exists (upper s). split; [exact I|apply str_eqb_refl].
  - unfold ensure_utc. pose proof (dt_meant_exists v) as H. destruct (ensure_datetime v) as [[d|]|e]; cbn [bind].
    + pose proof (TK_utc E utc c KUtc v d (or_introl eq_refl) H) as T. destruct (dt_astimezone E d (Some utc)); exact T.
    + now apply TK_utc_none.
    + apply TK_time_err; [now left|exact H].
  - unfold ensure_utc. pose proof (dt_meant_exists v) as H. destruct (ensure_datetime v) as [[d|]|e]; cbn [bind].
    + pose proof (TK_utc E utc c KStamp v d (or_intror eq_refl) H) as T. destruct (dt_astimezone E d (Some utc)); exact T.
    + now apply TK_stamp_none.
    + apply TK_time_err; [now right; left|exact H].
  - destruct v as [|s|n|d|w|us|t|l|l|cl n|z|d]; cbn [c_list bind v_any]; try (apply TK_list_other; intros ? Q; now inversion Q); try (apply TK_list; constructor).
    + destruct cl as [|[[cl|cl|]|cl|]]; cbn [bind]; try (apply TK_list_other; intros ? Q; now inversion Q). apply TK_list. constructor.
    + apply TK_list. unfold keys. rewrite map_map. constructor.
  - unfold c_id. destruct v; cbn [bind v_str]; try (apply TK_text_other; discriminate); constructor.
  - unfold c_id. destruct v as [|s|n|d|w|us|t|l|l|cl n|z|d]; cbn [bind v_instance]; try (apply TK_org_other; discriminate); [constructor|].
    destruct (N.eqb 1 cl) eqn:EC; cbn [negb guard bind].
    + apply N.eqb_eq in EC as <-. constructor.
    + apply TK_org_other; [discriminate|]. intros m [= -> _]. discriminate.
  - destruct v as [|s|n|d|w|us|t|l|l|cl n|z|d]; cbn [c_geo bind v_any]; try (apply TK_geo_other; easy).
    + destruct l as [|a [|b [|x l]]]; cbn [bind]; try (apply TK_geo_bad; [exact I|]; left; cbn; lia).
      apply TK_geo; [exists 0%nat; easy|exists 1%nat; easy|reflexivity].
    + destruct (dict_get (py "latitude") d) as [a|] eqn:Ea; [destruct (dict_get (py "longitude") d) as [b|] eqn:Eb|].
      * assert (L : (2 <= length d)%nat) by (apply (two_keys d (py "latitude") (py "longitude") a b); [discriminate|assumption..]).
        destruct (Nat.ltb 2 (length d)) eqn:EL; cbn [bind].
        -- apply TK_geo_bad; [exact I|]. left. cbn [size]. lia.
        -- apply TK_geo; [split; [now left|exact Ea]|split; [now right; left|exact Eb]|cbn [size]; lia].
      * cbn [bind]. apply TK_geo_bad; [exact I|]. right. exists (py "longitude"). split; [now right; left|]. intros x [_ P]. congruence.
      * cbn [bind]. apply TK_geo_bad; [exact I|]. right. exists (py "latitude"). split; [now left|]. intros x [_ P]. congruence.
  - unfold c_id. destruct v; cbn [bind v_range]; try (apply TK_upto_bad; [discriminate|intros i _; discriminate]); [constructor|].
    destruct ((0 <=? n0) && (n0 <=? n)) eqn:EB; cbn [negb guard bind]; [apply TK_upto; lia|].
    apply TK_upto_bad; [discriminate|]. intros i HI [= ->]. lia.
  - unfold c_datetime. pose proof (dt_meant_exists v) as H. destruct (ensure_datetime v) as [[d|]|e]; cbn.
    + now apply TK_moment.
    + now apply TK_moment_none.
    + apply TK_time_err; [now right; right|exact H].
  - unfold c_id. destruct v as [|s|n|d|w|us|t|l|l|cl n|z|d]; cbn [bind v_container]; try (apply TK_extra_other; discriminate).
    destruct cl as [|[[cl|cl|]|cl|]]; cbn [bind]; try (apply TK_extra_other; discriminate). constructor.
  - unfold c_id. destruct v as [|s|n|d|w|us|t|l|l|cl n|z|d]; cbn [bind v_dict]; try (apply TK_params_other; discriminate). constructor.
  - constructor.
Qed.

Lemma items_one v l l' : items_of v l -> items_of v l' -> l = l'.
Proof. intros [] H; now inversion H. Qed.
Lemma taken_one c K v r r' : taken E utc c K v r -> taken E utc c K v r' -> r = r'.
Proof.
  intros H H'.
  destruct K; inversion H; subst; inversion H'; subst; try reflexivity; try congruence; try easy;
  repeat match goal with
  | A : _ \/ _ |- _ => destruct A; try discriminate
  | A : dt_meant ?v ?a, B : dt_meant ?v ?b |- _ => pose proof (dt_meant_one _ _ _ A B); clear B
  | A : capitals _ _ |- _ => apply capitals_upper in A; subst
  | A : items_of ?v ?a, B : items_of ?v ?b |- _ => pose proof (items_one _ _ _ A B); clear B
  end; try congruence; try easy; subst;
  try match goal with
  | A : forall x, VSpan ?t <> VSpan x |- _ => now destruct (A t)
  | A : forall x, VStr ?t <> VStr x |- _ => now destruct (A t)
  | A : forall x, VObj ?c ?t <> VObj _ x |- _ => now destruct (A t)
  | A : forall x, VDict ?t <> VDict x |- _ => now destruct (A t)
  | A : forall w, In w _ -> ~ capitals _ w, B : In _ _ |- _ => exfalso; exact (A _ B (upper_capitals _))
  | A : forall l, ~ items_of ?v l, B : items_of ?v ?l |- _ => now destruct (A l)
  end.
  all: try (match goal with A : forall i, 0 <= i <= _ -> VInt ?n <> VInt i, B : 0 <= ?n <= _ |- _ => now destruct (A n B) end).
  all: try (match goal with A : ~ collection ?v, B : passes _ ?v _ _ |- _ => exfalso; apply A; destruct v; easy end).
  all: try (match goal with A : passes ?p ?v (py "latitude") ?a, B : passes ?p ?v (py "latitude") ?b, C : passes ?p ?v (py "longitude") ?x, D : passes ?p ?v (py "longitude") ?y |- _ =>
    rewrite (passes_one _ _ _ _ _ geo_nodup A B), (passes_one _ _ _ _ _ geo_nodup C D); reflexivity end).
  all: try (match goal with A : exists k, In k _ /\ _ |- _ => destruct A as (k & I & Q) end; exfalso; destruct I as [<-|[<-|[]]]; eapply Q; eassumption).
  all: match goal with A : Ok (Some _) = Ok (Some _) |- _ => injection A as <-; reflexivity end.
Qed.

(** ** The tables agree *)
Lemma kinds_field c k K : In (k, K) (kinds c) -> exists f, dict_get k (fields E utc c) = Some f /\ kind_field K (fl_conv f) (fl_valid f).
Proof.
  intros H. destruct c; cbn in H; repeat (destruct H as [H|H]; [injection H as <- <-; eexists; split; [reflexivity|split; reflexivity]|]); destruct H.
Qed.
Lemma free_field c k f : ~ In k (map fst (kinds c)) -> dict_get k (fields E utc c) = Some f -> kind_field KFree (fl_conv f) (fl_valid f).
Proof.
  intros NI H. unfold fields, class_fields, common_fields, hidden_fields in H.
  destruct c; cbn [app dict_get] in H;
  repeat match type of H with (if str_eqb k ?x then _ else _) = _ => destruct (str_eqb k x) eqn:EK;
    [apply str_eqb_eq in EK; subst k; injection H as <-; (split; reflexivity) || (exfalso; apply NI; cbn [kinds common_kinds event_kinds todo_kinds app map fst In]; tauto)|clear EK] end; discriminate.
Qed.
Lemma kinds_nodup c : NoDup (map fst (kinds c)).
Proof. destruct c; apply nodup_dec; reflexivity. Qed.
Lemma has_kind_one c k K K' : has_kind c k K -> has_kind c k K' -> K = K'.
Proof.
  intros [H|[-> H]] [H'|[-> H']]; try reflexivity; [|exfalso; apply H'; now apply (in_map fst) in H|exfalso; apply H; now apply (in_map fst) in H'].
  pose proof (kinds_nodup c) as ND. induction (kinds c) as [|[k0 K0] l IH]; [destruct H|]. cbn [map fst] in ND. inversion_clear ND as [|? ? N1 N2].
  destruct H as [H|H], H' as [H'|H'].
  - congruence.
  - exfalso. injection H as -> _. now apply (in_map fst) in H'.
  - exfalso. injection H' as -> _. now apply (in_map fst) in H.
  - now apply IH.
Qed.

Lemma set_field_after o k v r K : checking o = true -> has_kind (o_cls o) k K -> taken E utc (o_cls o) K v r -> set_field E utc k v o = after o k r.
Proof.
  intros HC HK HT. unfold set_field. rewrite HC.
  destruct (dict_get k (fields E utc (o_cls o))) as [f|] eqn:Ef.
  - assert (KF : kind_field K (fl_conv f) (fl_valid f)).
    { destruct HK as [HK|[-> HK]]; [|now apply (free_field (o_cls o) k)]. apply kinds_field in HK as (f' & F1 & F2). congruence. }
    rewrite (taken_one _ _ _ _ _ HT (taken_exists (o_cls o) K f v KF)). unfold pass, mbind, mlift.
    destruct (fl_conv f v) as [w|e]; [|reflexivity]. cbn [bind]. destruct (fl_valid f (o_cls o) w) as [[]|e]; reflexivity.
  - destruct HK as [HK|[-> HK]]; [apply kinds_field in HK as (f' & F1 & F2); congruence|]. inversion HT; subst; try easy;
    repeat match goal with A : _ \/ _ |- _ => destruct A; try discriminate end.
Qed.
Lemma kind_exists c k : exists K, has_kind c k K.
Proof.
  destruct (existsb (str_eqb k) (map fst (kinds c))) eqn:EX.
  - apply existsb_exists in EX as (k' & I & H). apply str_eqb_eq in H as <-. apply in_map_iff in I as ((k2 & K) & H & I). cbn in H. subst k2. exists K. now left.
  - exists KFree. right. split; [reflexivity|]. intros I. assert (existsb (str_eqb k) (map fst (kinds c)) = true); [|congruence].
    apply existsb_exists. exists k. split; [exact I|apply str_eqb_refl].
Qed.
Lemma taken_total c K v : (exists k, has_kind c k K) -> exists r, taken E utc c K v r.
Proof.
  intros (k & [H|[-> H]]); [|exists (Ok v); constructor]. apply kinds_field in H as (f & _ & H). exists (pass f c v). now apply taken_exists.
Qed.

Lemma set_attr_field o k v : ~ In k (special (o_cls o)) -> set_attr E utc k v o = set_field E utc k v o.
Proof.
  intros NI. unfold set_attr. assert (Q : forall x, In x (special (o_cls o)) -> str_eqb k x = false).
  { intros x I. apply str_eqb_neq. intros ->. now apply NI. }
  unfold special, computed, unwritable in Q.
  assert (QR : existsb (str_eqb k) (readonly (o_cls o)) = false).
  { destruct (existsb _ _) eqn:EX; [|reflexivity]. apply existsb_exists in EX as (x & I & H). rewrite Q in H; [discriminate|].
    apply in_or_app. right. apply in_or_app. left. exact I. }
  rewrite QR, (Q (py "begin")), (Q (py "end")), (Q (py "duration")), (Q (py "__class__")), (Q (py "__dict__"))
    by (destruct (o_cls o); cbn [app In]; tauto).
  assert (QD : str_eqb k (py "due") && match o_cls o with CTodo => true | CEvent => false end = false).
  { destruct (o_cls o); [apply andb_false_r|]. now rewrite Q by (cbn [app In]; tauto). }
  now rewrite QD.
Qed.

Lemma assign_exact o k v o' x : reachable E utc o -> ~ In k (special (o_cls o)) ->
  (run E utc (OSet k v) o = (o', x) <-> exists K r, has_kind (o_cls o) k K /\ taken E utc (o_cls o) K v r /\ (o', x) = after o k r).
Proof.
  intros HR NS. apply reachable_ok in HR as (_ & _ & HC). cbn [run]. rewrite set_attr_field by exact NS. split.
  - intros H. destruct (kind_exists (o_cls o) k) as (K & HK). destruct (taken_total (o_cls o) K v (ex_intro _ k HK)) as (r & HT).
    exists K, r. split; [exact HK|]. split; [exact HT|]. now rewrite <- (set_field_after o k v r K HC HK HT).
  - intros (K & r & HK & HT & ->). now apply (set_field_after o k v r K).
Qed.

(** ** Computed and read-only names *)
Lemma unwritable_run o k v : In k (unwritable (o_cls o)) -> run E utc (OSet k v) o = (o, Err AttributeError).
Proof.
  intros I. cbn [run]. unfold set_attr. unfold unwritable in I.
  assert (QR : existsb (str_eqb k) (readonly (o_cls o)) = true) by (apply existsb_exists; exists k; split; [exact I|apply str_eqb_refl]).
  rewrite QR. clear QR. destruct (o_cls o); cbn in I; repeat (destruct I as [<-|I]; [reflexivity|]); destruct I.
Qed.
Lemma class_run o v : run E utc (OSet (py "__class__") v) o = (o, Err TypeError).
Proof. cbn [run]. unfold set_attr. now destruct (o_cls o). Qed.

Lemma reset_one t k v r r' : reset_span t k v r -> reset_span t k v r' -> r = r'.
Proof.
  intros H H'. inversion H; subst; inversion H'; subst;
  repeat match goal with A : _ \/ _ |- _ => destruct A; try discriminate end;
  repeat match goal with
  | A : dt_meant ?v ?a, B : dt_meant ?v ?b |- _ => pose proof (dt_meant_one _ _ _ A B); clear B
  | A : td_meant ?v ?a, B : td_meant ?v ?b |- _ => pose proof (td_meant_one _ _ _ A B); clear B
  end; try congruence; subst; try discriminate.
Qed.
(** The setter [k] on the span of an object. *)
Definition reset_res (t : timespan) (k : list N) (v : val) : res timespan :=
  if str_eqb k (py "begin") then rmap (fun b => mk_ts (ts_kind t) b (ts_end t) (ts_dur t) (ts_prec t)) (ensure_datetime v)
  else if str_eqb k (py "duration") then rmap (fun d => mk_ts (ts_kind t) (ts_begin t) None d (ts_prec t)) (ensure_timedelta v)
  else rmap (fun e => mk_ts (ts_kind t) (ts_begin t) e None (ts_prec t)) (ensure_datetime v).
Lemma reset_exists c t k v : In k (computed c) -> reset_span t k v (reset_res t k v).
Proof.
  intros I. unfold reset_res. pose proof (dt_meant_exists v) as D. pose proof (td_meant_exists v) as T.
  assert (C : k = py "begin" \/ k = py "duration" \/ k = py "end" \/ k = py "due").
  { unfold computed in I. destruct c; cbn [app In] in I; intuition. }
  destruct C as [-> |[-> |[-> | ->]]].
  - change (str_eqb (py "begin") (py "begin")) with true. cbv iota. destruct (ensure_datetime v) as [b|e]; cbn [rmap bind]; [now apply RS_begin|]. apply RS_time; [now left|exact D].
  - change (str_eqb (py "duration") (py "begin")) with false. change (str_eqb (py "duration") (py "duration")) with true. cbv iota.
    destruct (ensure_timedelta v) as [b|e]; cbn [rmap bind]; [now apply RS_duration|now apply RS_duration_err].
  - change (str_eqb (py "end") (py "begin")) with false. change (str_eqb (py "end") (py "duration")) with false. cbv iota.
    destruct (ensure_datetime v) as [b|e]; cbn [rmap bind]; [apply RS_end; [now left|exact D]|]. apply RS_time; [now right; left|exact D].
  - change (str_eqb (py "due") (py "begin")) with false. change (str_eqb (py "due") (py "duration")) with false. cbv iota.
    destruct (ensure_datetime v) as [b|e]; cbn [rmap bind]; [apply RS_end; [now right|exact D]|]. apply RS_time; [now right; right|exact D].
Qed.
Lemma set_computed o k v t r : reachable E utc o -> In k (computed (o_cls o)) -> dict_get (py "timespan") (o_attrs o) = Some (VSpan t) ->
  reset_span t k v r ->
  run E utc (OSet k v) o =
    match r with
    | Err x => (o, Err x)
    | Ok t' => match validate E t' with Ok _ => (with_attr o (py "timespan") (VSpan t'), Ok tt) | Err x => (o, Err x) end
    end.
Proof.
  intros HR I HT HS. rewrite (reset_one _ _ _ _ _ HS (reset_exists (o_cls o) t k v I)). clear HS r.
  destruct (reachable_span _ _ _ HR) as (t0 & T1 & T2 & _). assert (t0 = t) by congruence. subst t0.
  assert (UP : forall t', ts_kind t' = ts_kind t -> forall m : res timespan, m = (do _ <- validate E t'; Ok t') ->
    mbind (mlift m) (set_span E utc) o = match validate E t' with Ok _ => (with_attr o (py "timespan") (VSpan t'), Ok tt) | Err x => (o, Err x) end).
  { intros t' K m ->. unfold mbind, mlift. destruct (validate E t') as [[]|x] eqn:EV; cbn [bind]; [|reflexivity].
    apply set_span_ok; [congruence|exact EV]. }
  assert (SB : set_begin E utc v o = match reset_res t (py "begin") v with Err x => (o, Err x) | Ok t' => match validate E t' with Ok _ => (with_attr o (py "timespan") (VSpan t'), Ok tt) | Err x => (o, Err x) end end).
  { unfold set_begin. unfold mbind at 1. rewrite (get_span_at _ _ T1). unfold mbind at 1. unfold mlift at 1. change (reset_res t (py "begin") v) with
      (rmap (fun b => mk_ts (ts_kind t) b (ts_end t) (ts_dur t) (ts_prec t)) (ensure_datetime v)).
    destruct (ensure_datetime v) as [b|e]; cbn [rmap bind]; [|reflexivity]. apply UP; reflexivity. }
  assert (SE : set_end E utc v o = match rmap (fun e => mk_ts (ts_kind t) (ts_begin t) e None (ts_prec t)) (ensure_datetime v) with Err x => (o, Err x) | Ok t' => match validate E t' with Ok _ => (with_attr o (py "timespan") (VSpan t'), Ok tt) | Err x => (o, Err x) end end).
  { unfold set_end. unfold mbind at 1. rewrite (get_span_at _ _ T1). unfold mbind at 1. unfold mlift at 1.
    destruct (ensure_datetime v) as [b|e]; cbn [rmap bind]; [|reflexivity]. apply UP; reflexivity. }
  assert (SD : set_duration E utc v o = match reset_res t (py "duration") v with Err x => (o, Err x) | Ok t' => match validate E t' with Ok _ => (with_attr o (py "timespan") (VSpan t'), Ok tt) | Err x => (o, Err x) end end).
  { unfold set_duration. unfold mbind at 1. rewrite (get_span_at _ _ T1). unfold mbind at 1. unfold mlift at 1. change (reset_res t (py "duration") v) with
      (rmap (fun d => mk_ts (ts_kind t) (ts_begin t) None d (ts_prec t)) (ensure_timedelta v)).
    destruct (ensure_timedelta v) as [b|e]; cbn [rmap bind]; [|reflexivity]. apply UP; reflexivity. }
  cbn [run]. unfold set_attr.
  assert (C : k = py "begin" \/ k = py "duration" \/ k = py "end" \/ k = py "due" /\ o_cls o = CTodo).
  { unfold computed in I. destruct (o_cls o); cbn [app In] in I; intuition. }
  destruct C as [-> |[-> |[-> |[-> EC]]]]; [exact SB|exact SD|exact SE|rewrite EC; exact SE].
Qed.
End Assign.
