(** * Proofs for C74: construction *)
From Verif Require Import M_Base M_Codec M_Cal M_Time M_Span M_Event S_Event S_Assign P_Base P_Span P_Event P_Assign P_Assign2.
From Coq Require Import Lia ZifyBool ZifyNat ZifyN.
Open Scope Z_scope.

Section New.
Variable E : env.
Variable utc : tz.

Definition raw (kw : dict val) (k : str) (f : field) : val := match dict_get k kw with Some v => v | None => fl_default f end.
Lemma convert_all_spec fs kw attrs : NoDup (keys fs) -> convert_all fs kw = Ok attrs ->
  keys attrs = keys fs /\ forall k f, In (k, f) fs -> exists w, fl_conv f (raw kw k f) = Ok w /\ dict_get k attrs = Some w.
Proof.
  revert attrs. induction fs as [|[k0 f0] fs IH]; intros attrs ND H; cbn [convert_all] in H.
  - injection H as <-. split; [reflexivity|]. intros k f [].
  - apply bind_ok in H as (w & Hw & H). apply bind_ok in H as (r & Hr & [= <-]). cbn [keys map fst] in ND. inversion_clear ND as [|? ? NI ND'].
    destruct (IH r ND' Hr) as [IH1 IH2]. split; [cbn [keys map fst]; f_equal; exact IH1|]. intros k f [[= <- <-]|I].
    + exists w. split; [exact Hw|]. cbn [dict_get]. now rewrite str_eqb_refl.
    + destruct (IH2 k f I) as (w' & W1 & W2). exists w'. split; [exact W1|]. cbn [dict_get].
      assert (str_eqb k k0 = false) as ->; [|exact W2]. apply str_eqb_neq. intros ->. apply NI. now apply (in_map fst) in I.
Qed.
Lemma convert_all_ok fs kw : (forall k f, In (k, f) fs -> exists w, fl_conv f (raw kw k f) = Ok w) -> exists attrs, convert_all fs kw = Ok attrs.
Proof.
  induction fs as [|[k0 f0] fs IH]; intros H; cbn [convert_all]; [now exists []|].
  destruct (H k0 f0 (or_introl eq_refl)) as (w & Hw). unfold raw in Hw. rewrite Hw. cbn [bind].
  destruct IH as (r & Hr); [intros k f I; apply H; now right|]. rewrite Hr. cbn [bind]. now eexists.
Qed.
Lemma validate_all_spec c fs attrs : validate_all c fs attrs = Ok tt <->
  forall k f w, In (k, f) fs -> dict_get k attrs = Some w -> fl_valid f c w = Ok tt.
Proof.
  induction fs as [|[k0 f0] fs IH]; cbn [validate_all]; [split; [intros _ k f w []|reflexivity]|]. split.
  - intros H. apply bind_tt in H as [H1 H2]. intros k f w [[= <- <-]|I] HW; [now rewrite HW in H1|]. now apply (proj1 IH H2 k).
  - intros H. assert (H1 : match dict_get k0 attrs with Some v => fl_valid f0 c v | None => Ok tt end = Ok tt).
    { destruct (dict_get k0 attrs) as [w|] eqn:EW; [|reflexivity]. apply (H k0 f0 w); [now left|exact EW]. }
    rewrite H1. cbn [bind]. apply IH. intros k f w I HW. apply (H k f w); [now right|exact HW].
Qed.

Lemma dict_get_In_nodup {V} (d : dict V) k v : NoDup (keys d) -> In (k, v) d -> dict_get k d = Some v.
Proof.
  induction d as [|[k0 v0] d IH]; intros ND I; [destruct I|]. cbn [keys map fst] in ND. inversion_clear ND as [|? ? N1 N2]. cbn [dict_get].
  destruct I as [[= -> ->]|I]; [now rewrite str_eqb_refl|]. assert (str_eqb k k0 = false) as ->; [|now apply IH].
  apply str_eqb_neq. intros ->. apply N1. now apply (in_map fst) in I.
Qed.
Lemma not_in (k : list N) l : existsb (str_eqb k) l = false -> ~ In k l.
Proof. intros H I. assert (existsb (str_eqb k) l = true); [|congruence]. apply existsb_exists. exists k. split; [exact I|apply str_eqb_refl]. Qed.
Lemma class_fields_nodup c uid ds : NoDup (keys (class_fields E utc c uid ds)).
Proof. destruct c; apply nodup_dec; reflexivity. Qed.
Lemma class_fields_keys c uid ds : keys (class_fields E utc c uid ds) = py "timespan" :: map fst (parameters c uid ds).
Proof. destruct c; reflexivity. Qed.
(** Each parameter has its field. *)
Lemma param_field c uid ds k v : In (k, v) (parameters c uid ds) ->
  exists f K, In (k, f) (class_fields E utc c uid ds) /\ fl_default f = v /\ has_kind c k K /\ kind_field E utc K (fl_conv f) (fl_valid f).
Proof.
  intros I. assert (HF : exists f, In (k, f) (class_fields E utc c uid ds) /\ fl_default f = v).
  { destruct c; cbn [parameters app In] in I; repeat (destruct I as [I|I]; [injection I as <- <-; eexists; split; [cbn [class_fields common_fields app In]; repeat first [left; reflexivity|right]|reflexivity]|]); destruct I. }
  destruct HF as (f & F1 & F2). destruct (kind_exists c k) as (K & HK). exists f, K. split; [exact F1|]. split; [exact F2|]. split; [exact HK|].
  assert (NF : forall k f, In (k, f) (class_fields E utc c uid ds) -> exists f', dict_get k (fields E utc c) = Some f' /\ fl_conv f = fl_conv f' /\ fl_valid f = fl_valid f').
  { clear. intros k f I. pose proof (fields_default E utc c uid ds k) as FD.
    assert (G : dict_get k (class_fields E utc c uid ds) = Some f) by (apply dict_get_In_nodup; [apply class_fields_nodup|exact I]).
    rewrite G in FD. destruct (dict_get k (class_fields E utc c VNone VNone)) as [f'|] eqn:EF; [|easy]. exists f'. split; [|easy].
    unfold fields. rewrite get_app, EF. reflexivity. }
  destruct (NF k f F1) as (f' & G & -> & ->). destruct HK as [HK|[-> HK]]; [|now apply (free_field E utc c k)].
  destruct (kinds_field E utc c k K HK) as (f2 & G2 & K2). congruence.
Qed.
Lemma field_param c uid ds k f : In (k, f) (class_fields E utc c uid ds) -> k = py "timespan" /\ f = mk_field c_id (v_timespan E) VNone \/ In (k, fl_default f) (parameters c uid ds).
Proof.
  intros I. destruct c; cbn [class_fields common_fields app In] in I;
  repeat (destruct I as [I|I]; [injection I as <- <-; (left; split; reflexivity) || (right; cbn [parameters app In fl_default]; repeat first [left; reflexivity|right])|]); destruct I.
Qed.

Lemma dict_mem_keys (d : dict val) k : dict_mem k d = true <-> In k (keys d).
Proof.
  unfold dict_mem. induction d as [|[k0 v] d IH]; [easy|]. cbn [dict_get keys map fst In]. destruct (str_eqb k k0) eqn:EK.
  - apply str_eqb_eq in EK as ->. split; [now left|reflexivity].
  - apply str_eqb_neq in EK. rewrite IH. unfold keys. split; [now right|intros [H|H]; [congruence|exact H]].
Qed.
Lemma get_none (d : dict val) k : ~ In k (keys d) -> dict_get k d = None.
Proof.
  intros H. destruct (dict_get k d) eqn:EG; [|reflexivity]. exfalso. apply H. apply dict_mem_keys. unfold dict_mem. now rewrite EG.
Qed.
Lemma pass_taken c K f v w : kind_field E utc K (fl_conv f) (fl_valid f) -> (taken E utc c K v (Ok w) <-> fl_conv f v = Ok w /\ fl_valid f c w = Ok tt).
Proof.
  intros KF. pose proof (taken_exists E utc c K f v KF) as TE. split.
  - intros H. pose proof (taken_one _ _ _ _ _ _ _ H TE) as Q. unfold pass in Q. symmetry in Q. apply bind_ok in Q as (w' & W1 & Q). apply bind_tt in Q as [W2 [= <-]]. easy.
  - intros [H1 H2]. unfold pass in TE. rewrite H1 in TE. cbn [bind] in TE. now rewrite H2 in TE.
Qed.
Definition span_field := mk_field c_id (v_timespan E) VNone.
Lemma span_field_kind : kind_field E utc KSpan (fl_conv span_field) (fl_valid span_field). Proof. split; reflexivity. Qed.

(** The keyword arguments completed with the span. *)
Definition kw_full (c : cls) (kw : dict val) b e d : dict val :=
  if dict_mem (py "timespan") kw then kw else dict_set (py "timespan") (VSpan (mk_ts (span_kind c) b e d PSecond)) kw.
Lemma kw_full_span c kw b e d : dict_get (py "timespan") (kw_full c kw b e d) = Some (given_or kw (py "timespan") (VSpan (mk_ts (span_kind c) b e d PSecond))).
Proof.
  unfold kw_full, given_or, dict_mem. destruct (dict_get (py "timespan") kw) eqn:EG; [exact EG|]. apply dict_get_set_same.
Qed.
Lemma kw_full_other c kw b e d k : k <> py "timespan" -> dict_get k (kw_full c kw b e d) = dict_get k kw.
Proof. intros H. unfold kw_full. destruct (dict_mem _ _); [reflexivity|]. apply dict_get_set_other. congruence. Qed.
Lemma raw_param c kw b e d k f : k <> py "timespan" -> raw (kw_full c kw b e d) k f = given_or kw k (fl_default f).
Proof. intros H. unfold raw. now rewrite kw_full_other. Qed.
Lemma param_not_span c uid ds k v : In (k, v) (parameters c uid ds) -> k <> py "timespan".
Proof. intros I ->. apply (in_map fst) in I. pose proof (class_fields_nodup c uid ds) as ND. rewrite class_fields_keys in ND. now inversion ND. Qed.
Lemma keys_set_in (d : dict val) k v x : In x (keys (dict_set k v d)) <-> x = k \/ In x (keys d).
Proof.
  rewrite <- !dict_mem_keys. unfold dict_mem. destruct (list_eq_dec N.eq_dec k x) as [->|NE].
  - rewrite dict_get_set_same. split; [now left|reflexivity].
  - rewrite dict_get_set_other by congruence. split; [now right|intros [->|H]; [easy|exact H]].
Qed.
Lemma kw_full_keys c kw b e d x : In x (keys (kw_full c kw b e d)) <-> x = py "timespan" \/ In x (keys kw).
Proof.
  unfold kw_full. destruct (dict_mem (py "timespan") kw) eqn:EM; [|apply keys_set_in]. apply dict_mem_keys in EM.
  split; [now right|intros [->|H]; assumption].
Qed.
Lemma known_spec (kw : dict val) (fs : list (str * field)) :
  forallb (fun kv => existsb (fun f => str_eqb (fst kv) (fst f)) fs) kw = true <-> forall k, In k (keys kw) -> In k (keys fs).
Proof.
  rewrite forallb_forall. split.
  - intros H k I. apply in_map_iff in I as (kv & <- & I). apply H in I. apply existsb_exists in I as (f & I & HK). apply str_eqb_eq in HK. rewrite HK. now apply in_map.
  - intros H kv I. apply existsb_exists. specialize (H (fst kv) (in_map fst _ _ I)). apply in_map_iff in H as (f & HK & I2). exists f. split; [exact I2|]. rewrite HK. apply str_eqb_refl.
Qed.

Lemma new_exact c b e d uid ds kw :
  (forall o, new E utc c b e d uid ds kw = Ok o -> made_from E utc c b e d uid ds kw o) /\
  (forall o, made_from E utc c b e d uid ds kw o -> exists o', new E utc c b e d uid ds kw = Ok o').
Proof.
  split; intros o H.
  - unfold new in H. apply bind_guard in H as [H0 H]. apply bind_ok in H as (b' & Hb & H). apply bind_ok in H as (e' & He & H). apply bind_ok in H as (d' & Hd & H).
    apply bind_ok in H as (t & Ht & H). unfold make in Ht. apply bind_tt in Ht as [HV [= <-]].
    fold (kw_full c kw b' e' d') in H. apply bind_guard in H as [HN H]. apply negb_false_iff in HN. rewrite known_spec in HN.
    apply bind_ok in H as (attrs & HA & H). apply bind_tt in H as [HL [= <-]].
    destruct (convert_all_spec _ _ _ (class_fields_nodup c uid ds) HA) as [KA CA]. rewrite validate_all_spec in HL.
    assert (GA : forall k, In k (keys attrs) -> dict_get k (attrs ++ [(py "extra_params", VDict []); (POST_INIT, VInt 1); (py "extra", VObj 3 0)]) = dict_get k attrs).
    { intros k I. rewrite get_app. apply dict_mem_keys in I. unfold dict_mem in I. now destruct (dict_get k attrs). }
    assert (GN : forall k, ~ In k (keys attrs) -> dict_get k (attrs ++ [(py "extra_params", VDict []); (POST_INIT, VInt 1); (py "extra", VObj 3 0)]) =
       dict_get k [(py "extra_params", VDict []); (POST_INIT, VInt 1); (py "extra", VObj 3 0)]).
    { intros k I. rewrite get_app. now rewrite (get_none _ _ I). }
    rewrite class_fields_keys in KA.
    constructor; cbn [o_cls o_attrs].
    + intros I. apply dict_mem_keys in I. rewrite I, andb_true_r in H0. apply orb_false_iff in H0 as [H0 H3]. apply orb_false_iff in H0 as [H1 H2].
      split; [now destruct b|]. split; [now destruct e|now destruct d].
    + intros k I. specialize (HN k). rewrite kw_full_keys, class_fields_keys in HN. destruct (HN (or_intror I)) as [<-|H]; [now left|now right].
    + reflexivity.
    + exists b', e', d'. split; [now apply dt_meant_iff|]. split; [now apply dt_meant_iff|]. split; [now apply td_meant_iff|].
      destruct (CA (py "timespan") span_field (or_introl eq_refl)) as (w & W1 & W2). exists w. split.
      * apply (pass_taken c KSpan span_field _ _ span_field_kind). unfold raw in W1. rewrite kw_full_span in W1. split; [exact W1|].
        exact (HL _ _ _ (or_introl eq_refl) W2).
      * rewrite GA, W2; [reflexivity|]. rewrite KA. now left.
    + intros k v K I HK. destruct (param_field c uid ds k v I) as (f & K' & F1 & F2 & F3 & F4).
      destruct (CA k f F1) as (w & W1 & W2). exists w. split.
      * assert (K' = K) as <- by (clear - F3 HK; revert F3 HK; apply has_kind_one).
        apply (pass_taken c K' f _ _ F4). rewrite raw_param in W1 by (now apply (param_not_span c uid ds k v)). rewrite F2 in W1. split; [exact W1|]. exact (HL _ _ _ F1 W2).
      * rewrite GA, W2; [reflexivity|]. rewrite KA. right. now apply (in_map fst) in I.
    + split; (rewrite GN; [reflexivity|]); rewrite KA; apply not_in; destruct c; reflexivity.
    + intros k N1 N2. rewrite GN; [|rewrite KA; intros [<-|I]; [apply N2; now left|now apply N1]]. apply get_none. cbn [keys map fst]. intros I. apply N2. cbn in I |- *. tauto.
  - destruct H as [HC HN Hcl (b' & e' & d' & Hb & He & Hd & w & W1 & W2) HP _ _].
    apply dt_meant_iff in Hb, He. apply td_meant_iff in Hd. unfold new. rewrite Hb, He, Hd. cbn [bind].
    assert (H0 : (match b with VNone => false | _ => true end || match e with VNone => false | _ => true end || match d with VNone => false | _ => true end) && dict_mem (py "timespan") kw = false).
    { destruct (dict_mem (py "timespan") kw) eqn:EM; [|apply andb_false_r]. apply dict_mem_keys, HC in EM as (-> & -> & ->). reflexivity. }
    rewrite H0. cbn [guard bind].
    assert (HV : validate E (mk_ts (span_kind c) b' e' d' PSecond) = Ok tt).
    { unfold given_or in W1. destruct (dict_get (py "timespan") kw) as [v|] eqn:EG.
      - assert (I : In (py "timespan") (keys kw)) by (apply dict_mem_keys; unfold dict_mem; now rewrite EG).
        apply HC in I as (-> & -> & ->). injection Hb as <-. injection He as <-. injection Hd as <-. now destruct c.
      - apply (pass_taken c KSpan span_field _ _ span_field_kind) in W1 as [Q1 Q2]. injection Q1 as <-. cbn in Q2. now apply bind_guard in Q2 as [_ Q2]. }
    unfold make. rewrite HV. cbn [bind]. fold (kw_full c kw b' e' d').
    assert (HK : forallb (fun kv => existsb (fun f => str_eqb (fst kv) (fst f)) (class_fields E utc c uid ds)) (kw_full c kw b' e' d') = true).
    { apply known_spec. intros k I. apply kw_full_keys in I. rewrite class_fields_keys. destruct I as [->|I]; [now left|]. destruct (HN k I) as [->|H]; [now left|now right]. }
    rewrite HK. cbn [negb guard bind].
    assert (PF : forall k f, In (k, f) (class_fields E utc c uid ds) -> exists w, fl_conv f (raw (kw_full c kw b' e' d') k f) = Ok w /\ fl_valid f c w = Ok tt).
    { intros k f I. destruct (field_param c uid ds k f I) as [[-> ->]|IP].
      - exists w. unfold raw. rewrite kw_full_span. exact (proj1 (pass_taken c KSpan span_field _ _ span_field_kind) W1).
      - destruct (param_field c uid ds k _ IP) as (f' & K & F1 & _ & F3 & F4).
        assert (f' = f). { pose proof (dict_get_In_nodup _ k f (class_fields_nodup c uid ds) I). pose proof (dict_get_In_nodup _ k f' (class_fields_nodup c uid ds) F1). congruence. }
        subst f'. destruct (HP k _ K IP F3) as (x & X1 & _). exists x. rewrite raw_param by (now apply (param_not_span c uid ds k (fl_default f))). now apply (pass_taken c K f _ _ F4). }
    destruct (convert_all_ok (class_fields E utc c uid ds) (kw_full c kw b' e' d')) as (attrs & HA).
    { intros k f I. destruct (PF k f I) as (x & X & _). now exists x. }
    rewrite HA. cbn [bind].
    assert (HL : validate_all c (class_fields E utc c uid ds) attrs = Ok tt).
    { apply validate_all_spec. intros k f x I HX. destruct (convert_all_spec _ _ _ (class_fields_nodup c uid ds) HA) as [_ CA].
      destruct (CA k f I) as (y & Y1 & Y2). destruct (PF k f I) as (z & Z1 & Z2). congruence. }
    rewrite HL. cbn [bind]. now eexists.
Qed.
End New.
Lemma free_assign E utc o k v : reachable E utc o -> In k [py "summary"; py "uid"; py "description"; py "location"; py "url"] ->
  run E utc (OSet k v) o = (with_attr o k v, Ok tt).
Proof.
  intros HR I. assert (NS : ~ In k (special (o_cls o)) /\ ~ In k (map fst (kinds (o_cls o)))).
  { destruct I as [<-|[<-|[<-|[<-|[<-|[]]]]]]; (split; apply not_in; destruct (o_cls o); reflexivity). }
  apply (assign_exact E utc o k v _ _ HR (proj1 NS)). exists KFree, (Ok v). split; [right; split; [reflexivity|exact (proj2 NS)]|]. split; [constructor|reflexivity].
Qed.
Lemma add_attendee_exact E utc o v l : reachable E utc o -> o_cls o = CEvent -> dict_get (py "attendees") (o_attrs o) = Some (VList l) ->
  run E utc (OAddAttendee v) o = after o (py "attendees") (match v with VObj 2 _ => Ok (VList (l ++ [v])) | _ => Err TypeError end).
Proof.
  intros _ HC HL. cbn [run]. unfold add_attendee. rewrite HC. destruct v as [| | | | | | | | |c n| |]; try reflexivity.
  destruct c as [|[c|[c|c|]|]]; try reflexivity. unfold mbind, load. rewrite HL. reflexivity.
Qed.
Lemma add_attendee_todo E utc o v : o_cls o = CTodo -> run E utc (OAddAttendee v) o = (o, Err AttributeError).
Proof. intros HC. cbn [run]. unfold add_attendee. now rewrite HC. Qed.
