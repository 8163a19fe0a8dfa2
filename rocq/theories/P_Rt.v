(** * Proofs: values survive writing and reading *)
From Verif Require Import M_Base M_Text M_Line M_Codec M_Cal M_Time M_Span M_Dt M_Tree M_Comp.
From Verif Require Import S_Text S_Codec S_Dt S_Tree S_Comp S_Line P_Base P_Text P_Codec P_Dt P_Comp P_Frame P_Multi S_Store.
From Coq Require Import Lia ZifyBool ZifyNat ZifyN.
Open Scope N_scope.

(** ** Parameters up to quoting *)
Lemma strs_app p q : strs (p ++ q) = strs p ++ strs q. Proof. apply map_app. Qed.
Lemma dict_get_strs k p : dict_get k (strs p) = option_map (map pval_str) (dict_get k p).
Proof. induction p as [|[k2 v] p IH]; cbn; [easy|]. destruct (str_eqb k k2); [easy|exact IH]. Qed.
Lemma dict_del_strs k p : dict_del k (strs p) = strs (dict_del k p).
Proof. induction p as [|[k2 v] p IH]; cbn; [easy|]. destruct (str_eqb k k2); cbn; [exact IH || easy|]. f_equal. exact IH. Qed.
Lemma dict_set_strs k v p : strs (dict_set k v p) = dict_set k (map pval_str v) (strs p).
Proof. induction p as [|[k2 w] p IH]; cbn; [easy|]. destruct (str_eqb k k2); cbn; [easy|]. f_equal. exact IH. Qed.
Lemma strs_nil p : strs p = [] -> p = []. Proof. now destruct p. Qed.
Lemma strs_keys p q : strs p = strs q -> keys p = keys q.
Proof. intro H. rewrite <- (keys_strs p), H. apply keys_strs. Qed.
Lemma strs_get k p q : strs p = strs q -> option_map (map pval_str) (dict_get k p) = option_map (map pval_str) (dict_get k q).
Proof. intro H. now rewrite <- !dict_get_strs, H. Qed.
Lemma strs_get_None k p q : strs p = strs q -> dict_get k q = None -> dict_get k p = None.
Proof. intros H E. pose proof (strs_get k _ _ H) as G. rewrite E in G. now destruct (dict_get k p). Qed.
Lemma strs_del k p q : strs p = strs q -> strs (dict_del k p) = strs (dict_del k q).
Proof. intro H. now rewrite <- !dict_del_strs, H. Qed.
Lemma strs_set k v w p q : strs p = strs q -> map pval_str v = map pval_str w -> strs (dict_set k v p) = strs (dict_set k w q).
Proof. intros H E. now rewrite !dict_set_strs, H, E. Qed.
Lemma strs_raw l : map pval_str (raw l) = l.
Proof. unfold raw. rewrite map_map. cbn. apply map_id. Qed.

(** ** Zones *)
Section Rt.
Variable X : ext.
Hypothesis UE : utc_env X.
Notation D := (x_zdb X).
Notation resolves := (resolves X).

Definition zext (a b : zones) : Prop := forall id z, resolves a id z -> resolves b id z.
Lemma zext_refl a : zext a a. Proof. easy. Qed.
Lemma zext_trans a b c : zext a b -> zext b c -> zext a c. Proof. unfold zext. auto. Qed.

Lemma find_zone_ok id z : find_zone D id = Ok z <->
  z_from_tzid D id = Ok z \/ z_from_tzid D id = Err ValueError /\ z_gettz D id = Some z.
Proof.
  unfold find_zone. destruct (z_from_tzid D id) as [z1|[]]; split; intro H; try discriminate; try tauto;
    try (destruct H as [H|[H1 H2]]; discriminate || congruence).
  - destruct (z_gettz D id); [|discriminate]. right. split; [easy|congruence].
  - destruct H as [H|[_ H]]; [discriminate|]. now rewrite H.
Qed.
Lemma read_zone_ok zs id z : resolves zs id z -> exists zs', read_zone D id (Some zs) = Ok (z, Some zs') /\ zext zs zs'.
Proof.
  unfold S_Store.resolves. intros [H|[H F]]; unfold read_zone.
  - rewrite H. exists zs. split; [easy|apply zext_refl].
  - rewrite H. apply find_zone_ok in F. rewrite F. cbn [bind]. eexists. split; [reflexivity|].
    intros i y R. destruct (list_eq_dec N.eq_dec id i) as [<-|NE].
    + left. rewrite dict_get_set_same. destruct R as [R|[_ R]]; [congruence|]. apply find_zone_ok in R. congruence.
    + unfold S_Store.resolves in *. now rewrite dict_get_set_other by easy.
Qed.

Lemma wrote_refl zs : wrote (fun _ _ _ => False) zs zs.
Proof. repeat split; auto. Qed.
Lemma wrote_nouse (U : list N -> tz -> tz -> Prop) zs : (forall id z z', ~ U id z z') -> wrote U zs zs.
Proof. intro H. repeat split; auto. intros id z z' HU. now apply H in HU. Qed.
Lemma wrote_trans (U V W : list N -> tz -> tz -> Prop) a b c : wrote U a b -> wrote V b c ->
  (forall id z z', W id z z' <-> U id z z' \/ V id z z') -> wrote W a c.
Proof.
  intros (A1 & A2 & A3) (B1 & B2 & B3) E. repeat split; auto.
  - intros id z z' HW. apply E in HW as [HU|HV]; [|eauto]. apply A2 in HU.
    destruct (dict_get id b) eqn:G; [|easy]. apply B1 in G. congruence.
  - intros id z' G. apply B3 in G as [G|(z & HV)]; [|right; exists z; apply E; tauto].
    apply A3 in G as [G|(z & HU)]; [tauto|]. right. exists z. apply E. tauto.
Qed.
Lemma wrote_ext (U V : list N -> tz -> tz -> Prop) a b : wrote U a b -> (forall id z z', V id z z' <-> U id z z') -> wrote V a b.
Proof.
  intros (A1 & A2 & A3) E. repeat split; auto.
  - intros id z z' H. apply E in H. eauto.
  - intros id z' G. apply A3 in G as [G|(z & H)]; [tauto|]. right. exists z. now apply E.
Qed.

(** ** Date-times *)
Definition TZID : list N := py "TZID".
(** The parameters written for a date-time. *)
Definition dt_params (d : datetime) (q1 q2 : xp) : Prop :=
  match dtz d with
  | None => q2 = q1
  | Some z => if z_is_utc D z then q2 = q1 else exists id z', dt_uses X d id z z' /\ id <> [] /\ q2 = dict_set TZID (raw [id]) q1
  end.
Definition uses_of (l : list datetime) (id : list N) (z z' : tz) : Prop := exists d, In d l /\ dt_uses X d id z z'.

Lemma parse_zone w t F ps zs : strptime F (fmt_datetime w) = Ok w -> t <> [] -> dict_get TZID ps = Some [t] ->
  parse_dt D F (fmt_datetime w) ps zs =
  do (z, zs') <- read_zone D t zs; Ok (mk_dt w false (Some z), dict_del TZID ps, zs').
Proof.
  intros HS Ht HG. unfold parse_dt, pop_tzid. fold TZID. rewrite HG. cbn [bind].
  destruct (rev (fmt_datetime w)) as [|c r] eqn:ER.
  { assert (E := f_equal (@length N) ER). rewrite rev_length in E. pose proof (fmt_datetime_nonempty w).
    destruct (fmt_datetime w); easy. }
  rewrite strip_unmarked, plain_unmarked by apply plain_datetime. rewrite HS. cbn [bind].
  apply rev_cons_app in ER. pose proof (plain_datetime w) as HP. rewrite ER in HP.
  apply Forall_app in HP as [_ HP]. inversion HP as [|? ? Hc]; subst.
  destruct (N.eqb (upper_char c) 90) eqn:EZ.
  { apply upper_Z in EZ. destruct EZ as [-> | ->]; discriminate. }
  destruct t; [easy|]. reflexivity.
Qed.

Lemma dt_rt d (q1 : xp) : storable_dt X d -> exists s q2, dt_params d q1 q2 /\
  (forall zs, exists zs', dt_serialize X d q1 zs = Ok (s, q2, zs') /\ wrote (uses_of [d]) zs zs') /\
  (forall Q rzs, (forall id z z', dt_uses X d id z z' -> id <> [] ->
        resolves rzs id z /\ option_map (map pval_str) (dict_get TZID Q) = Some [id]) ->
     ((forall id z z', ~ dt_uses X d id z z') -> dict_get TZID Q = None) ->
     exists d' rzs', dt_parse X FDatetime s Q rzs = Ok (d', dict_del TZID Q, rzs') /\ eq_dt X d d' /\ zext rzs rzs').
Proof.
  destruct d as [w f oz]. intros (Hf & Hw & Hs & Hy & Hz). cbn [dtz wall fold] in *. subst f. unfold dt_params. cbn [dtz].
  assert (HS : strptime FDatetime (fmt_datetime w) = Ok w) by now apply fmt_datetime_strptime.
  destruct oz as [z|].
  - destruct (z_is_utc D z) eqn:EU.
    + assert (NU : forall id y y', ~ dt_uses X (mk_dt w false (Some z)) id y y').
      { intros id y y' (E1 & E2 & _). cbn in E1. congruence. }
      exists (fmt_datetime w ++ py "Z"), q1. split; [easy|]. split.
      * intro zs. exists zs. unfold dt_serialize, serialize_dt. cbn [dtz wall]. change (z_is_utc (M_Comp.D X) z) with (z_is_utc D z). rewrite EU. cbn [bind]. split; [reflexivity|].
        apply wrote_nouse. intros id y y' (d & [<-|[]] & HU). now apply NU in HU.
      * intros Q rzs _ HN. specialize (HN NU). exists (mk_dt w false (Some (z_utc D))), rzs. split; [|split; [|apply zext_refl]].
        -- unfold dt_parse. destruct (rt_utc D w false z (strs Q) (Some rzs) Hw Hs Hy) as (s & E1 & E2); [unfold no_tzid; rewrite dict_get_strs; unfold TZID in HN; now rewrite HN|easy|].
           unfold datetime_serialize, serialize_dt in E1. cbn [dtz wall] in E1. rewrite EU in E1. injection E1 as <-.
           unfold datetime_parse in E2. change (M_Comp.D X) with D. rewrite E2. reflexivity.
        -- split; [easy|]. split; [easy|]. right. unfold utc. cbn. split; [easy|]. apply UE.
    + destruct Hz as [Hz|(id & z' & HU & Hid)]; [congruence|].
      exists (fmt_datetime w), (dict_set TZID (raw [id]) q1). split; [eauto|]. pose proof HU as (_ & _ & HF). split.
      * intro zs. unfold dt_serialize, serialize_dt. cbn [dtz wall]. change (M_Comp.D X) with D. rewrite EU. unfold write_zone. rewrite HF. cbn [bind].
        eexists. split; [reflexivity|]. repeat split.
        -- intros i y G. destruct (dict_get id zs) eqn:E; [easy|]. rewrite dict_get_set_other; [easy|congruence].
        -- intros i y y' (d & [<-|[]] & (E1 & _ & E2)). cbn [dtz] in E1. injection E1 as <-. rewrite HF in E2. injection E2 as <- <-.
           destruct (dict_get id zs) eqn:E; [congruence|]. now rewrite dict_get_set_same.
        -- intros i y G. destruct (dict_get id zs) eqn:E; [tauto|]. destruct (list_eq_dec N.eq_dec id i) as [<-|NE].
           ++ rewrite dict_get_set_same in G. injection G as <-. right. exists z. eexists. split; [now left|exact HU].
           ++ rewrite dict_get_set_other in G by easy. tauto.
      * intros Q rzs HR _. destruct (HR _ _ _ HU Hid) as (R & G). apply read_zone_ok in R as (rzs' & R & ZE).
        exists (mk_dt w false (Some z)), rzs'. split; [|split; [|exact ZE]].
        -- unfold dt_parse. change (M_Comp.D X) with D. rewrite parse_zone with (t := id); [|easy|easy|now rewrite dict_get_strs]. rewrite R. reflexivity.
        -- split; [easy|]. split; [easy|]. now left.
  - assert (NU : forall id y y', ~ dt_uses X (mk_dt w false None) id y y') by (intros id y y' (E1 & _); discriminate).
    exists (fmt_datetime w), q1. split; [easy|]. split.
    + intro zs. exists zs. split; [reflexivity|]. apply wrote_nouse. intros id y y' (d & [<-|[]] & HU). now apply NU in HU.
    + intros Q rzs _ HN. specialize (HN NU). exists (mk_dt w false None), rzs. split; [|split; [|apply zext_refl]].
      * unfold dt_parse. destruct (rt_naive D w false (strs Q) (Some rzs) Hw Hs Hy) as (s & E1 & E2); [unfold no_tzid; rewrite dict_get_strs; unfold TZID in HN; now rewrite HN|].
        unfold datetime_serialize, serialize_dt in E1. cbn [dtz wall] in E1. injection E1 as <-. unfold datetime_parse in E2. change (M_Comp.D X) with D. rewrite E2. reflexivity.
      * repeat split. now left.
Qed.

(** ** Values *)
Definition good_types (types : list vconv) : Prop := NoDup types /\ ~ (In Int types /\ In Bool types).
Lemma isinst_storable t v : storable_val X t v -> isinst t v = true.
Proof. intro K. now destruct K. Qed.
Lemma isinst_only t v t' : storable_val X t v -> isinst t' v = true -> t' = t \/ t = Bool /\ t' = Int.
Proof. intros K H. destruct K, t'; try discriminate; tauto. Qed.
Lemma ics_type_inj a b : ics_type a = ics_type b -> a = b.
Proof. destruct a, b; try reflexivity; intro H; vm_compute in H; discriminate. Qed.
Lemma find_conv_rest types t v q : In t types -> ~ (In Int types /\ In Bool types) -> storable_val X t v ->
  find_conv false types v q = Ok (t, dict_set VALUE (raw [ics_type t]) q).
Proof.
  induction types as [|a types IH]; [easy|]. intros HI HB HV. cbn [find_conv]. destruct (isinst a v) eqn:EI.
  - destruct (isinst_only _ _ _ HV EI) as [->|[-> ->]]; [easy|]. exfalso. apply HB. split; [now left|easy].
  - destruct HI as [->|HI]; [apply isinst_storable in HV; congruence|]. apply IH; auto. intros [A B]. apply HB. split; now right.
Qed.
Lemma find_conv_first types t v q : In t types -> good_types types -> storable_val X t v ->
  find_conv true types v q = Ok (t, match types with a :: _ => if str_eqb (ics_type a) (ics_type t) then q else dict_set VALUE (raw [ics_type t]) q | [] => q end).
Proof.
  destruct types as [|a types]; [easy|]. intros HI [HN HB] HV. cbn [find_conv]. destruct (isinst a v) eqn:EI.
  - destruct (isinst_only _ _ _ HV EI) as [->|[-> ->]]; [now rewrite str_eqb_refl|]. exfalso. apply HB. split; [now left|easy].
  - destruct HI as [->|HI]; [apply isinst_storable in HV; congruence|].
    replace (str_eqb (ics_type a) (ics_type t)) with false.
    + apply find_conv_rest; auto. intros [A B]. apply HB. split; now right.
    + symmetry. apply str_eqb_neq. intro E. apply ics_type_inj in E. subst. inversion HN; auto.
Qed.
Lemma find_type types t s : In t types -> s = ics_type t ->
  find (fun c => str_eqb (ics_type c) s) types = Some t.
Proof.
  intros HI ->. induction types as [|a types IH]; [easy|]. cbn. destruct (str_eqb (ics_type a) (ics_type t)) eqn:E.
  - apply str_eqb_eq, ics_type_inj in E. now subst.
  - destruct HI as [->|HI]; [now rewrite str_eqb_refl in E|auto].
Qed.
(** The parameters as written, before the zone is added, and what reading makes of them. *)
Lemma prepare_plain types t (Q : xp) : nth_error types 0 = Some t -> dict_get VALUE Q = None ->
  prepare_params types Q = Ok (Q, t).
Proof.
  intros HT HG. unfold prepare_params. rewrite HG. destruct types as [|a types]; [easy|]. injection HT as ->.
  rewrite dict_del_new; [easy|]. now apply dict_get_None.
Qed.
Lemma prepare_typed types t (Q : xp) : In t types -> option_map (map pval_str) (dict_get VALUE Q) = Some [ics_type t] ->
  prepare_params types Q = Ok (dict_del VALUE Q, t).
Proof.
  intros HT HG. unfold prepare_params. destruct (dict_get VALUE Q) as [[|v [|? ?]]|]; try discriminate.
  injection HG as HG. now rewrite find_type with (t := t).
Qed.

(** Converters that leave the parameters alone. *)
Definition simple (t : vconv) : Prop := ~ is_person t /\ t <> Datetime.
Lemma simple_rt t v : storable_val X t v -> simple t -> exists s,
  (forall q zs, vserialize X t v q zs = Ok (s, q, zs)) /\ (forall Q zs, vparse X t s Q zs = Ok (v, Q, zs)).
Proof.
  unfold simple, is_person. intros [s|u H|b H|d H|d H|n|b|u p H H1 H2|u p H H1 H2|a b H1 H2 H3] [H4 H5]; try (exfalso; tauto).
  - exists (text_serialize s). split; [easy|]. intros. cbn [vparse]. now rewrite text_roundtrip.
  - exists (x_geturl X u). split; [easy|]. intros. cbn [vparse]. unfold storable_url in H. now rewrite H.
  - exists (binary_serialize b). split; [easy|]. intros. cbn [vparse]. now rewrite binary_roundtrip.
  - exists (duration_serialize d). split; [easy|]. intros. cbn [vparse]. destruct H as [HR HM]. rewrite duration_roundtrip_gen by tauto.
    cbn [bind]. apply Z.mod_divide in HM as [k ->]; [|easy]. now rewrite Z.quot_mul by easy.
  - exists (int_serialize n). split; [easy|]. intros. cbn [vparse]. now rewrite int_roundtrip.
  - exists (bool_serialize b). split; [easy|]. intros. cbn [vparse]. now rewrite bool_roundtrip.
  - exists (x_ffmt X a ++ py ";" ++ x_ffmt X b). split; [easy|]. intros. cbn [vparse]. unfold geo_parse.
    change (py ";") with [59]. cbn [app]. rewrite find_char_app_notin by easy. rewrite find_char_here. rewrite Nat.add_0_r.
    rewrite firstn_app, firstn_all, Nat.sub_diag, app_nil_r. cbn [bind]. rewrite H1. cbn [bind].
    rewrite skipn_app, skipn_all2 by lia. replace (S (length (x_ffmt X a)) - length (x_ffmt X a))%nat with 1%nat by lia.
    cbn [skipn app]. now rewrite H2.
Qed.
Definition typed (types : list vconv) (t : vconv) (q : xp) : xp :=
  match types with a :: _ => if str_eqb (ics_type a) (ics_type t) then q else dict_set VALUE (raw [ics_type t]) q | [] => q end.
Definition add_zone (o : option (list N)) (q : xp) : xp :=
  match o with Some id => dict_set TZID (raw [id]) q | None => q end.
Lemma keys_set_In {V} k (v : V) d j : In j (keys (dict_set k v d)) <-> j = k \/ In j (keys d).
Proof.
  rewrite !keys_dict_get. destruct (list_eq_dec N.eq_dec k j) as [<-|NE].
  - rewrite dict_get_set_same. split; [now left|discriminate].
  - rewrite dict_get_set_other by easy. intuition congruence.
Qed.
Lemma dict_del_mid {V} k (v : V) d e : ~ In k (keys d) -> dict_del k (d ++ [(k, v)] ++ e) = d ++ e.
Proof.
  induction d as [|[k2 v2] d IH]; cbn; intro H; [now rewrite str_eqb_refl|].
  destruct (str_eqb k k2) eqn:E; [apply str_eqb_eq in E; subst; exfalso; apply H; now left|].
  f_equal. apply IH. tauto.
Qed.
Lemma prepared types t (q Q : xp) o : In t types -> ~ In VALUE (keys q) -> ~ In TZID (keys q) \/ o = None ->
  strs Q = strs (add_zone o (typed types t q)) ->
  exists Q', prepare_params types Q = Ok (Q', t) /\ strs Q' = strs (add_zone o q).
Proof.
  intros HI HV HZ HQ. unfold typed in HQ. destruct types as [|a types]; [easy|].
  destruct (str_eqb (ics_type a) (ics_type t)) eqn:ET.
  - apply str_eqb_eq, ics_type_inj in ET. subst a. exists Q. split; [|easy]. apply prepare_plain; [easy|].
    apply (strs_get_None _ _ _ HQ). apply dict_get_None. destruct o; [|exact HV]. unfold add_zone. rewrite keys_set_In.
    intros [E|E]; [discriminate|contradiction].
  - exists (dict_del VALUE Q). split.
    + apply prepare_typed; [easy|]. rewrite (strs_get _ _ _ HQ). destruct o as [id|]; unfold add_zone.
      * rewrite dict_get_set_other by discriminate. now rewrite dict_get_set_same.
      * now rewrite dict_get_set_same.
    + rewrite (strs_del _ _ _ HQ). f_equal. rewrite dict_set_new by easy. destruct o as [id|]; unfold add_zone.
      * destruct HZ as [HZ|]; [|discriminate].
        rewrite dict_set_new, (dict_set_new TZID) by (unfold keys in *; try rewrite map_app, in_app_iff; cbn; intuition discriminate).
        rewrite <- app_assoc. now apply dict_del_mid.
      * now apply dict_del_app_new.
Qed.
Lemma dict_update_nil {V} (p : dict V) : NoDup (keys p) -> dict_update [] p = p.
Proof.
  unfold dict_update. assert (G : forall (a p : dict V), NoDup (keys (a ++ p)) -> fold_left (fun acc kv => dict_set (fst kv) (snd kv) acc) p a = a ++ p).
  { clear p. intros a p. revert a. induction p as [|[k v] p IH]; intros a H; cbn; [now rewrite app_nil_r|].
    assert (~ In k (keys a)) as NK.
    { unfold keys in *. rewrite map_app in H. cbn in H. apply NoDup_remove_2 in H. rewrite in_app_iff in H. tauto. }
    rewrite dict_set_new by easy. rewrite IH; [now rewrite <- app_assoc|]. now rewrite <- app_assoc. }
  intro H. now apply (G []).
Qed.
Definition value_written (types : list vconv) (t : vconv) (v : val) (q q1 Q2 : xp) (s : list N) : Prop :=
  find_conv true types v q = Ok (t, q1) /\
  (forall zs, exists zs', vserialize X t v q1 zs = Ok (s, Q2, zs') /\ wrote (uses_of (val_dts v)) zs zs').
Definition value_read (types : list vconv) (t : vconv) (v : val) (q Q2 : xp) (s : list N) : Prop :=
  forall Q rzs, strs Q = strs Q2 -> (forall id z z', uses_of (val_dts v) id z z' -> resolves rzs id z) ->
    exists Q' v' q' rzs', prepare_params types Q = Ok (Q', t) /\ vparse X t s Q' rzs = Ok (v', q', rzs') /\
      eq_val X v v' /\ strs q' = strs q /\ zext rzs rzs'.
Lemma eq_val_refl v : eq_val X v v.
Proof.
  assert (R : forall d, eq_dt X d d) by (intro d; repeat split; now left).
  assert (RO : forall o, eq_opt (eq_dt X) o o) by (intros []; cbn; auto).
  destruct v; cbn; auto. repeat split; auto.
Qed.
Lemma value_rt types t v (q : xp) : In t types -> good_types types -> storable_val X t v -> ~ In VALUE (keys q) ->
  (t = Datetime -> ~ In TZID (keys q)) -> (is_person t -> q = [] /\ types = [t]) ->
  exists s Q2, value_written types t v q (typed types t q) Q2 s /\ value_read types t v q Q2 s.
Proof.
  intros HI HT HV HQ HZ HP.
  assert (HF : find_conv true types v q = Ok (t, typed types t q)) by now apply find_conv_first.
  assert (CP : ~ is_person t /\ t <> Datetime \/ t = Datetime \/ is_person t) by (unfold is_person; destruct t; intuition discriminate).
  destruct CP as [S|[->|P]].
  - destruct (simple_rt t v HV S) as (s & W & R). exists s, (typed types t q). split; [split; [exact HF|]|].
    + intro zs. exists zs. split; [apply W|]. apply wrote_nouse. intros id z z' (d & Hd & _).
      destruct S as [_ S]. now destruct HV.
    + intros Q rzs HS _. destruct (prepared types t q Q None HI HQ (or_intror eq_refl) HS) as (Q' & E & EQ).
      exists Q', v, Q', rzs. split; [exact E|]. split; [apply R|]. split; [apply eq_val_refl|]. split; [exact EQ|apply zext_refl].
  - inversion HV as [| | |d Hd| | | | | |]; subst. destruct (dt_rt d (typed types Datetime q) Hd) as (s & Q2 & HD & W & R).
    exists s, Q2. split; [split; [exact HF|]|].
    + intro zs. exact (W zs).
    + intros Q rzs HS HU.
      assert (exists o, Q2 = add_zone o (typed types Datetime q) /\
        match o with Some id => id <> [] /\ exists z z', dt_uses X d id z z' | None => forall id z z', ~ dt_uses X d id z z' end) as (o & -> & HO).
      { unfold dt_params in HD. destruct (dtz d) as [z|] eqn:EZ.
        - destruct (z_is_utc D z) eqn:EU.
          + exists None. split; [exact HD|]. intros id y y' (E1 & E2 & _). congruence.
          + destruct HD as (id & z' & U & NE & ->). exists (Some id). split; [reflexivity|]. eauto.
        - exists None. split; [exact HD|]. intros id y y' (E1 & _). congruence. }
      destruct (prepared types Datetime q Q o HI HQ (or_introl (HZ eq_refl)) HS) as (Q' & E & EQ).
      destruct (R Q' rzs) as (d' & rzs' & EP & ED & ZE).
      * intros id z z' U NE. split; [apply (HU id z z'); exists d; cbn; tauto|]. rewrite (strs_get _ _ _ EQ).
        destruct o as [id2|]; [|exfalso; eapply HO; eauto]. destruct HO as (_ & y & y' & (A1 & A2 & A3)). destruct U as (B1 & B2 & B3).
        replace id2 with id in * by congruence. unfold add_zone. now rewrite dict_get_set_same.
      * intro HN. apply (strs_get_None _ _ _ EQ). destruct o as [id|]; [destruct HO as (_ & y & y' & U); now apply HN in U|].
        apply dict_get_None, HZ. reflexivity.
      * exists Q', (VDt d'), (dict_del TZID Q'), rzs'. split; [exact E|]. split; [cbn [vparse]; now rewrite EP|]. split; [exact ED|]. split; [|exact ZE].
        rewrite (strs_del _ _ _ EQ). f_equal. specialize (HZ eq_refl). destruct o; unfold add_zone; [rewrite dict_set_new by easy; now apply dict_del_app_new|now apply dict_del_new].
  - destruct (HP P) as [-> ->]. assert (typed [t] t [] = []) as HTy by (unfold typed; now rewrite str_eqb_refl). rewrite HTy in *.
    assert (NU : forall zs, wrote (uses_of (val_dts v)) zs zs).
    { intro zs. apply wrote_nouse. intros id z z' (d & Hd & _). destruct P as [-> | ->]; now inversion HV; subst. }
    destruct P as [-> | ->]; inversion HV as [| | | | | | |u p HU HN HVa|u p HU HN HVa|]; subst; (exists (x_geturl X u), p; split; [split; [exact HF|]|]).
    1,3: (intro zs; exists zs; cbn [vserialize]; rewrite dict_update_nil by easy; split; [reflexivity|apply NU]).
    all: (intros Q rzs HS _; eexists Q, _, [], rzs; split; [apply prepare_plain; [easy|]; apply (strs_get_None _ _ _ HS); now apply dict_get_None|];
      split; [cbn [vparse]; unfold person_parse; unfold storable_url in HU; rewrite HU; reflexivity|]; split; [cbn; auto|split; [easy|apply zext_refl]]).
Qed.
End Rt.
