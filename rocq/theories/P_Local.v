(** * Proofs: a converter sees only its own part of a component being read *)
From Verif Require Import M_Base M_Text M_Line M_Codec M_Cal M_Time M_Span M_Dt M_Tree M_Comp.
From Verif Require Import S_Comp S_Store S_Reorder P_Base P_Comp P_Frame P_Whole.
From Coq Require Import Lia ZifyBool ZifyNat ZifyN.
Open Scope N_scope.

Section Local.
Variable X : ext.

(** ** Zones: what an identifier stands for *)
Definition zget (zs : zones) (t : list N) : res tz :=
  match dict_get t zs with Some z => Ok z | None => find_zone (x_zdb X) t end.
Definition zeq (a b : zones) : Prop := forall t, zget a t = zget b t.
Lemma zeq_refl a : zeq a a. Proof. easy. Qed.
Lemma zeq_sym a b : zeq a b -> zeq b a. Proof. intros H t. now rewrite H. Qed.
Lemma zeq_trans a b c : zeq a b -> zeq b c -> zeq a c. Proof. intros H K t. now rewrite H. Qed.

Lemma read_zone_zget t zs : read_zone (x_zdb X) t (Some zs) =
  do z <- zget zs t; Ok (z, Some (match dict_get t zs with Some _ => zs | None => dict_set t z zs end)).
Proof. unfold read_zone, zget. destruct (dict_get t zs); [easy|]. now destruct (find_zone _ t). Qed.
Lemma zeq_set t z zs : zget zs t = Ok z -> zeq zs (match dict_get t zs with Some _ => zs | None => dict_set t z zs end).
Proof.
  intros H u. destruct (dict_get t zs) eqn:G; [easy|]. unfold zget in *. rewrite G in H. destruct (list_eq_dec N.eq_dec t u) as [<-|N].
  - now rewrite G, dict_get_set_same.
  - now rewrite dict_get_set_other.
Qed.

Lemma parse_dt_zones F s ps zs d ps' o : parse_dt (x_zdb X) F s ps (Some zs) = Ok (d, ps', o) ->
  exists zs1, o = Some zs1 /\ zeq zs zs1 /\
  forall zs2, zeq zs zs2 -> exists zs3, parse_dt (x_zdb X) F s ps (Some zs2) = Ok (d, ps', Some zs3) /\ zeq zs2 zs3.
Proof.
  unfold parse_dt. destruct (pop_tzid ps) as [tzid|]; [|discriminate]. cbn [bind]. destruct (rev s); [discriminate|].
  destruct (strptime _ _) as [w|]; [|discriminate]. cbn [bind]. destruct (_ =? 90), tzid as [t|]; try discriminate.
  - intros [= <- <- <-]. exists zs. split; [easy|]. split; [apply zeq_refl|]. intros zs2 _. exists zs2. split; [easy|apply zeq_refl].
  - rewrite read_zone_zget. destruct (zget zs t) as [z|] eqn:G; [|discriminate]. cbn [bind]. intros [= <- <- <-].
    eexists. split; [reflexivity|]. split; [now apply zeq_set|]. intros zs2 Z2. rewrite read_zone_zget, <- Z2, G. cbn [bind].
    eexists. split; [reflexivity|]. apply zeq_set. now rewrite <- Z2.
  - intros [= <- <- <-]. exists zs. split; [easy|]. split; [apply zeq_refl|]. intros zs2 _. exists zs2. split; [easy|apply zeq_refl].
Qed.
Lemma dt_parse_zones F s ps zs d ps' zs1 : dt_parse X F s ps zs = Ok (d, ps', zs1) -> zeq zs zs1 /\
  forall zs2, zeq zs zs2 -> exists zs3, dt_parse X F s ps zs2 = Ok (d, ps', zs3) /\ zeq zs2 zs3.
Proof.
  unfold dt_parse. change (M_Comp.D X) with (x_zdb X). intro H. unbind3 H. injection H as <- <- <-.
  apply parse_dt_zones in Ha as (z1 & -> & Z & K). split; [exact Z|]. intros zs2 Z2. destruct (K zs2 Z2) as (zs3 & -> & Z3).
  cbn [bind]. exists zs3. now split.
Qed.
Lemma vparse_zones c s ps zs v ps' zs1 : vparse X c s ps zs = Ok (v, ps', zs1) -> zeq zs zs1 /\
  forall zs2, zeq zs zs2 -> exists zs3, vparse X c s ps zs2 = Ok (v, ps', zs3) /\ zeq zs2 zs3.
Proof.
  destruct c; cbn [vparse]; intro H.
  4: { unbind3 H. injection H as <- <- <-. apply dt_parse_zones in Ha as [Z K]. split; [exact Z|]. intros zs2 Z2.
       destruct (K zs2 Z2) as (zs3 & -> & Z3). cbn [bind]. exists zs3. now split. }
  all: apply bind_Ok in H; destruct H as (r & Hr & H); try destruct r as [r1 r2]; injection H as <- <- <-; (split; [apply zeq_refl|]);
    intros zs2 Z2; rewrite Hr; cbn [bind]; exists zs2; (split; [reflexivity|apply zeq_refl]).
Qed.

(** ** States *)
Definition sc_eq (a b : spanctx) : Prop :=
  (forall n, In n (sc_seen a) <-> In n (sc_seen b)) /\ sc_begin a = sc_begin b /\ sc_end a = sc_end b /\
  sc_dur a = sc_dur b /\ sc_prec a = sc_prec b /\ sc_end_name a = sc_end_name b.
Lemma sc_eq_refl a : sc_eq a a. Proof. repeat split; auto. Qed.
Lemma sc_eq_sym a b : sc_eq a b -> sc_eq b a.
Proof. intros (H & ? & ? & ? & ? & ?). repeat split; auto; apply H. Qed.
Lemma sc_eq_trans a b c : sc_eq a b -> sc_eq b c -> sc_eq a c.
Proof. intros (H & ? & ? & ? & ? & ?) (K & ? & ? & ? & ? & ?). repeat split; try congruence; intro; [apply K, H|apply H, K]; auto. Qed.

Section Load.
Variable M : Type.
Variable RM : M -> M -> Prop.
Hypothesis RM_refl : forall x, RM x x.
Hypothesis RM_sym : forall x y, RM x y -> RM y x.
Hypothesis RM_trans : forall x y z, RM x y -> RM y z -> RM x z.
Variable load_m : mkind -> list N -> list item -> zones -> res (M * zones).
(** Items that are read in the same way. *)
Variable IS : item -> item -> Prop.
Hypothesis IS_line : forall l it, IS (ILine l) it -> it = ILine l.
Hypothesis IS_cont : forall n l it, IS (ICont n l) it -> exists l', it = ICont n l'.
Hypothesis load_zeq : forall k n l zs x zs1, load_m k n l zs = Ok (x, zs1) -> zeq zs zs1.
Hypothesis load_same : forall k n l l' zs zs' x zs1, IS (ICont n l) (ICont n l') -> zeq zs zs' ->
  load_m k n l zs = Ok (x, zs1) -> exists x' zs1', load_m k n l' zs' = Ok (x', zs1') /\ RM x x'.
Notation lst := (lst M).

Definition eq_mem (a b : option (list M)) : Prop := eq_opt (Forall2 RM) a b.
Lemma F2_refl l : Forall2 RM l l. Proof. induction l; constructor; auto. Qed.
Lemma F2_sym l l' : Forall2 RM l l' -> Forall2 RM l' l. Proof. induction 1; constructor; auto. Qed.
Lemma F2_trans l l' l'' : Forall2 RM l l' -> Forall2 RM l' l'' -> Forall2 RM l l''.
Proof. intro H. revert l''. induction H; intros l'' K; inversion K; subst; constructor; eauto. Qed.
Lemma eq_mem_refl a : eq_mem a a. Proof. destruct a; cbn; auto using F2_refl. Qed.
Lemma eq_mem_sym a b : eq_mem a b -> eq_mem b a. Proof. destruct a, b; cbn; auto using F2_sym. Qed.
Lemma eq_mem_trans a b c : eq_mem a b -> eq_mem b c -> eq_mem a c.
Proof. destruct a, b, c; cbn; try easy. apply F2_trans. Qed.

(** The two states agree on what belongs to converter [a]. *)
Record loc (a : aconv) (s t : lst) : Prop := mk_loc {
  lo_cls : c_cls (l_comp s) = c_cls (l_comp t);
  lo_attr : dict_get (a_attr a) (c_attrs (l_comp s)) = dict_get (a_attr a) (c_attrs (l_comp t));
  lo_par : forall k, In k (pkeys a) -> dict_get k (c_params (l_comp s)) = dict_get k (c_params (l_comp t));
  lo_mem : eq_mem (dict_get (a_attr a) (c_mem (l_comp s))) (dict_get (a_attr a) (c_mem (l_comp t)));
  lo_count : dict_get (a_attr a) (l_count s) = dict_get (a_attr a) (l_count t);
  lo_span : is_span a = true -> sc_eq (l_span s) (l_span t);
  lo_zones : zeq (l_zones s) (l_zones t)
}.
Lemma loc_refl a s : loc a s s. Proof. split; auto using eq_mem_refl, sc_eq_refl, zeq_refl. Qed.
Lemma loc_sym a s t : loc a s t -> loc a t s.
Proof. intros []. split; auto using eq_mem_sym, sc_eq_sym, zeq_sym. intros. symmetry. auto. Qed.
Lemma loc_trans a s t u : loc a s t -> loc a t u -> loc a s u.
Proof.
  intros [A1 A2 A3 A4 A5 A6 A7] [B1 B2 B3 B4 B5 B6 B7]. split.
  - congruence.
  - congruence.
  - intros k Hk. rewrite A3; auto.
  - eapply eq_mem_trans; eauto.
  - congruence.
  - intros. eapply sc_eq_trans; eauto.
  - eapply zeq_trans; eauto.
Qed.

(** Another converter does not change it. *)
Lemma loc_off a b s s' : indep a b -> off M a s s' -> c_cls (l_comp s') = c_cls (l_comp s) -> zeq (l_zones s) (l_zones s') -> loc b s s'.
Proof.
  intros (I1 & I2 & I3) [OA _ OP OM _ OC OS] HC HZ. split; auto.
  - symmetry. apply OA. congruence.
  - intros k Hk. symmetry. apply OP. intro Ha. now apply (I2 k).
  - rewrite OM by (left; congruence). apply eq_mem_refl.
  - symmetry. apply OC. congruence.
  - intro Hb. destruct I3 as [I3|I3]; [|congruence]. rewrite (OS I3). apply sc_eq_refl.
Qed.

(** ** One converter *)
Lemma get_attr_loc a (s t : lst) : loc a s t -> get_attr (a_attr a) (l_comp s) = get_attr (a_attr a) (l_comp t).
Proof. intro L. unfold get_attr. now rewrite (lo_attr _ _ _ L). Qed.
Lemma count_loc a (s t : lst) : loc a s t -> count (a_attr a) s = count (a_attr a) t.
Proof. intro L. unfold count. now rewrite (lo_count _ _ _ L). Qed.
Lemma store_get key p (c : comp M) k : dict_get k (c_params (store_params key p c)) =
  match p with [] => dict_get k (c_params c) | _ => if str_eqb k key then Some (XOne p) else dict_get k (c_params c) end.
Proof.
  destruct p as [|kv p]; [easy|]. cbn [store_params c_params set_params]. destruct (str_eqb k key) eqn:Hk.
  - apply str_eqb_eq in Hk as ->. apply dict_get_set_same.
  - apply str_eqb_neq in Hk. apply dict_get_set_other. congruence.
Qed.

Lemma single_loc a convs r s cl st t st' : a_kind a = KVal convs false r s -> loc a st t ->
  populate_single X a convs s cl st = Ok st' ->
  exists t', populate_single X a convs s cl t = Ok t' /\ loc a st' t' /\ zeq (l_zones st) (l_zones st').
Proof.
  intros K L. unfold populate_single. rewrite <- (count_loc a st t L). destruct (Nat.ltb _ _); [discriminate|]. intro H.
  unbind2 H. rename b into c. rewrite Ha. unbind3 H. unbind H. injection H as <-. cbn [bind].
  apply vparse_zones in Ha0 as [Z ZK]. destruct (ZK (l_zones t) (lo_zones _ _ _ L)) as (z3 & -> & Z3). cbn [bind]. rewrite Ha1. cbn [bind].
  eexists. split; [reflexivity|]. split; [|exact Z].
  pose proof (store_frame M (a_key a) b (l_comp st)) as (F1 & F2 & F3 & F4 & F5).
  pose proof (store_frame M (a_key a) b (l_comp t)) as (G1 & G2 & G3 & G4 & G5).
  destruct L. split; cbn [l_comp l_count l_span l_zones c_cls c_attrs c_params c_mem set_attrs].
  - congruence.
  - now rewrite !dict_get_set_same.
  - intros k Hk. rewrite !store_get. rewrite lo_par0 by easy. reflexivity.
  - now rewrite F4, G4.
  - now rewrite !dict_get_set_same.
  - exact lo_span0.
  - eapply zeq_trans; [apply zeq_sym, Z|]. eapply zeq_trans; [exact lo_zones0|exact Z3].
Qed.

Lemma append_params_loc a p (c c1 d : comp M) : append_params (a_key a) p c = Ok c1 ->
  dict_get (a_key a) (c_params c) = dict_get (a_key a) (c_params d) ->
  exists d1, append_params (a_key a) p d = Ok d1 /\ dict_get (a_key a) (c_params c1) = dict_get (a_key a) (c_params d1).
Proof.
  unfold append_params. intros H <-. destruct (dict_get (a_key a) (c_params c)) as [[q|l]|]; [discriminate| |]; injection H as <-;
    (eexists; split; [reflexivity|]); cbn [c_params set_params]; now rewrite !dict_get_set_same.
Qed.
Lemma append_value_loc a v (c c1 d : comp M) : append_value a v c = Ok c1 ->
  dict_get a (c_attrs c) = dict_get a (c_attrs d) ->
  exists d1, append_value a v d = Ok d1 /\ dict_get a (c_attrs c1) = dict_get a (c_attrs d1).
Proof.
  unfold append_value, get_attr. intros H <-. destruct (dict_get a (c_attrs c)) as [[|v0|l]|]; try discriminate; injection H as <-;
    (eexists; split; [reflexivity|]); cbn [c_attrs set_attrs]; now rewrite !dict_get_set_same.
Qed.
Lemma values_loc a c convs r s vals : a_kind a = KVal convs true r s -> forall ps st t st', loc a st t ->
  populate_values X a c vals ps st = Ok st' ->
  exists t', populate_values X a c vals ps t = Ok t' /\ loc a st' t' /\ zeq (l_zones st) (l_zones st').
Proof.
  intro K. assert (PK : forall k, In k (pkeys a) <-> k = a_key a) by (intro k; unfold pkeys; rewrite K; cbn; intuition).
  induction vals as [|w vals IH]; intros ps st t st' L H; cbn [populate_values] in *.
  { injection H as <-. exists t. split; [easy|]. split; [exact L|apply zeq_refl]. }
  unbind3 H. unbind H. unbind H.
  match goal with A : append_params _ _ _ = Ok ?c1, V : append_value _ _ ?c1 = Ok ?c2, P : vparse _ _ _ _ _ = Ok _ |- _ =>
    rename A into HA; rename V into HV; rename P into HP; rename c1 into e1; rename c2 into e2 end.
  apply vparse_zones in HP as [Z ZK]. destruct (ZK (l_zones t) (lo_zones _ _ _ L)) as (z3 & -> & Z3). cbn [bind].
  destruct (append_params_loc a _ _ _ (l_comp t) HA) as (d1 & HD & PA); [apply L, PK; reflexivity|]. rewrite HD. cbn [bind].
  pose proof (append_params_frame _ _ _ _ _ HA) as (A1 & A2 & A3 & A4 & A5).
  pose proof (append_params_frame _ _ _ _ _ HD) as (D1 & D2 & D3 & D4 & D5).
  destruct (append_value_loc (a_attr a) _ _ _ d1 HV) as (d2 & HW & VA); [rewrite A5, D5; apply L|]. rewrite HW. cbn [bind].
  pose proof (append_value_frame _ _ _ _ _ HV) as (V1 & V2 & V3 & V4 & V5).
  pose proof (append_value_frame _ _ _ _ _ HW) as (W1 & W2 & W3 & W4 & W5).
  rewrite <- (count_loc a st t L).
  eapply IH in H as (t' & HT & LT & ZT); [exists t'; split; [exact HT|]; split; [exact LT|]|].
  - eapply zeq_trans; [exact Z|exact ZT].
  - destruct L. split; cbn [l_comp l_count l_span l_zones].
    + congruence.
    + exact VA.
    + intros k Hk. apply PK in Hk as ->. now rewrite V5, W5.
    + now rewrite V4, W4, A4, D4.
    + now rewrite !dict_get_set_same.
    + exact lo_span0.
    + eapply zeq_trans; [apply zeq_sym, Z|]. eapply zeq_trans; [exact lo_zones0|exact Z3].
Qed.
Lemma multi_loc a convs r s cl st t st' : a_kind a = KVal convs true r s -> loc a st t ->
  populate_multi X a convs cl st = Ok st' ->
  exists t', populate_multi X a convs cl t = Ok t' /\ loc a st' t' /\ zeq (l_zones st) (l_zones st').
Proof.
  unfold populate_multi. intros K L H. unbind2 H. rewrite Ha. cbn [bind]. unbind H. rewrite Ha0. cbn [bind]. eapply values_loc; eauto.
Qed.

Lemma existsb_ext (n : list N) l l' : (forall m, In m l <-> In m l') -> existsb (str_eqb n) l = existsb (str_eqb n) l'.
Proof.
  intro H. destruct (existsb (str_eqb n) l) eqn:A; symmetry.
  - apply existsb_str, H, existsb_str, A.
  - apply not_true_is_false. intro B. apply existsb_str, H, existsb_str in B. congruence.
Qed.
(** The value of a DTSTART, DTEND or DUE line. *)
Definition span_value (cl : content_line) (zs : zones) : res (prec * datetime * xp * zones) :=
  let vt := match dict_get VALUE (cl_params cl) with Some l => map pval_str l | None => [py "DATE-TIME"] end in
  let ps1 := dict_del VALUE (cl_params cl) in
  if list_eq_dec (list_eq_dec N.eq_dec) vt [py "DATE-TIME"] then
    do (d, ps2, zs) <- dt_parse X FDatetime (cl_value cl) ps1 zs; Ok (PSecond, d, ps2, zs)
  else if list_eq_dec (list_eq_dec N.eq_dec) vt [py "DATE"] then
    do (d, ps2, zs) <- dt_parse X FDate (cl_value cl) ps1 zs;
    Ok (PDay, mk_dt (wall d - wall d mod US_DAY)%Z false None, ps2, zs)
  else Err ValueError.
Lemma span_value_zones cl zs p d q zs1 : span_value cl zs = Ok (p, d, q, zs1) -> zeq zs zs1 /\
  forall zs2, zeq zs zs2 -> exists zs3, span_value cl zs2 = Ok (p, d, q, zs3) /\ zeq zs2 zs3.
Proof.
  unfold span_value. destruct (list_eq_dec _ _ [py "DATE-TIME"]) as [_|_]; [|destruct (list_eq_dec _ _ [py "DATE"]) as [_|_]; [|discriminate]].
  all: intro H; unbind3 H; injection H as <- <- <- <-; apply dt_parse_zones in Ha as [Z K]; (split; [exact Z|]);
    intros zs2 Z2; destruct (K zs2 Z2) as (zs3 & -> & Z3); cbn [bind]; exists zs3; now split.
Qed.
(** What a line of a span does to the data of the span, and the parameters it leaves. *)
Definition span_step (cl : content_line) (sc : spanctx) (zs : zones) : res (list N * xp * spanctx * zones) :=
  let name := cl_name cl in
  if existsb (str_eqb name) (sc_seen sc) then Err ValueError
  else
    let seen := sc_seen sc ++ [name] in
    if str_eqb name (py "DURATION") then
      do d <- duration_parse (cl_value cl);
      Ok (py "DURATION", cl_params cl,
          mk_sc seen (sc_begin sc) (sc_end sc) (Some d) (sc_prec sc) (sc_end_name sc), zs)
    else
      do (p, d, ps2, zs) <- span_value cl zs;
      do _ <- match sc_prec sc with
              | Some q => guard (negb (prec_eqb p q)) ValueError
              | None => Ok tt
              end;
      let prec := match sc_prec sc with Some q => Some q | None => Some p end in
      if str_eqb name (py "DTSTART") then
        Ok (py "BEGIN", ps2, mk_sc seen (Some d) (sc_end sc) (sc_dur sc) prec (sc_end_name sc), zs)
      else
        let en := if str_eqb name (py "DTEND") then py "end" else py "due" in
        Ok (upper en, ps2, mk_sc seen (sc_begin sc) (Some d) (sc_dur sc) prec (Some en), zs).
Lemma populate_span_step cl (st : lst) : populate_span X cl st =
  do (key, q, sc, zs) <- span_step cl (l_span st) (l_zones st);
  Ok (mk_lst (store_params key q (l_comp st)) (l_count st) sc zs).
Proof.
  unfold populate_span, span_step. destruct (existsb _ _); [easy|]. destruct (str_eqb _ (py "DURATION")).
  { destruct (duration_parse _); reflexivity. }
  fold (span_value cl (l_zones st)). destruct (span_value cl (l_zones st)) as [[[[p d] ps2] zs]|]; [|easy]. cbn [bind].
  destruct (match sc_prec (l_span st) with Some q => guard _ _ | None => _ end); [|easy]. cbn [bind]. now destruct (str_eqb _ (py "DTSTART")).
Qed.
Lemma span_step_loc cl sc zs key q sc1 zs1 : span_step cl sc zs = Ok (key, q, sc1, zs1) -> zeq zs zs1 /\
  forall sc2 zs2, sc_eq sc sc2 -> zeq zs zs2 -> exists sc3 zs3, span_step cl sc2 zs2 = Ok (key, q, sc3, zs3) /\ sc_eq sc1 sc3 /\ zeq zs1 zs3.
Proof.
  unfold span_step. destruct (existsb _ (sc_seen sc)) eqn:HS; [discriminate|].
  assert (HS2 : forall sc2, sc_eq sc sc2 -> existsb (str_eqb (cl_name cl)) (sc_seen sc2) = false).
  { intros sc2 E. rewrite <- HS. symmetry. apply existsb_ext. apply E. }
  assert (SE : forall sc2, sc_eq sc sc2 -> forall n, In n (sc_seen sc ++ [cl_name cl]) <-> In n (sc_seen sc2 ++ [cl_name cl])).
  { intros sc2 (E & _) n. rewrite !in_app_iff, E. tauto. }
  destruct (str_eqb _ (py "DURATION")).
  { intro H. unbind H. injection H as <- <- <- <-. split; [apply zeq_refl|]. intros sc2 zs2 ES EZ. rewrite (HS2 sc2 ES), Ha. cbn [bind].
    eexists _, _. split; [reflexivity|]. split; [|exact EZ]. pose proof (SE sc2 ES) as S2. destruct ES as (? & ? & ? & ? & ? & ?).
    repeat split; cbn; auto; apply S2. }
  intro H. apply bind_Ok in H as ([[[p d] ps2] zsx] & HV & H). apply span_value_zones in HV as [Z ZK]. unbind H. rename Ha into HP.
  assert (R : forall sc2 zs2, sc_eq sc sc2 -> zeq zs zs2 -> exists zs3, span_value cl zs2 = Ok (p, d, ps2, zs3) /\ zeq zsx zs3 /\
    match sc_prec sc2 with Some q => guard (negb (prec_eqb p q)) ValueError | None => Ok tt end = Ok a).
  { intros sc2 zs2 ES EZ. destruct (ZK zs2 EZ) as (zs3 & E3 & Z3). exists zs3. split; [exact E3|]. split.
    - eapply zeq_trans; [apply zeq_sym, Z|]. eapply zeq_trans; eauto.
    - destruct ES as (_ & _ & _ & _ & <- & _). exact HP. }
  destruct (str_eqb _ (py "DTSTART")); injection H as <- <- <- <-; (split; [exact Z|]); intros sc2 zs2 ES EZ; rewrite (HS2 sc2 ES);
    destruct (R sc2 zs2 ES EZ) as (zs3 & -> & Z3 & HP2); cbn [bind]; rewrite HP2; cbn [bind];
    (eexists _, _; split; [reflexivity|]; split; [|exact Z3]); pose proof (SE sc2 ES) as S2; destruct ES as (? & ? & ? & ? & E5 & ?);
    repeat split; cbn; auto; try apply S2; now rewrite <- E5.
Qed.
Lemma span_loc a k cl st t st' : a_kind a = KSpan k -> loc a st t -> populate_span X cl st = Ok st' ->
  exists t', populate_span X cl t = Ok t' /\ loc a st' t' /\ zeq (l_zones st) (l_zones st').
Proof.
  intros K L. rewrite !populate_span_step. intro H. apply bind_Ok in H as ([[[key q] sc1] zs1] & HS & H). injection H as <-.
  apply span_step_loc in HS as [Z ZK]. destruct (ZK (l_span t) (l_zones t)) as (sc3 & zs3 & -> & E3 & Z3).
  { apply L. unfold is_span. now rewrite K. } { apply L. }
  cbn [bind]. eexists. split; [reflexivity|]. split; [|exact Z].
  pose proof (store_frame M key q (l_comp st)) as (F1 & F2 & F3 & F4 & F5).
  pose proof (store_frame M key q (l_comp t)) as (G1 & G2 & G3 & G4 & G5).
  destruct L. split; cbn [l_comp l_count l_span l_zones]; try congruence.
  intros j Hj. rewrite !store_get, lo_par0 by easy. reflexivity.
Qed.
Lemma action_loc a cl st t st' : a_kind a = KAction -> loc a st t -> populate_action cl st = Ok st' ->
  exists t', populate_action cl t = Ok t' /\ loc a st' t' /\ zeq (l_zones st) (l_zones st').
Proof.
  intros K L. unfold populate_action. rewrite <- (lo_cls _ _ _ L). destruct (cls_eqb _ _); [|discriminate]. intros [= <-].
  eexists. split; [reflexivity|]. split; [|apply zeq_refl].
  pose proof (store_frame M (py "ACTION") (cl_params cl) (l_comp st)) as (F1 & F2 & F3 & F4 & F5).
  pose proof (store_frame M (py "ACTION") (cl_params cl) (l_comp t)) as (G1 & G2 & G3 & G4 & G5).
  destruct L. split; cbn [l_comp l_count l_span l_zones]; try congruence; auto.
  intros j Hj. rewrite !store_get, lo_par0 by easy. reflexivity.
Qed.

Lemma conv_loc a it it' st t st' b : IS it it' -> loc a st t -> populate_conv X M load_m a it st = Ok (st', b) ->
  exists t', populate_conv X M load_m a it' t = Ok (t', b) /\ loc a st' t' /\ zeq (l_zones st) (l_zones st').
Proof.
  intros HI L H. destruct it as [l|n its].
  - apply IS_line in HI as ->. unfold populate_conv in *. destruct (a_kind a) as [convs [] r s|k|m| |] eqn:K; try discriminate.
    + unbind H. injection H as <- <-. eapply multi_loc in Ha as (t' & -> & R); eauto. exists t'. cbn [bind]. split; [reflexivity|exact R].
    + unbind H. injection H as <- <-. eapply single_loc in Ha as (t' & -> & R); eauto. exists t'. cbn [bind]. split; [reflexivity|exact R].
    + unbind H. injection H as <- <-. eapply span_loc in Ha as (t' & -> & R); eauto. exists t'. cbn [bind]. split; [reflexivity|exact R].
    + unbind H. injection H as <- <-. eapply action_loc in Ha as (t' & -> & R); eauto. exists t'. cbn [bind]. split; [reflexivity|exact R].
    + injection H as <- <-. exists t. split; [reflexivity|]. split; [exact L|apply zeq_refl].
  - pose proof HI as HC. apply IS_cont in HC as (its' & ->). unfold populate_conv in *. destruct (a_kind a) as [convs [] r s|k|m| |] eqn:K; try discriminate.
    + unbind2 H. injection H as <- <-. pose proof (load_zeq _ _ _ _ _ _ Ha) as Z.
      destruct (load_same _ _ _ _ _ _ _ _ HI (lo_zones _ _ _ L) Ha) as (x' & z1 & HL & HR). rewrite HL. cbn [bind].
      pose proof (load_zeq _ _ _ _ _ _ HL) as Z1. eexists. split; [reflexivity|]. split; [|exact Z].
      destruct L. split; cbn [l_comp l_count l_span l_zones c_cls c_attrs c_params c_mem set_mem]; auto.
      * rewrite !dict_get_set_same. unfold get_mem. cbn. unfold eq_mem in lo_mem0.
        destruct (dict_get (a_attr a) (c_mem (l_comp st))), (dict_get (a_attr a) (c_mem (l_comp t))); try easy; cbn in lo_mem0.
        -- apply Forall2_app; [easy|]. constructor; [easy|constructor].
        -- cbn. constructor; [easy|constructor].
      * eapply zeq_trans; [apply zeq_sym, Z|]. eapply zeq_trans; [exact lo_zones0|exact Z1].
    + injection H as <- <-. exists t. split; [reflexivity|]. split; [exact L|apply zeq_refl].
Qed.
(** ** Whole states *)
Hypothesis IS_refl : forall it, IS it it.
Lemma IS_name a b : IS a b -> item_name a = item_name b.
Proof. intro H. destruct a as [l|n l]; [now apply IS_line in H as ->|]. now apply IS_cont in H as (l' & ->). Qed.
Lemma conv_zeq a it st st' b : populate_conv X M load_m a it st = Ok (st', b) -> zeq (l_zones st) (l_zones st').
Proof. intro H. apply (conv_loc a it it st st st' b) in H as (t' & _ & _ & Z); auto using loc_refl. Qed.

Record sim (s t : lst) : Prop := mk_sim {
  si_cls : c_cls (l_comp s) = c_cls (l_comp t);
  si_name : c_name (l_comp s) = c_name (l_comp t);
  si_extra : c_extra (l_comp s) = c_extra (l_comp t);
  si_attr : forall k, dict_get k (c_attrs (l_comp s)) = dict_get k (c_attrs (l_comp t));
  si_par : forall k, dict_get k (c_params (l_comp s)) = dict_get k (c_params (l_comp t));
  si_mem : forall k, eq_mem (dict_get k (c_mem (l_comp s))) (dict_get k (c_mem (l_comp t)));
  si_count : forall k, dict_get k (l_count s) = dict_get k (l_count t);
  si_span : sc_eq (l_span s) (l_span t);
  si_zones : zeq (l_zones s) (l_zones t)
}.
Lemma sim_refl s : sim s s. Proof. split; auto using eq_mem_refl, sc_eq_refl, zeq_refl. Qed.
Lemma sim_sym s t : sim s t -> sim t s.
Proof. intros []. split; auto using eq_mem_sym, sc_eq_sym, zeq_sym. Qed.
Lemma sim_trans s t u : sim s t -> sim t u -> sim s u.
Proof.
  intros [A1 A2 A3 A4 A5 A6 A7 A8 A9] [B1 B2 B3 B4 B5 B6 B7 B8 B9]. split.
  - congruence. - congruence. - congruence.
  - intro k. now rewrite A4. - intro k. now rewrite A5.
  - intro k. eapply eq_mem_trans; eauto.
  - intro k. now rewrite A7.
  - eapply sc_eq_trans; eauto.
  - eapply zeq_trans; eauto.
Qed.
Lemma sim_loc a s t : sim s t -> loc a s t. Proof. intros []. split; auto. Qed.

Lemma conv_sim a it it' s t s' b : IS it it' -> sim s t -> populate_conv X M load_m a it s = Ok (s', b) ->
  exists t', populate_conv X M load_m a it' t = Ok (t', b) /\ sim s' t'.
Proof.
  intros HI HS H. destruct (conv_loc a it it' s t s' b HI (sim_loc a s t HS) H) as (t' & H' & L & _). exists t'. split; [exact H'|].
  pose proof (conv_off X M load_m _ _ _ _ _ H) as [OA _ OP OM _ OC OS]. pose proof (conv_off X M load_m _ _ _ _ _ H') as [QA _ QP QM _ QC QS].
  pose proof (populate_conv_spec X M load_m _ _ _ _ _ H) as ([F1 F2 F3] & _ & FM).
  pose proof (populate_conv_spec X M load_m _ _ _ _ _ H') as ([G1 G2 G3] & _ & GM).
  destruct HS as [A1 A2 A3 A4 A5 A6 A7 A8 A9]. split.
  - congruence.
  - congruence.
  - congruence.
  - intro k. destruct (list_eq_dec N.eq_dec k (a_attr a)) as [->|N]; [apply L|]. now rewrite OA, QA.
  - intro k. destruct (in_dec (list_eq_dec N.eq_dec) k (pkeys a)) as [I|N]; [now apply L|]. now rewrite OP, QP.
  - intro k. destruct (list_eq_dec N.eq_dec k (a_attr a)) as [->|N]; [apply L|]. rewrite OM, QM by auto. apply A6.
  - intro k. destruct (list_eq_dec N.eq_dec k (a_attr a)) as [->|N]; [apply L|]. now rewrite OC, QC.
  - destruct (is_span a) eqn:IA; [now apply L|]. now rewrite OS, QS.
  - apply L.
Qed.
Lemma convs_sim l it it' : IS it it' -> forall s t s' b0 b, sim s t -> populate_convs X M load_m l it s b0 = Ok (s', b) ->
  exists t', populate_convs X M load_m l it' t b0 = Ok (t', b) /\ sim s' t'.
Proof.
  intro HI. induction l as [|a l IH]; intros s t s' b0 b HS H; cbn [populate_convs] in *.
  { injection H as <- <-. eauto. }
  unbind2 H. destruct (conv_sim a it it' s t _ _ HI HS Ha) as (t1 & -> & S1). cbn [bind]. eapply IH; eauto.
Qed.

Variable c : cls.
Hypothesis IS_known : forall a b, IS a b -> a = b \/ known c a.
Hypothesis HP : pairwise (converters c).
Lemma item_sim it it' s t s' : IS it it' -> c_cls (l_comp s) = c -> sim s t -> populate_item X M load_m it s = Ok s' ->
  exists t', populate_item X M load_m it' t = Ok t' /\ sim s' t'.
Proof.
  intros HI HC HS. unfold populate_item. rewrite <- (IS_name it it' HI), <- (si_cls _ _ HS). intro H. unbind2 H.
  destruct (convs_sim _ it it' HI s t _ _ _ HS Ha) as (t1 & -> & S1). cbn [bind]. destruct b; injection H as <-; [eauto|].
  eexists. split; [reflexivity|].
  assert (it = it') as <-.
  { destruct (IS_known it it' HI) as [E|K]; [exact E|]. exfalso. apply populate_convs_frame in Ha as [_ E].
    apply knownb_spec in K. unfold knownb in K. rewrite HC in E. rewrite K in E. now rewrite Bool.orb_true_r in E. }
  destruct S1. split; cbn [l_comp l_count l_span l_zones c_cls c_name c_attrs c_params c_mem c_extra set_extra]; auto. now rewrite si_extra0.
Qed.
Lemma items_sim its : forall s t s', c_cls (l_comp s) = c -> sim s t -> populate_items X M load_m its s = Ok s' ->
  exists t', populate_items X M load_m its t = Ok t' /\ sim s' t'.
Proof.
  induction its as [|it its IH]; intros s t s' HC HS H; cbn [populate_items] in *; [injection H as <-; eauto|].
  unbind H. destruct (item_sim it it s t _ (IS_refl it) HC HS Ha) as (t1 & -> & S1). cbn [bind]. eapply IH; [|exact S1|exact H].
  apply populate_item_spec in Ha as (-> & _). exact HC.
Qed.

(** ** Two converters that are independent *)
Lemma conv_keep a b it s s' f : indep a b -> populate_conv X M load_m a it s = Ok (s', f) -> loc b s s'.
Proof.
  intros I H. apply (loc_off a); [exact I|eapply conv_off; eauto| |eapply conv_zeq; eauto].
  apply populate_conv_spec in H as ([F1 _ _] & _). exact F1.
Qed.
Lemma convs_keep l b it : (forall a, In a l -> indep a b) -> forall s s' f0 f, populate_convs X M load_m l it s f0 = Ok (s', f) -> loc b s s'.
Proof.
  induction l as [|a l IH]; intros I s s' f0 f H; cbn [populate_convs] in H; [injection H as <- <-; apply loc_refl|].
  unbind2 H. apply (conv_keep a b) in Ha; [|apply I; now left]. eapply loc_trans; [exact Ha|]. eapply IH; [|exact H]. intros d Hd. apply I. now right.
Qed.
Lemma convs_loc l it : pairwise l -> forall s t s' f0 f, (forall a, In a l -> loc a s t) ->
  populate_convs X M load_m l it s f0 = Ok (s', f) ->
  exists t', populate_convs X M load_m l it t f0 = Ok (t', f) /\ forall a, In a l -> loc a s' t'.
Proof.
  induction l as [|a l IH]; intros P s t s' f0 f L H; cbn [populate_convs] in *.
  { injection H as <- <-. exists t. split; [easy|]. intros a []. }
  destruct P as [P1 P2]. unbind2 H. destruct (conv_loc a it it s t _ _ (IS_refl it) (L a (or_introl eq_refl)) Ha) as (t1 & Hb & L1 & _).
  rewrite Hb. cbn [bind]. edestruct (IH P2) with (t := t1) (2 := H) as (t' & HT & LT).
  - intros d Hd. eapply loc_trans; [apply loc_sym; eapply conv_keep; [apply P1; exact Hd|exact Ha]|].
    eapply loc_trans; [apply L; now right|]. eapply conv_keep; [apply P1; exact Hd|exact Hb].
  - exists t'. split; [exact HT|]. intros d [<-|Hd]; [|now apply LT].
    eapply loc_trans; [apply loc_sym; eapply convs_keep; [|exact H]; intros e He; apply indep_sym, P1, He|].
    eapply loc_trans; [exact L1|]. eapply convs_keep; [|exact HT]. intros e He. apply indep_sym, P1, He.
Qed.
(** What a list of converters leaves alone. *)
Lemma convs_rest l it : forall s s' f0 f, populate_convs X M load_m l it s f0 = Ok (s', f) ->
  (forall k, (forall a, In a l -> k <> a_attr a) -> dict_get k (c_attrs (l_comp s')) = dict_get k (c_attrs (l_comp s)) /\
     dict_get k (c_mem (l_comp s')) = dict_get k (c_mem (l_comp s)) /\ dict_get k (l_count s') = dict_get k (l_count s)) /\
  (forall k, (forall a, In a l -> ~ In k (pkeys a)) -> dict_get k (c_params (l_comp s')) = dict_get k (c_params (l_comp s))) /\
  ((forall a, In a l -> is_span a = false) -> l_span s' = l_span s).
Proof.
  induction l as [|a l IH]; intros s s' f0 f H; cbn [populate_convs] in H; [now injection H as <- <-|].
  unbind2 H. apply conv_off in Ha as [OA _ OP OM _ OC OS]. apply IH in H as (H1 & H2 & H3). repeat split.
  - destruct (H1 k) as (-> & _ & _); [intros; apply H; now right|]. apply OA, H. now left.
  - destruct (H1 k) as (_ & -> & _); [intros; apply H; now right|]. apply OM. left. apply H. now left.
  - destruct (H1 k) as (_ & _ & ->); [intros; apply H; now right|]. apply OC, H. now left.
  - intros k Hk. rewrite H2 by (intros; apply Hk; now right). apply OP, Hk. now left.
  - intros Hk. rewrite H3 by (intros; apply Hk; now right). apply OS, Hk. now left.
Qed.

Lemma convs_zeq l it : forall s s' f0 f, populate_convs X M load_m l it s f0 = Ok (s', f) -> zeq (l_zones s) (l_zones s').
Proof.
  induction l as [|a l IH]; intros s s' f0 f H; cbn [populate_convs] in H; [injection H as <- <-; apply zeq_refl|].
  unbind2 H. eapply zeq_trans; [eapply conv_zeq; exact Ha|eapply IH; exact H].
Qed.
Lemma convs_swap l1 l2 it1 it2 s s1 s2 f1 f2 : pairwise l1 -> pairwise l2 -> (forall a b, In a l1 -> In b l2 -> indep a b) ->
  populate_convs X M load_m l1 it1 s false = Ok (s1, f1) -> populate_convs X M load_m l2 it2 s1 false = Ok (s2, f2) ->
  exists t1 t2, populate_convs X M load_m l2 it2 s false = Ok (t1, f2) /\ populate_convs X M load_m l1 it1 t1 false = Ok (t2, f1) /\ sim s2 t2.
Proof.
  intros P1 P2 PI H1 H2. edestruct (convs_loc l2 it2 P2) with (t := s) (2 := H2) as (t1 & H3 & L3).
  { intros b Hb. apply loc_sym. eapply convs_keep; [|exact H1]. intros a Ha. now apply PI. }
  edestruct (convs_loc l1 it1 P1) with (t := t1) (2 := H1) as (t2 & H4 & L4).
  { intros a Ha. eapply convs_keep; [|exact H3]. intros b Hb. now apply indep_sym, PI. }
  exists t1, t2. split; [exact H3|]. split; [exact H4|].
  assert (LA : forall a, In a l1 -> loc a s2 t2).
  { intros a Ha. eapply loc_trans; [apply loc_sym; eapply convs_keep; [|exact H2]; intros b Hb; now apply indep_sym, PI|]. now apply L4. }
  assert (LB : forall b, In b l2 -> loc b s2 t2).
  { intros b Hb. eapply loc_trans; [now apply L3|]. eapply convs_keep; [|exact H4]. intros a Ha. now apply PI. }
  pose proof (convs_zeq _ _ _ _ _ _ H1) as Z1. pose proof (convs_zeq _ _ _ _ _ _ H2) as Z2.
  pose proof (convs_zeq _ _ _ _ _ _ H3) as Z3. pose proof (convs_zeq _ _ _ _ _ _ H4) as Z4.
  destruct (convs_rest _ _ _ _ _ _ H1) as (R1 & Q1 & S1). destruct (convs_rest _ _ _ _ _ _ H2) as (R2 & Q2 & S2).
  destruct (convs_rest _ _ _ _ _ _ H3) as (R3 & Q3 & S3). destruct (convs_rest _ _ _ _ _ _ H4) as (R4 & Q4 & S4).
  apply populate_convs_frame in H1 as ([A1 A2 A3] & _), H2 as ([B1 B2 B3] & _), H3 as ([C1 C2 C3] & _), H4 as ([D1 D2 D3] & _).
  assert (DA : forall k l, (exists a, In a l /\ k = a_attr a) \/ (forall a, In a l -> k <> a_attr a)).
  { intros k l. induction l as [|a l [(b & Hb & E)|IH]]; [right; easy|left; exists b; split; [now right|easy]|].
    destruct (list_eq_dec N.eq_dec k (a_attr a)) as [E|E]; [left; exists a; split; [now left|easy]|right]. intros b [<-|Hb]; auto. }
  assert (DP : forall k l, (exists a, In a l /\ In k (pkeys a)) \/ (forall a, In a l -> ~ In k (pkeys a))).
  { intros k l. induction l as [|a l [(b & Hb & E)|IH]]; [right; easy|left; exists b; split; [now right|easy]|].
    destruct (in_dec (list_eq_dec N.eq_dec) k (pkeys a)) as [E|E]; [left; exists a; split; [now left|easy]|right]. intros b [<-|Hb]; auto. }
  assert (DS : forall l, (exists a, In a l /\ is_span a = true) \/ (forall a, In a l -> is_span a = false)).
  { intros l. induction l as [|a l [(b & Hb & E)|IH]]; [right; easy|left; exists b; split; [now right|easy]|].
    destruct (is_span a) eqn:E; [left; exists a; split; [now left|easy]|right]. intros b [<-|Hb]; auto. }
  split.
  - congruence.
  - congruence.
  - congruence.
  - intro k. destruct (DA k l1) as [(a & Ha & ->)|N1]; [now apply LA|]. destruct (DA k l2) as [(b & Hb & ->)|N2]; [now apply LB|].
    destruct (R1 k N1) as (E1 & _), (R2 k N2) as (E2 & _), (R3 k N2) as (E3 & _), (R4 k N1) as (E4 & _). congruence.
  - intro k. destruct (DP k l1) as [(a & Ha & Hk)|N1]; [now apply (LA a)|]. destruct (DP k l2) as [(b & Hb & Hk)|N2]; [now apply (LB b)|].
    rewrite Q2, Q1, Q4, Q3; auto.
  - intro k. destruct (DA k l1) as [(a & Ha & ->)|N1]; [now apply LA|]. destruct (DA k l2) as [(b & Hb & ->)|N2]; [now apply LB|].
    destruct (R1 k N1) as (_ & E1 & _), (R2 k N2) as (_ & E2 & _), (R3 k N2) as (_ & E3 & _), (R4 k N1) as (_ & E4 & _).
    rewrite E2, E1, E4, E3. apply eq_mem_refl.
  - intro k. destruct (DA k l1) as [(a & Ha & ->)|N1]; [now apply LA|]. destruct (DA k l2) as [(b & Hb & ->)|N2]; [now apply LB|].
    destruct (R1 k N1) as (_ & _ & E1), (R2 k N2) as (_ & _ & E2), (R3 k N2) as (_ & _ & E3), (R4 k N1) as (_ & _ & E4). congruence.
  - destruct (DS l1) as [(a & Ha & Hk)|N1]; [now apply (LA a)|]. destruct (DS l2) as [(b & Hb & Hk)|N2]; [now apply (LB b)|].
    rewrite S2, S1, S4, S3 by auto. apply sc_eq_refl.
  - apply zeq_sym in Z1, Z2. eapply zeq_trans; [exact Z2|]. eapply zeq_trans; [exact Z1|]. eapply zeq_trans; eassumption.
Qed.

(** ** Two lines of one time span *)
Lemma prec_eqb_eq p q : prec_eqb p q = true -> p = q.
Proof. destruct p, q; cbn; intro H; try discriminate; try reflexivity. apply N.eqb_eq in H. congruence. Qed.
Lemma span_value_prec cl zs p d q zs1 : span_value cl zs = Ok (p, d, q, zs1) -> prec_eqb p p = true.
Proof.
  unfold span_value. destruct (list_eq_dec _ _ [py "DATE-TIME"]) as [_|_]; [|destruct (list_eq_dec _ _ [py "DATE"]) as [_|_]; [|discriminate]];
    intro H; unbind3 H; now injection H as <- <- <- <-.
Qed.
Definition prec_fits (o : option prec) (p : prec) : res unit :=
  match o with Some q => guard (negb (prec_eqb p q)) ValueError | None => Ok tt end.
Definition prec_set (o : option prec) (p : prec) : option prec := match o with Some q => Some q | None => Some p end.
Lemma prec_fits_Ok o p u : prec_fits o p = Ok u -> u = tt /\ forall q, o = Some q -> p = q.
Proof.
  unfold prec_fits. destruct o as [q|]; [|intros [= <-]; now split]. unfold guard. destruct (prec_eqb p q) eqn:E; [|discriminate].
  intros [= <-]. split; [easy|]. intros ? [= <-]. now apply prec_eqb_eq.
Qed.
Lemma prec_fits_ok o p : prec_eqb p p = true -> (forall q, o = Some q -> p = q) -> prec_fits o p = Ok tt.
Proof. intros R H. unfold prec_fits. destruct o as [q|]; [|easy]. rewrite <- (H q eq_refl), R. reflexivity. Qed.

Definition the_key (n : list N) : list N :=
  if str_eqb n (py "DURATION") then py "DURATION" else if str_eqb n (py "DTSTART") then py "BEGIN"
  else if str_eqb n (py "DTEND") then py "END" else py "DUE".
Definition put_span (n : list N) (d : datetime) (p : prec) (sc : spanctx) : spanctx :=
  if str_eqb n (py "DTSTART") then mk_sc (sc_seen sc ++ [n]) (Some d) (sc_end sc) (sc_dur sc) (prec_set (sc_prec sc) p) (sc_end_name sc)
  else mk_sc (sc_seen sc ++ [n]) (sc_begin sc) (Some d) (sc_dur sc) (prec_set (sc_prec sc) p)
    (Some (if str_eqb n (py "DTEND") then py "end" else py "due")).
Definition put_dur (n : list N) (d : Z) (sc : spanctx) : spanctx :=
  mk_sc (sc_seen sc ++ [n]) (sc_begin sc) (sc_end sc) (Some d) (sc_prec sc) (sc_end_name sc).
Lemma span_step_form cl sc zs : span_step cl sc zs =
  if existsb (str_eqb (cl_name cl)) (sc_seen sc) then Err ValueError
  else if str_eqb (cl_name cl) (py "DURATION") then
    do d <- duration_parse (cl_value cl); Ok (the_key (cl_name cl), cl_params cl, put_dur (cl_name cl) d sc, zs)
  else
    do (p, d, ps2, zs) <- span_value cl zs; do _ <- prec_fits (sc_prec sc) p;
    Ok (the_key (cl_name cl), ps2, put_span (cl_name cl) d p sc, zs).
Proof.
  unfold span_step, the_key, put_span, put_dur, prec_set. fold (span_value cl zs). destruct (existsb _ _); [easy|].
  destruct (str_eqb _ (py "DURATION")) eqn:HD; [easy|]. destruct (span_value cl zs) as [[[[p d] ps2] z]|]; [|easy]. cbn [bind].
  change (match sc_prec sc with Some q => guard (negb (prec_eqb p q)) ValueError | None => Ok tt end) with (prec_fits (sc_prec sc) p).
  destruct (prec_fits _ p); [|easy]. cbn [bind]. destruct (str_eqb _ (py "DTSTART")); [easy|]. now destruct (str_eqb _ (py "DTEND")).
Qed.
Lemma seen_add n m l : n <> m -> existsb (str_eqb n) (l ++ [m]) = existsb (str_eqb n) l.
Proof. intro H. rewrite existsb_app. cbn. apply str_eqb_neq in H. rewrite H. now rewrite !Bool.orb_false_r. Qed.
Definition SPAN_NAMES : list (list N) := [py "DTSTART"; py "DTEND"; py "DUE"; py "DURATION"].
Definition swappable (n m : list N) : Prop :=
  n <> m /\ In n SPAN_NAMES /\ In m SPAN_NAMES /\ ~ (In n [py "DTEND"; py "DUE"] /\ In m [py "DTEND"; py "DUE"]).
Lemma key_inj n m : In n SPAN_NAMES -> In m SPAN_NAMES -> n <> m -> the_key n <> the_key m.
Proof. intros Hn Hm N. cbn in Hn, Hm. intuition (subst; try (now contradict N); try discriminate). Qed.
Lemma put_swap n m d e p q sc : swappable n m -> str_eqb n (py "DURATION") = false -> str_eqb m (py "DURATION") = false ->
  (sc_prec sc = None -> p = q) -> sc_eq (put_span m e q (put_span n d p sc)) (put_span n d p (put_span m e q sc)).
Proof.
  intros (N & Hn & Hm & A) Dn Dm HP'.
  assert (E : prec_set (prec_set (sc_prec sc) p) q = prec_set (prec_set (sc_prec sc) q) p) by (destruct (sc_prec sc); [easy|now rewrite (HP' eq_refl)]).
  unfold put_span. destruct (str_eqb n (py "DTSTART")) eqn:En, (str_eqb m (py "DTSTART")) eqn:Em.
  - apply str_eqb_eq in En, Em. congruence.
  - repeat split; cbn; auto; rewrite !in_app_iff; tauto.
  - repeat split; cbn; auto; rewrite !in_app_iff; tauto.
  - exfalso. apply A. cbn in Hn, Hm. split; [destruct Hn as [<-|[<-|[<-|[<-|[]]]]]|destruct Hm as [<-|[<-|[<-|[<-|[]]]]]]; try discriminate; cbn; auto.
Qed.
Lemma put_dur_swap n m d e p sc : sc_eq (put_dur m e (put_span n d p sc)) (put_span n d p (put_dur m e sc)).
Proof. unfold put_span, put_dur. destruct (str_eqb n (py "DTSTART")); repeat split; cbn; auto; rewrite !in_app_iff; tauto. Qed.
Lemma put_seen n d p sc : sc_seen (put_span n d p sc) = sc_seen sc ++ [n].
Proof. unfold put_span. now destruct (str_eqb n _). Qed.
Lemma put_prec n d p sc : sc_prec (put_span n d p sc) = prec_set (sc_prec sc) p.
Proof. unfold put_span. now destruct (str_eqb n _). Qed.

Lemma span_swap cl1 cl2 sc zs k1 q1 sc1 zs1 k2 q2 sc2 zs2 : swappable (cl_name cl1) (cl_name cl2) ->
  span_step cl1 sc zs = Ok (k1, q1, sc1, zs1) -> span_step cl2 sc1 zs1 = Ok (k2, q2, sc2, zs2) ->
  k1 = the_key (cl_name cl1) /\ k2 = the_key (cl_name cl2) /\
  exists tc1 ws1 tc2 ws2, span_step cl2 sc zs = Ok (k2, q2, tc1, ws1) /\ span_step cl1 tc1 ws1 = Ok (k1, q1, tc2, ws2) /\ sc_eq sc2 tc2.
Proof.
  intros SW H1 H2. pose proof SW as (N & Hn & Hm & _). assert (N' : cl_name cl2 <> cl_name cl1) by congruence. rewrite !span_step_form in *.
  destruct (existsb _ (sc_seen sc)) eqn:S1; [discriminate|]. destruct (existsb _ (sc_seen sc1)) eqn:S2; [discriminate|].
  destruct (str_eqb (cl_name cl1) (py "DURATION")) eqn:D1.
  - destruct (str_eqb (cl_name cl2) (py "DURATION")) eqn:D2.
    { apply str_eqb_eq in D1, D2. congruence. }
    unbind H1. injection H1 as <- <- <- <-. apply bind_Ok in H2 as ([[[p d] ps2] z] & HV & H2). unbind H2. injection H2 as <- <- <- <-.
    split; [easy|]. split; [easy|]. cbn [sc_seen sc_prec put_dur] in *. rewrite seen_add in S2 by exact N'. rewrite S2, HV. cbn [bind].
    rewrite Ha0. cbn [bind]. eexists _, _, _, _. split; [reflexivity|]. rewrite span_step_form, put_seen, (seen_add _ _ _ N), S1, D1, Ha. cbn [bind].
    split; [reflexivity|]. apply sc_eq_sym, put_dur_swap.
  - apply bind_Ok in H1 as ([[[p d] ps2] z] & HV & H1). unbind H1. injection H1 as <- <- <- <-. rewrite put_seen, seen_add in S2 by exact N'. rewrite S2.
    destruct (str_eqb (cl_name cl2) (py "DURATION")) eqn:D2.
    + unbind H2. rewrite Ha0. injection H2 as <- <- <- <-. split; [easy|]. split; [easy|]. cbn [bind]. eexists _, _, _, _. split; [reflexivity|].
      rewrite span_step_form. cbn [sc_seen put_dur sc_prec]. rewrite (seen_add _ _ _ N), S1, D1, HV. cbn [bind]. rewrite Ha. cbn [bind]. split; [reflexivity|].
      apply put_dur_swap.
    + apply bind_Ok in H2 as ([[[p' d'] ps2'] z'] & HV' & H2). unbind H2. injection H2 as <- <- <- <-. split; [easy|]. split; [easy|].
      pose proof (span_value_prec _ _ _ _ _ _ HV) as R. pose proof (span_value_prec _ _ _ _ _ _ HV') as R'.
      apply span_value_zones in HV as [Z ZK]. apply span_value_zones in HV' as [Z' ZK'].
      destruct (ZK' zs (zeq_sym _ _ Z)) as (w1 & E1 & W1). destruct (ZK w1 W1) as (w2 & E2 & W2). rewrite E1. cbn [bind].
      rewrite put_prec in Ha0. apply prec_fits_Ok in Ha as [-> F1]. apply prec_fits_Ok in Ha0 as [-> F2].
      assert (PP : sc_prec sc = None -> p = p') by (intro E; rewrite E in F2; symmetry; now apply F2).
      rewrite (prec_fits_ok (sc_prec sc) p' R') by (intros q E; apply F2; now rewrite E). cbn [bind]. eexists _, _, _, _. split; [reflexivity|].
      rewrite span_step_form, put_seen, (seen_add _ _ _ N), S1, D1, E2. cbn [bind]. rewrite put_prec.
      rewrite (prec_fits_ok _ p R). { cbn [bind]. split; [reflexivity|]. apply put_swap; auto. }
      intros q E. destruct (sc_prec sc) as [q0|] eqn:E0; cbn in E; injection E as <-; [now apply F1|now apply PP].
Qed.


(** ** Items *)
Hypothesis HQ : forall a b n m, In a (lookup c n) -> In b (lookup c m) -> n <> m ->
  indep a b \/ is_span a = true /\ lookup c n = [a] /\ lookup c m = [a] /\ In n SPAN_NAMES /\ In m SPAN_NAMES.
Lemma lookup_pairwise n : pairwise (lookup c n).
Proof.
  unfold lookup. generalize HP. generalize (converters c). induction l as [|a l IH]; [easy|]. intros [H1 H2]. cbn [filter].
  destruct (existsb _ _); [|auto]. split; [|auto]. intros b Hb. apply filter_In in Hb as [Hb _]. auto.
Qed.
Lemma item_split it s s' : c_cls (l_comp s) = c -> populate_item X M load_m it s = Ok s' <->
  exists s1, populate_convs X M load_m (lookup c (item_name it)) it s false = Ok (s1, knownb c it) /\
    s' = if knownb c it then s1 else mk_lst (set_extra (c_extra (l_comp s1) ++ [it]) (l_comp s1)) (l_count s1) (l_span s1) (l_zones s1).
Proof.
  intro HC. unfold populate_item. rewrite HC. split.
  - intro H. unbind2 H. pose proof Ha as HF. apply populate_convs_frame in HF as [_ E]. cbn [orb] in E. fold (knownb c it) in E. subst b.
    exists a. split; [exact Ha|]. destruct (knownb c it); now injection H as <-.
  - intros (s1 & -> & ->). cbn [bind]. now destruct (knownb c it).
Qed.
Definition add_item (it : item) (s : lst) : lst :=
  mk_lst (set_extra (c_extra (l_comp s) ++ [it]) (l_comp s)) (l_count s) (l_span s) (l_zones s).
Lemma add_loc a it s : loc a s (add_item it s).
Proof. split; cbn; auto using eq_mem_refl, sc_eq_refl, zeq_refl. Qed.
Lemma add_sim it s t : sim s t -> sim (add_item it s) (add_item it t).
Proof. intros []. split; cbn; auto. now rewrite si_extra0. Qed.
(** The unknown items play no role for the converters. *)
Lemma conv_add a it u s s' b : populate_conv X M load_m a it s = Ok (s', b) -> populate_conv X M load_m a it (add_item u s) = Ok (add_item u s', b).
Proof.
  unfold populate_conv. destruct (a_kind a) as [convs [] r w|k|m| |], it as [l|n its]; try discriminate; intro H.
  - unbind H. injection H as <- <-. unfold populate_multi in *. unbind2 Ha. rewrite Ha0. cbn [bind]. unbind Ha. rewrite Ha1. cbn [bind].
    enough (E : forall vals ps (s s' : lst), populate_values X a b vals ps s = Ok s' -> populate_values X a b vals ps (add_item u s) = Ok (add_item u s')) by now rewrite (E _ _ _ _ Ha).
    clear. induction vals as [|v vals IH]; intros ps s s' H; cbn [populate_values] in *; [now injection H as <-|].
    unbind3 H. change (l_zones (add_item u s)) with (l_zones s). rewrite Ha. cbn [bind]. unbind H. unbind H.
    unfold append_params in *. cbn [l_comp add_item c_params set_extra]. destruct (dict_get (a_key a) (c_params (l_comp s))) as [[]|]; try discriminate; injection Ha0 as <-; cbn [bind];
    unfold append_value, get_attr in *; cbn [c_attrs set_params set_extra] in *;
    (destruct (dict_get (a_attr a) (c_attrs (l_comp s))) as [[]|]; try discriminate; injection Ha1 as <-; cbn [bind]; apply IH in H; exact H).
  - unbind H. injection H as <- <-. unfold populate_single in *. change (count (a_attr a) (add_item u s)) with (count (a_attr a) s).
    destruct (Nat.ltb _ _); [discriminate|]. unbind2 Ha. rewrite Ha0. cbn [bind]. unbind3 Ha. change (l_zones (add_item u s)) with (l_zones s). rewrite Ha1. cbn [bind].
    unbind Ha. rewrite Ha2. cbn [bind]. injection Ha as <-. cbn [bind]. unfold add_item. cbn. destruct b0; reflexivity.
  - unbind H. injection H as <- <-. rewrite populate_span_step in *. apply bind_Ok in Ha as ([[[key q] sc1] zs1] & HS & Ha). injection Ha as <-.
    cbn [l_span l_zones add_item l_comp]. rewrite HS. cbn [bind]. destruct q; reflexivity.
  - unbind2 H. injection H as <- <-. cbn [l_zones add_item]. rewrite Ha. reflexivity.
  - unbind H. injection H as <- <-. unfold populate_action in *. cbn [l_comp add_item c_cls set_extra]. destruct (cls_eqb _ _); [|discriminate]. injection Ha as <-.
    cbn [bind]. destruct (cl_params l); reflexivity.
  - injection H as <- <-. reflexivity.
  - injection H as <- <-. reflexivity.
Qed.
Lemma convs_add l it u : forall s s' b0 b, populate_convs X M load_m l it s b0 = Ok (s', b) ->
  populate_convs X M load_m l it (add_item u s) b0 = Ok (add_item u s', b).
Proof.
  induction l as [|a l IH]; intros s s' b0 b H; cbn [populate_convs] in *; [now injection H as <- <-|].
  unbind2 H. rewrite (conv_add _ _ u _ _ _ Ha). cbn [bind]. now apply IH.
Qed.
Lemma convs_unadd l it u s s' b0 b : populate_convs X M load_m l it (add_item u s) b0 = Ok (s', b) ->
  exists s1, populate_convs X M load_m l it s b0 = Ok (s1, b) /\ s' = add_item u s1.
Proof.
  intro H. assert (E : forall l s b0 s' b, populate_convs X M load_m l it (add_item u s) b0 = Ok (s', b) -> exists s1, populate_convs X M load_m l it s b0 = Ok (s1, b)).
  { clear H l s s' b0 b. induction l as [|a l IH]; intros s b0 s' b H; cbn [populate_convs] in *; [injection H as _ <-; eauto|]. unbind2 H.
    destruct (conv_loc a it it (add_item u s) s _ _ (IS_refl it) (loc_sym _ _ _ (add_loc _ _ _)) Ha) as (t & Ht & _). rewrite Ht. cbn [bind].
    apply (conv_add _ _ u) in Ht. rewrite Ha in Ht. injection Ht as ->. eapply IH, H. }
  destruct (E _ _ _ _ _ H) as (s1 & H1). exists s1. split; [exact H1|]. apply (convs_add _ _ u) in H1. rewrite H in H1. now injection H1 as ->.
Qed.

Lemma item_swap a b s s1 s2 : apart c a b -> c_cls (l_comp s) = c ->
  populate_item X M load_m a s = Ok s1 -> populate_item X M load_m b s1 = Ok s2 ->
  exists t1 t2, populate_item X M load_m b s = Ok t1 /\ populate_item X M load_m a t1 = Ok t2 /\ sim s2 t2.
Proof.
  intros (N & K & NE) HC H1 H2. assert (HC1 : c_cls (l_comp s1) = c) by (apply populate_item_spec in H1 as (-> & _); exact HC).
  apply item_split in H1 as (u1 & H1 & ->); [|exact HC]. apply item_split in H2 as (u2 & H2 & ->); [|exact HC1].
  (* the converters on the bare states *)
  assert (W : exists v2, populate_convs X M load_m (lookup c (item_name b)) b u1 false = Ok (v2, knownb c b) /\
    u2 = if knownb c a then v2 else add_item a v2).
  { destruct (knownb c a); [eauto|]. now apply convs_unadd in H2. }
  destruct W as (v2 & HV & ->). clear H2.
  assert (SW : exists t1 t2, populate_convs X M load_m (lookup c (item_name b)) b s false = Ok (t1, knownb c b) /\
    populate_convs X M load_m (lookup c (item_name a)) a t1 false = Ok (t2, knownb c a) /\ sim v2 t2).
  { assert (D : (forall x y, In x (lookup c (item_name a)) -> In y (lookup c (item_name b)) -> indep x y) \/
      exists x, is_span x = true /\ lookup c (item_name a) = [x] /\ lookup c (item_name b) = [x] /\ In (item_name a) SPAN_NAMES /\ In (item_name b) SPAN_NAMES).
    { assert (G : forall la lb, (forall x, In x la -> In x (lookup c (item_name a))) -> (forall y, In y lb -> In y (lookup c (item_name b))) ->
        (forall x y, In x la -> In y lb -> indep x y) \/
        exists x, is_span x = true /\ lookup c (item_name a) = [x] /\ lookup c (item_name b) = [x] /\ In (item_name a) SPAN_NAMES /\ In (item_name b) SPAN_NAMES).
      { induction la as [|x la IH]; intros lb Ia Ib; [left; easy|]. destruct (IH lb) as [IHa|R]; [intros; apply Ia; now right|exact Ib| |right; exact R].
        clear IH. induction lb as [|y lb IHb]; [left; easy|]. destruct IHb as [L|R]; [intros; apply Ib; now right|intros; apply IHa; [easy|now right]| |right; exact R].
        destruct (HQ x y _ _ (Ia x (or_introl eq_refl)) (Ib y (or_introl eq_refl)) N) as [I|R]; [|right; exists x; exact R].
        left. intros x' y' [<-|Hx] [<-|Hy]; auto; [apply L; [now left|easy]|apply IHa; [easy|now left]|apply L; [now right|easy]]. }
      apply G; auto. }
    destruct D as [D|(x & SX & La & Lb & Na & Nb)].
    - eapply convs_swap; eauto using lookup_pairwise.
    - rewrite La, Lb in *. cbn [populate_convs] in *. unbind2 H1. injection H1 as E1 EK. subst u1. unbind2 HV. injection HV as E2 EK2. subst v2.
      unfold populate_conv in *. unfold is_span in SX. destruct (a_kind x) as [convs m r w|k|m| |] eqn:KX; try discriminate.
      destruct a as [l1|n1 i1], b as [l2|n2 i2]; try discriminate. unbind Ha. injection Ha as <- <-. unbind Ha0. injection Ha0 as <- <-.
      rewrite populate_span_step in Ha1, Ha. apply bind_Ok in Ha1 as ([[[k1 q1] sc1] z1] & S1 & E1). injection E1 as <-.
      apply bind_Ok in Ha as ([[[k2 q2] sc2] z2] & S2 & E2). injection E2 as <-. cbn [l_span l_zones l_comp l_count] in *.
      assert (SW : swappable (cl_name l1) (cl_name l2)) by (repeat split; auto).
      destruct (span_swap l1 l2 _ _ _ _ _ _ _ _ _ _ SW S1 S2) as (-> & -> & tc1 & w1 & tc2 & w2 & T1 & T2 & TE).
      assert (Z : zeq z2 w2).
      { apply span_step_loc in S1 as [Z1 _], S2 as [Z2 _], T1 as [Z3 _], T2 as [Z4 _].
        eapply zeq_trans; [apply zeq_sym, Z2|]. eapply zeq_trans; [apply zeq_sym, Z1|]. eapply zeq_trans; eassumption. }
      rewrite <- EK, <- EK2. rewrite populate_span_step, T1. cbn [bind]. eexists _, _. split; [reflexivity|]. rewrite populate_span_step. cbn [l_span l_zones l_comp l_count].
      rewrite T2. cbn [bind]. split; [reflexivity|]. split; cbn [l_span l_zones l_comp l_count]; auto.
      all: repeat match goal with |- context [store_params ?k ?q ?e] =>
        lazymatch e with context [store_params _ _ _] => fail | _ => idtac end;
        pose proof (store_frame M k q e) as (? & ? & ? & ? & ?); pose proof (store_get k q e); generalize dependent (store_params k q e); intros end.
      all: try congruence.
      + assert (NK : the_key (cl_name l1) <> the_key (cl_name l2)) by (apply key_inj; apply SW).
        repeat match goal with F : forall k, dict_get k (c_params ?e) = _ |- context [c_params ?e] => rewrite F; clear F end.
        destruct q1 as [|? ?], q2 as [|? ?]; try reflexivity. destruct (str_eqb k0 (the_key (cl_name l1))) eqn:K1, (str_eqb k0 (the_key (cl_name l2))) eqn:K2; try reflexivity.
        apply str_eqb_eq in K1, K2. congruence.
      + match goal with |- eq_mem (dict_get _ (c_mem ?u)) (dict_get _ (c_mem ?v)) => replace (c_mem u) with (c_mem v) by congruence end. apply eq_mem_refl. }
  destruct SW as (w1 & w2 & E1 & E2 & S). pose proof (populate_convs_frame X M load_m _ _ _ _ _ _ E1) as ([F1 _ _] & _).
  exists (if knownb c b then w1 else add_item b w1). eexists. split; [apply item_split; eauto|]. split.
  { apply item_split; [destruct (knownb c b); cbn; congruence|]. exists (if knownb c b then w2 else add_item b w2). split; [|reflexivity].
    destruct (knownb c b); [exact E2|]. now apply convs_add. }
  fold (add_item b (if knownb c a then v2 else add_item a v2)). fold (add_item a (if knownb c b then w2 else add_item b w2)).
  destruct (knownb c a) eqn:Ka, (knownb c b) eqn:Kb; auto using add_sim.
  exfalso. destruct K as [K|K]; apply knownb_spec in K; congruence.
Qed.

Theorem items_reorder its its' : reorder c IS its its' -> forall s t s', c_cls (l_comp s) = c -> sim s t ->
  populate_items X M load_m its s = Ok s' -> exists t', populate_items X M load_m its' t = Ok t' /\ sim s' t'.
Proof.
  induction 1 as [|a b l m HR _ IH|a b l HA|l m n _ IH1 _ IH2]; intros s t s' HC HS H.
  - injection H as <-. exists t. auto.
  - cbn [populate_items] in *. unbind H. destruct (item_sim a b s t _ HR HC HS Ha) as (t1 & -> & S1). cbn [bind]. eapply IH; [|exact S1|exact H].
    apply populate_item_spec in Ha as (-> & _). exact HC.
  - cbn [populate_items] in *. unbind H. unbind H.
    match goal with A : populate_item _ _ _ a s = Ok ?u1, B : populate_item _ _ _ b ?u1 = Ok ?u2 |- _ =>
      pose proof (populate_item_spec _ _ _ _ _ _ A) as (C1 & _); pose proof (populate_item_spec _ _ _ _ _ _ B) as (C2 & _);
      destruct (item_swap a b s u1 u2 HA HC A B) as (v1 & v2 & V1 & V2 & SV) end.
    pose proof (populate_item_spec _ _ _ _ _ _ V1) as (D1 & _); pose proof (populate_item_spec _ _ _ _ _ _ V2) as (D2 & _).
    destruct (item_sim b b s t _ (IS_refl b) HC HS V1) as (t1 & -> & S1). cbn [bind].
    destruct (item_sim a a v1 t1 v2 (IS_refl a) ltac:(congruence) S1 V2) as (t2 & -> & S2). cbn [bind].
    eapply items_sim; [|eapply sim_trans; [exact SV|exact S2]|exact H]. congruence.
  - destruct (IH1 s s s' HC (sim_refl s) H) as (u & HU & SU). destruct (IH2 s t u HC HS HU) as (t' & HT & ST).
    exists t'. split; [exact HT|]. eapply sim_trans; eauto.
Qed.

(** ** Afterwards *)
Lemma post_conv_sim a s t s' : sim s t -> post_conv X M a s = Ok s' -> exists t', post_conv X M a t = Ok t' /\ sim s' t'.
Proof.
  intro HS. unfold post_conv, count. rewrite <- (si_count _ _ HS). destruct (a_kind a) as [convs m r w|k|m| |].
  - destruct (_ && _)%bool; [discriminate|]. intros [= <-]. eexists. split; [reflexivity|]. destruct HS. split; cbn; auto.
    intro k. destruct (list_eq_dec N.eq_dec k (a_attr a)) as [->|N]; [now rewrite !dict_get_set_same|]. now rewrite !dict_get_set_other by congruence.
  - pose proof (si_span _ _ HS) as (_ & <- & <- & <- & <- & <-). intro H. unbind H. rewrite Ha. cbn [bind]. unbind H. rewrite Ha0. cbn [bind].
    unbind H. rewrite Ha1. cbn [bind]. injection H as <-. eexists. split; [reflexivity|]. destruct HS. split; cbn; auto using sc_eq_refl.
    intro j. destruct (list_eq_dec N.eq_dec j (a_attr a)) as [->|N]; [now rewrite !dict_get_set_same|]. now rewrite !dict_get_set_other by congruence.
  - intros [= <-]. eauto.
  - intros [= <-]. eauto.
  - intros [= <-]. eauto.
Qed.
Lemma post_convs_sim l : forall s t s', sim s t -> post_convs X M l s = Ok s' -> exists t', post_convs X M l t = Ok t' /\ sim s' t'.
Proof.
  induction l as [|a l IH]; intros s t s' HS H; cbn [post_convs] in *; [injection H as <-; eauto|].
  unbind H. destruct (post_conv_sim a s t _ HS Ha) as (t1 & -> & S1). cbn [bind]. eapply IH; eauto.
Qed.
Theorem instance_reorder x n its its' zs zs' x1 zs1 : reorder c IS its its' -> c_cls x = c -> zeq zs zs' ->
  populate_instance X M load_m x n its zs = Ok (x1, zs1) ->
  exists x2 zs2, populate_instance X M load_m x n its' zs' = Ok (x2, zs2) /\ same RM x1 x2 /\ zeq zs1 zs2.
Proof.
  intros HR HC HZ. unfold populate_instance. destruct (str_eqb _ _); [|discriminate]. intro H. unbind H. unbind H. injection H as <- <-.
  edestruct (items_reorder its its' HR (mk_lst x [] sc0 zs) (mk_lst x [] sc0 zs')) with (3 := Ha) as (t1 & -> & S1).
  { exact HC. }
  { split; cbn; auto using eq_mem_refl, sc_eq_refl. }
  cbn [bind]. rewrite <- HC in *. destruct (post_convs_sim _ _ t1 _ S1 Ha0) as (t2 & E2 & S2). rewrite E2. cbn [bind].
  eexists _, _. split; [reflexivity|]. destruct S2. split; [split; auto|auto].
Qed.
Theorem instance_zeq x n its zs x1 zs1 : c_cls x = c -> populate_instance X M load_m x n its zs = Ok (x1, zs1) -> zeq zs zs1.
Proof.
  intros HC. unfold populate_instance. destruct (str_eqb _ _); [|discriminate]. intro H. unbind H. unbind H. injection H as <- <-.
  assert (E1 : forall its s s', c_cls (l_comp s) = c -> populate_items X M load_m its s = Ok s' -> zeq (l_zones s) (l_zones s')).
  { induction its0 as [|it l IH]; intros s s' D E; cbn [populate_items] in E; [injection E as <-; apply zeq_refl|].
    unbind E. pose proof (populate_item_spec _ _ _ _ _ _ Ha1) as (C1 & _). apply item_split in Ha1 as (s1 & E1 & E2); [|exact D].
    eapply zeq_trans; [eapply convs_zeq; exact E1|]. eapply zeq_trans; [|eapply IH; [|exact E]; congruence]. rewrite E2. destruct (knownb c it); apply zeq_refl. }
  assert (E2 : forall l s s', post_convs X M l s = Ok s' -> l_zones s = l_zones s').
  { induction l as [|k l IH]; intros s s' E; cbn [post_convs] in E; [now injection E as <-|]. unbind E. rewrite <- (IH _ _ E). revert Ha1. clear.
    unfold post_conv. destruct (a_kind k); [destruct (_ && _)%bool; [easy|]; now intros [= <-]| |now intros [= <-]..].
    intro H. unbind H. unbind H. unbind H. now injection H as <-. }
  rewrite <- (E2 _ _ _ Ha0). now apply (E1 its (mk_lst x [] sc0 zs)).
Qed.

End Load.
End Local.
