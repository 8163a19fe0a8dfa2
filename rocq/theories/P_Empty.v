(** * Proofs: mappings and the converters called without parameters *)
From Verif Require Import M_Base P_Base M_Codec M_Cal M_Time M_Span M_Dt P_Dt M_Empty S_Empty.
From Coq Require Import Lia.
Open Scope Z_scope.

Lemma update_empty {V} (u : dict V) : m_update V MEmpty u = MEmpty.
Proof. unfold m_update. induction u as [|[k v] u IH]; [reflexivity | exact IH]. Qed.
Lemma do_empty {V} (o : mop V) :
  match m_do V o MEmpty with Ok (a, m) => Ok a = empty_answer o /\ m = MEmpty | Err e => Err e = empty_answer o end.
Proof. destruct o; cbn; try (split; reflexivity); try reflexivity. now rewrite update_empty. Qed.
Theorem run_empty {V} (os : list (mop V)) : m_run V os MEmpty = (map empty_answer os, MEmpty).
Proof.
  induction os as [|o os IH]; [reflexivity|]. cbn [m_run map]. pose proof (do_empty o) as H.
  destruct (m_do V o MEmpty) as [[a m]|e]; [destruct H as [H ->] |]; rewrite IH, <- H; reflexivity.
Qed.

Lemma update_dict {V} (u d : dict V) : m_update V (MDict d) u = MDict (dict_update d u).
Proof. unfold m_update, dict_update. revert d. induction u as [|[k v] u IH]; intros d; [reflexivity|]. cbn. apply IH. Qed.
Lemma says_set {V} (d : dict V) k v : says d (dict_set k v d) k (Some v).
Proof. split; [apply dict_get_set_same|]. intros k' H. apply dict_get_set_other. congruence. Qed.
Lemma get_del_other {V} (d : dict V) k k' : k' <> k -> dict_get k' (dict_del k d) = dict_get k' d.
Proof.
  intros H. induction d as [|[k2 v] d IH]; [reflexivity|]. cbn. destruct (str_eqb k k2) eqn:E1.
  - apply str_eqb_eq in E1 as <-. destruct (str_eqb k' k) eqn:E2; [apply str_eqb_eq in E2; congruence | reflexivity].
  - cbn. now rewrite IH.
Qed.
Lemma keys_del {V} (d : dict V) k x : In x (keys (dict_del k d)) -> In x (keys d).
Proof. unfold keys. induction d as [|[k2 v] d IH]; [easy|]. cbn. destruct (str_eqb k k2); cbn; [now right | intros [-> | H]; auto]. Qed.
Lemma says_del {V} (d : dict V) k : NoDup (keys d) -> says d (dict_del k d) k None.
Proof.
  intros ND. split; [|intros k' H; now apply get_del_other].
  induction d as [|[k2 v] d IH]; [reflexivity|]. cbn in *. inversion ND as [|? ? N1 N2]; subst. destruct (str_eqb k k2) eqn:E1.
  - apply str_eqb_eq in E1 as ->. now apply dict_get_None.
  - cbn. rewrite E1. now apply IH.
Qed.
Lemma update_last {V} (u d : dict V) :
  (forall k v, last_value k u v -> dict_get k (dict_update d u) = Some v) /\
  (forall k, (forall x, ~ In (k, x) u) -> dict_get k (dict_update d u) = dict_get k d).
Proof.
  revert d. induction u as [|[k0 v0] u IH]; intros d.
  - split; [|reflexivity]. intros k v H. inversion H as [a x w Hn He]. now destruct a.
  - change (dict_update d ((k0, v0) :: u)) with (dict_update (dict_set k0 v0 d) u). destruct (IH (dict_set k0 v0 d)) as [I1 I2]. split.
    + intros k v H. inversion H as [a x w Hn He]; subst. destruct a as [|p a].
      * injection He as -> -> ->. rewrite I2 by exact Hn. apply dict_get_set_same.
      * injection He as _ He. apply I1. rewrite <- He. now constructor.
    + intros k H. rewrite I2 by (intros x Hx; apply (H x); now right). apply dict_get_set_other.
      intros ->. apply (H v0). now left.
Qed.
Theorem do_dict {V} (d : dict V) (o : mop V) : NoDup (keys d) -> exists r, dict_does d o r /\
  m_do V o (MDict d) = match r with Ok (a, d') => Ok (a, MDict d') | Err e => Err e end.
Proof.
  intros ND. destruct o as [k x|k|k v|k|k x| | |u|k v|]; cbn -[dict_set dict_del m_update].
  - unfold m_get. cbn. destruct (dict_get k d) as [v|] eqn:E; eexists; (split; [constructor; exact E | reflexivity]).
  - unfold m_contains. cbn. eexists. split; [constructor|]. destruct (dict_get k d); reflexivity.
  - eexists. split; [constructor; apply says_set | reflexivity].
  - destruct (dict_get k d) as [v|] eqn:E.
    + exists (Ok (RNone V, dict_del k d)). split; [apply DO_del; [congruence | now apply says_del] | reflexivity].
    + exists (Err KeyError). split; [now apply DO_del_not | reflexivity].
  - unfold m_pop. cbn. destruct (dict_get k d) as [v|] eqn:E.
    + eexists. split; [eapply DO_pop; [exact E | now apply says_del] | reflexivity].
    + destruct x as [x|]; eexists; (split; [constructor; exact E | reflexivity]).
  - destruct (rev d) as [|[k v] d'] eqn:E.
    + eexists. split; [apply DO_popitem_not | reflexivity]. rewrite <- (rev_involutive d), E. reflexivity.
    + eexists. split; [apply (DO_popitem d (rev d') k v) | reflexivity]. rewrite <- (rev_involutive d), E. reflexivity.
  - eexists. split; [constructor | reflexivity].
  - exists (Ok (RNone V, dict_update d u)). split; [constructor; apply update_last | now rewrite update_dict].
  - unfold m_setdefault. cbn. destruct (dict_get k d) as [x|] eqn:E.
    + exists (Ok (RValue V (Some x), d)). split; [now apply DO_setdefault | reflexivity].
    + exists (Ok (RValue V (Some v), dict_set k v d)). split; [apply DO_setdefault_not; [exact E | apply says_set] | reflexivity].
  - eexists. split; [constructor | reflexivity].
Qed.

(** ** With a dict of parameters nothing changes *)
Section Conv.
Variable D : zone_db.
Lemma zone_dict z ps zs : write_zone_m D z (MDict ps) zs = match write_zone D z ps zs with Ok (p, s) => Ok (MDict p, s) | Err e => Err e end.
Proof. unfold write_zone_m, write_zone. destruct (z_from_tzinfo D z) as [[[n t]|]|]; try reflexivity. cbn. now destruct zs. Qed.
Theorem serialize_dict d ps zs : serialize_dt_m D d (MDict ps) zs = in_dict (serialize_dt D d ps zs).
Proof.
  unfold serialize_dt_m, serialize_dt. destruct (dtz d) as [z|]; [|reflexivity]. destruct (z_is_utc D z); [reflexivity|].
  rewrite zone_dict. destruct (write_zone D z ps zs) as [[p s]|]; reflexivity.
Qed.
Theorem time_dict d ps zs : time_serialize_m D d (MDict ps) zs = in_dict (time_serialize D d ps zs).
Proof.
  unfold time_serialize_m, time_serialize. destruct (dtz d) as [z|]; [|reflexivity].
  rewrite zone_dict. destruct (write_zone D z ps zs) as [[p s]|]; reflexivity.
Qed.
Theorem parse_dict F v ps zs : parse_dt_m D F v (MDict ps) zs = in_dict (parse_dt D F v ps zs).
Proof.
  unfold parse_dt_m, parse_dt, pop_tzid, m_pop. cbn [m_getitem m_delitem].
  assert (G : forall l, (do tzid <- match l with Some (x :: _ :: _) => Err ValueError | Some [x] => Ok (match x with [] => None | _ => Some x end) | _ => Ok None end;
    match rev v with [] => Err IndexError | c :: _ => do w <- strptime F (strip_marks v);
      if N.eqb (upper_char c) 90 then match tzid with Some _ => Err ValueError | None => Ok (mk_dt w false (Some (z_utc D)), MDict (dict_del (py "TZID") ps), zs) end
      else match tzid with None => Ok (mk_dt w false None, MDict (dict_del (py "TZID") ps), zs)
        | Some t => do (z, zs') <- read_zone D t zs; Ok (mk_dt w false (Some z), MDict (dict_del (py "TZID") ps), zs') end end) =
    in_dict (do tzid <- match l with Some (x :: _ :: _) => Err ValueError | Some [x] => Ok (match x with [] => None | _ => Some x end) | _ => Ok None end;
    match rev v with [] => Err IndexError | c :: _ => do w <- strptime F (strip_marks v);
      if N.eqb (upper_char c) 90 then match tzid with Some _ => Err ValueError | None => Ok (mk_dt w false (Some (z_utc D)), dict_del (py "TZID") ps, zs) end
      else match tzid with None => Ok (mk_dt w false None, dict_del (py "TZID") ps, zs)
        | Some t => do (z, zs') <- read_zone D t zs; Ok (mk_dt w false (Some z), dict_del (py "TZID") ps, zs') end end)).
  { intros l. destruct (match l with Some (x :: _ :: _) => Err ValueError | Some [x] => Ok (match x with [] => None | _ => Some x end) | _ => Ok None end) as [tzid|]; [|reflexivity].
    cbn [bind]. destruct (rev v) as [|c r]; [reflexivity|]. destruct (strptime F (strip_marks v)) as [w|]; [|reflexivity]. cbn [bind].
    destruct (N.eqb (upper_char c) 90); destruct tzid as [t|]; try reflexivity.
    destruct (read_zone D t zs) as [[z zs']|]; reflexivity. }
  destruct (dict_get (py "TZID") ps) as [l|] eqn:EL; cbn [bind].
  - exact (G (Some l)).
  - specialize (G None). rewrite (dict_del_none _ _ EL) in *. exact G.
Qed.
Lemma copy_dict ps : copy_params (MDict ps) = ps.
Proof. unfold copy_params, m_bool. cbn. now destruct ps. Qed.
Theorem period_parse_dict E v ps zs : period_parse_m D E v (MDict ps) zs = in_dict (period_parse D E v ps zs).
Proof.
  unfold period_parse_m, period_parse. rewrite copy_dict. destruct (partition_slash v) as [st [fin|]]; [|reflexivity].
  assert (G1 : (do (b, ps1, zs1) <- parse_dt_m D FDate st (MDict ps) zs; do d <- duration_parse fin; do t <- make E KBase (Some b) None (Some d) PSecond; Ok (t, ps1, zs1)) =
    in_dict (do (b, ps1, zs1) <- parse_dt D FDate st ps zs; do d <- duration_parse fin; do t <- make E KBase (Some b) None (Some d) PSecond; Ok (t, ps1, zs1))).
  { rewrite parse_dict. destruct (parse_dt D FDate st ps zs) as [[[b p1] z1]|]; [|reflexivity]. cbn [in_dict bind].
    destruct (duration_parse fin); [|reflexivity]. cbn [bind]. destruct (make _ _ _ _ _ _); reflexivity. }
  assert (G2 : (do (b, ps1, zs1) <- parse_dt_m D FDate st (MDict ps) zs; do (e, _, zs2) <- parse_dt_m D FDate fin (MDict ps) zs1; do t <- make E KBase (Some b) (Some e) None PSecond; Ok (t, ps1, zs2)) =
    in_dict (do (b, ps1, zs1) <- parse_dt D FDate st ps zs; do (e, _, zs2) <- parse_dt D FDate fin ps zs1; do t <- make E KBase (Some b) (Some e) None PSecond; Ok (t, ps1, zs2))).
  { rewrite parse_dict. destruct (parse_dt D FDate st ps zs) as [[[b p1] z1]|]; [|reflexivity]. cbn [in_dict bind].
    rewrite parse_dict. destruct (parse_dt D FDate fin ps z1) as [[[e p2] z2]|]; [|reflexivity]. cbn [in_dict bind].
    destruct (make _ _ _ _ _ _); reflexivity. }
  destruct fin as [|c fin]; [exact G2|].
  destruct c as [|p]; [exact G2|]. do 7 (destruct p as [p|p|]; try exact G2). exact G1.
Qed.
Theorem period_serialize_dict E t ps zs : period_serialize_m D E t (MDict ps) zs = in_dict (period_serialize D E t ps zs).
Proof.
  unfold period_serialize_m, period_serialize. rewrite copy_dict. destruct (ts_begin t) as [b|]; [|reflexivity].
  assert (G2 : (do e <- eff_end E t; match e with None => Err ValueError | Some e =>
      do (s, ps1, zs1) <- serialize_dt_m D b (MDict ps) zs; do (s', ps2, zs2) <- serialize_dt_m D e (MDict ps) zs1;
      if params_eqb (m_items _ ps2) (m_items _ ps1) then Ok (s ++ py "/" ++ s', ps1, zs2) else Err ValueError end) =
    in_dict (do e <- eff_end E t; match e with None => Err ValueError | Some e =>
      do (s, ps1, zs1) <- serialize_dt D b ps zs; do (s', ps2, zs2) <- serialize_dt D e ps zs1;
      if params_eqb ps2 ps1 then Ok (s ++ py "/" ++ s', ps1, zs2) else Err ValueError end)).
  { destruct (eff_end E t) as [[e|]|]; try reflexivity. cbn [bind]. rewrite serialize_dict.
    destruct (serialize_dt D b ps zs) as [[[s p1] z1]|]; [|reflexivity]. cbn [in_dict bind]. rewrite serialize_dict.
    destruct (serialize_dt D e ps z1) as [[[s' p2] z2]|]; [|reflexivity]. cbn [in_dict bind m_items].
    destruct (params_eqb p2 p1); reflexivity. }
  unfold end_representation. destruct (ts_dur t) as [d|] eqn:ED; [|destruct (ts_end t); exact G2].
  unfold eff_duration. rewrite ED. cbn [bind]. rewrite serialize_dict. destruct (serialize_dt D b ps zs) as [[[s p1] z1]|]; reflexivity.
Qed.

(** ** Parameters left out *)
Lemma zone_empty z zs r : zone_dropped D z zs r <-> match write_zone_m D z MEmpty zs with Ok (_, s) => Ok s | Err e => Err e end = r.
Proof.
  unfold write_zone_m. split.
  - intros [e H | H | n t H H1 | n t l H H1 H2 | n t l H H1 H2]; rewrite H; cbn; try reflexivity; rewrite ?H1; try reflexivity.
    + destruct (dict_get n l); [reflexivity | congruence].
    + rewrite H2. f_equal. f_equal. apply dict_set_new. now apply dict_get_None.
  - intros <-. destruct (z_from_tzinfo D z) as [[[n t]|]|] eqn:E; cbn.
    + destruct zs as [l|]; [|now apply (ZD_no_context D z None n t)]. destruct (dict_get n l) eqn:EG.
      * apply (ZD_known D z (Some l) n t l); congruence.
      * rewrite dict_set_new by now apply dict_get_None. now apply (ZD_new D z (Some l) n t l).
    + now apply ZD_local.
    + now apply ZD_fails.
Qed.
Lemma zone_stays z zs p s : write_zone_m D z MEmpty zs = Ok (p, s) -> p = MEmpty.
Proof. unfold write_zone_m. destruct (z_from_tzinfo D z) as [[[n t]|]|]; cbn; [destruct zs|..]; congruence. Qed.
Lemma zone_text z zs (s : list N) : (do (ps', zs') <- write_zone_m D z MEmpty zs; Ok (s, ps', zs')) =
  with_text s (match write_zone_m D z MEmpty zs with Ok (_, s) => Ok s | Err e => Err e end).
Proof. destruct (write_zone_m D z MEmpty zs) as [[p s']|] eqn:E; [|reflexivity]. apply zone_stays in E as ->. reflexivity. Qed.
Lemma clock_empty (utc : bool) fmt d zs r : clock_dropped D utc fmt d zs r <->
  match dtz d with None => Ok (fmt (wall d), MEmpty, zs)
  | Some z => if utc && z_is_utc D z then Ok (fmt (wall d) ++ py "Z", MEmpty, zs) else do (ps', zs') <- write_zone_m D z MEmpty zs; Ok (fmt (wall d), ps', zs') end = r.
Proof.
  split.
  - intros [H | z H H1 H2 | z r' H H1 H2]; rewrite H; [reflexivity | now rewrite H1, H2 | rewrite H1, zone_text].
    apply zone_empty in H2. now rewrite H2.
  - intros <-. destruct (dtz d) as [z|] eqn:E; [|now apply CD_floating]. destruct (utc && z_is_utc D z) eqn:EU.
    + apply andb_prop in EU as [EU1 EU2]. now apply (CD_utc D utc fmt d zs z).
    + rewrite zone_text. apply (CD_zone D utc fmt d zs z); auto. now apply zone_empty.
Qed.
Theorem serialize_empty d zs r : clock_dropped D true fmt_datetime d zs r <-> serialize_dt_m D d MEmpty zs = r.
Proof. apply clock_empty. Qed.
Theorem time_empty d zs r : clock_dropped D false (fun w => fmt_time (fields_of w)) d zs r <-> time_serialize_m D d MEmpty zs = r.
Proof. apply clock_empty. Qed.
Lemma last_rev (v : list N) c l : rev v = c :: l -> v <> [] /\ last v 0%N = c.
Proof.
  intros H. rewrite <- (rev_involutive v), H. cbn. split; [destruct (rev l); discriminate | apply last_last].
Qed.
Theorem parse_empty F v zs : parse_dt_m D F v MEmpty zs = read_plain D F v zs.
Proof.
  unfold parse_dt_m, read_plain. cbn [m_pop m_getitem m_delitem bind].
  destruct (rev v) as [|c l] eqn:E.
  - assert (v = []) as -> by (rewrite <- (rev_involutive v), E; reflexivity). reflexivity.
  - apply last_rev in E as [HN <-]. destruct v as [|x v]; [congruence|].
    destruct (strptime F _); [|reflexivity]. cbn [bind]. destruct (N.eqb _ 90); reflexivity.
Qed.
(** A dict without TZID reads alike. *)
Lemma parse_plain F v zs : parse_dt_m D F v (MDict []) zs = match read_plain D F v zs with Ok (d, _, z) => Ok (d, MDict [], z) | Err e => Err e end.
Proof.
  unfold parse_dt_m, read_plain. cbn [m_pop m_getitem dict_get bind].
  destruct (rev v) as [|c l] eqn:E.
  - assert (v = []) as -> by (rewrite <- (rev_involutive v), E; reflexivity). reflexivity.
  - apply last_rev in E as [HN <-]. destruct v as [|x v]; [congruence|].
    destruct (strptime F _); [|reflexivity]. cbn [bind]. destruct (N.eqb _ 90); reflexivity.
Qed.
Theorem period_parse_empty E v zs : period_parse_m D E v MEmpty zs =
  match period_parse D E v [] zs with Ok (t, _, z) => Ok (t, MEmpty, z) | Err e => Err e end.
Proof.
  assert (P : forall w z, parse_dt D FDate w [] z = match read_plain D FDate w z with Ok (d, _, z) => Ok (d, [], z) | Err e => Err e end).
  { intros w z. pose proof (parse_dict FDate w [] z) as H. rewrite parse_plain in H.
    destruct (read_plain D FDate w z) as [[[d m] z']|], (parse_dt D FDate w [] z) as [[[d2 p2] z2]|]; cbn in H; try discriminate; injection H; intros; subst; reflexivity. }
  unfold period_parse_m, period_parse. destruct (partition_slash v) as [st [fin|]]; [|reflexivity].
  assert (G1 : (do (b, ps1, zs1) <- parse_dt_m D FDate st MEmpty zs; do d <- duration_parse fin; do t <- make E KBase (Some b) None (Some d) PSecond; Ok (t, ps1, zs1)) =
    match (do (b, ps1, zs1) <- parse_dt D FDate st [] zs; do d <- duration_parse fin; do t <- make E KBase (Some b) None (Some d) PSecond; Ok (t, ps1, zs1)) with
    | Ok (t, _, z) => Ok (t, MEmpty, z) | Err e => Err e end).
  { rewrite parse_empty, P. destruct (read_plain D FDate st zs) as [[[b p1] z1]|] eqn:ER; [|reflexivity]. cbn [bind].
    assert (p1 = MEmpty) as -> by (unfold read_plain in ER; destruct st; [discriminate|]; destruct (strptime _ _); congruence).
    destruct (duration_parse fin); [|reflexivity]. cbn [bind]. destruct (make _ _ _ _ _ _); reflexivity. }
  assert (G2 : (do (b, ps1, zs1) <- parse_dt_m D FDate st MEmpty zs; do (e, _, zs2) <- parse_dt_m D FDate fin (MDict []) zs1; do t <- make E KBase (Some b) (Some e) None PSecond; Ok (t, ps1, zs2)) =
    match (do (b, ps1, zs1) <- parse_dt D FDate st [] zs; do (e, _, zs2) <- parse_dt D FDate fin [] zs1; do t <- make E KBase (Some b) (Some e) None PSecond; Ok (t, ps1, zs2)) with
    | Ok (t, _, z) => Ok (t, MEmpty, z) | Err e => Err e end).
  { rewrite parse_empty, P. destruct (read_plain D FDate st zs) as [[[b p1] z1]|] eqn:ER; [|reflexivity]. cbn [bind].
    assert (p1 = MEmpty) as -> by (unfold read_plain in ER; destruct st; [discriminate|]; destruct (strptime _ _); congruence).
    rewrite parse_plain, P. destruct (read_plain D FDate fin z1) as [[[e p2] z2]|]; [|reflexivity]. cbn [bind].
    destruct (make _ _ _ _ _ _); reflexivity. }
  change (copy_params MEmpty) with (@nil (list N * list (list N))).
  destruct fin as [|c fin]; [exact G2|].
  destruct c as [|p]; [exact G2|]. do 7 (destruct p as [p|p|]; try exact G2). exact G1.
Qed.
(** The end, written to a fresh dict *)
Lemma fresh_end d zs : serialize_dt_m D d (MDict []) zs =
  match serialize_dt_m D d MEmpty zs with
  | Ok (s, _, z) => Ok (s, MDict (match dtz d with Some x => if z_is_utc D x then [] else match z_from_tzinfo D x with Ok (Some (n, _)) => [(py "TZID", [n])] | _ => [] end | None => [] end), z)
  | Err e => Err e end.
Proof.
  unfold serialize_dt_m, write_zone_m. destruct (dtz d) as [x|]; [|reflexivity]. destruct (z_is_utc D x); [reflexivity|].
  destruct (z_from_tzinfo D x) as [[[n t]|]|]; try reflexivity. cbn. destruct zs; reflexivity.
Qed.
Lemma unnamed_iff d : unnamed D d <-> match dtz d with Some x => if z_is_utc D x then true else match z_from_tzinfo D x with Ok None => true | _ => false end | None => true end = true.
Proof.
  unfold unnamed. destruct (dtz d) as [z|]; [|split; auto]. split.
  - intros [H | (z' & [= <-] & [H | H])]; [discriminate | now rewrite H | rewrite H; now destruct (z_is_utc D z)].
  - intros H. right. exists z. split; [reflexivity|]. destruct (z_is_utc D z); [now left|]. right. destruct (z_from_tzinfo D z) as [[|]|]; easy.
Qed.
Lemma stays_empty d zs s m z : serialize_dt_m D d MEmpty zs = Ok (s, m, z) -> m = MEmpty.
Proof.
  unfold serialize_dt_m. destruct (dtz d) as [x|]; [|congruence]. destruct (z_is_utc D x); [congruence|].
  rewrite zone_text. destruct (write_zone_m D x MEmpty zs) as [[p q]|]; cbn; [congruence | discriminate].
Qed.
Theorem period_empty E t zs r : period_dropped D E t zs r <-> period_serialize_m D E t MEmpty zs = r.
Proof.
  assert (R : forall b e, (do (s, ps1, zs1) <- serialize_dt_m D b MEmpty zs;
       do (s', ps2, zs2) <- serialize_dt_m D e (MDict (copy_params MEmpty)) zs1;
       if params_eqb (m_items _ ps2) (m_items _ ps1) then Ok (s ++ py "/" ++ s', ps1, zs2) else Err ValueError) =
     (do (s, _, zs1) <- serialize_dt_m D b MEmpty zs; do (s', _, zs2) <- serialize_dt_m D e MEmpty zs1;
      if match dtz e with Some x => if z_is_utc D x then true else match z_from_tzinfo D x with Ok None => true | _ => false end | None => true end
      then Ok (s ++ py "/" ++ s', MEmpty, zs2) else Err ValueError)).
  { intros b e. destruct (serialize_dt_m D b MEmpty zs) as [[[s p1] z1]|] eqn:EB; [|reflexivity]. cbn [bind].
    apply stays_empty in EB as ->. change (MDict (copy_params MEmpty)) with (@MDict (list str) []). rewrite fresh_end.
    destruct (serialize_dt_m D e MEmpty z1) as [[[s' p2] z2]|] eqn:EE; [|reflexivity]. cbn [bind m_items].
    destruct (dtz e) as [x|] eqn:Ez; [|reflexivity]. destruct (z_is_utc D x) eqn:EU; [reflexivity|].
    destruct (z_from_tzinfo D x) as [[[n t0]|]|y] eqn:EF; try reflexivity.
    unfold serialize_dt_m, write_zone_m in EE. rewrite Ez, EU, EF in EE. discriminate EE. }
  assert (RD : end_representation t = match ts_dur t with Some _ => Some RDuration | None => match ts_end t with Some _ => Some REnd | None => None end end) by reflexivity.
  unfold period_serialize_m. rewrite RD. split.
  - intros [H | b d e H H1 H2 | b d s z1 H H1 H2 | b e H H1 H2 | b H H1 H2 | b d e H H1 H2 H3 | b d s z1 e H H1 H2 H3 H4 | b d s z1 s' z2 H H1 H2 H3 H4 H5 | b d s z1 s' z2 H H1 H2 H3 H4 H5];
      rewrite H; try reflexivity; rewrite H1; unfold eff_duration; rewrite ?H1.
    + cbn [bind]. apply serialize_empty in H2 as ->. reflexivity.
    + cbn [bind]. apply serialize_empty in H2 as ->. reflexivity.
    + rewrite H2. destruct (ts_end t); reflexivity.
    + rewrite H2. destruct (ts_end t); reflexivity.
    + rewrite H2. cbn [bind]. rewrite R. apply serialize_empty in H3 as ->. destruct (ts_end t); reflexivity.
    + rewrite H2. cbn [bind]. rewrite R. apply serialize_empty in H3 as ->. cbn [bind]. apply serialize_empty in H4 as ->. destruct (ts_end t); reflexivity.
    + rewrite H2. cbn [bind]. rewrite R. apply serialize_empty in H3 as ->. cbn [bind]. apply serialize_empty in H4 as ->. cbn [bind].
      rewrite unnamed_iff in H5. apply not_true_is_false in H5 as ->. destruct (ts_end t); reflexivity.
    + rewrite H2. cbn [bind]. rewrite R. apply serialize_empty in H3 as ->. cbn [bind]. apply serialize_empty in H4 as ->. cbn [bind].
      apply unnamed_iff in H5 as ->. destruct (ts_end t); reflexivity.
  - intros <-. destruct (ts_begin t) as [b|] eqn:EB; [|now apply PD_no_begin]. destruct (ts_dur t) as [d|] eqn:ED.
    + unfold eff_duration. rewrite ED. cbn [bind]. destruct (serialize_dt_m D b MEmpty zs) as [[[s m] z1]|x] eqn:ES; cbn [bind].
      * pose proof (stays_empty _ _ _ _ _ ES) as ->. apply (PD_duration D E t zs b d); auto. now apply serialize_empty.
      * apply (PD_duration_fails D E t zs b d); auto. now apply serialize_empty.
    + match goal with |- period_dropped D E t zs ?r => assert (X : period_dropped D E t zs
        (do e <- eff_end E t; match e with None => Err ValueError | Some e => do (s, ps1, zs1) <- serialize_dt_m D b MEmpty zs;
         do (s', ps2, zs2) <- serialize_dt_m D e (MDict (copy_params MEmpty)) zs1;
         if params_eqb (m_items _ ps2) (m_items _ ps1) then Ok (s ++ py "/" ++ s', ps1, zs2) else Err ValueError end)) end.
      { destruct (eff_end E t) as [[e|]|x] eqn:EE; cbn [bind].
        - rewrite R. destruct (serialize_dt_m D b MEmpty zs) as [[[s m] z1]|x] eqn:ES; cbn [bind].
          + pose proof (stays_empty _ _ _ _ _ ES) as ->. destruct (serialize_dt_m D e MEmpty z1) as [[[s' m] z2]|x] eqn:ES'; cbn [bind].
            * pose proof (stays_empty _ _ _ _ _ ES') as ->. destruct (match dtz e with Some _ => _ | None => _ end) eqn:EU.
              -- apply unnamed_iff in EU. apply (PD_both D E t zs b e s z1 s' z2); auto; now apply serialize_empty.
              -- apply (PD_named D E t zs b e s z1 s' z2); auto; [now apply serialize_empty | now apply serialize_empty | rewrite unnamed_iff; congruence].
            * apply (PD_last_fails D E t zs b e s z1 x); auto; now apply serialize_empty.
          + apply (PD_begin_fails D E t zs b e x); auto. now apply serialize_empty.
        - now apply (PD_no_end D E t zs b).
        - now apply (PD_end_fails D E t zs b). }
      destruct (ts_end t); exact X.
Qed.
Theorem person_empty v email extra : person_parse_m v MEmpty = (v, [], MEmpty) /\ person_serialize_m email extra MEmpty = (email, MEmpty).
Proof. split; [reflexivity|]. unfold person_serialize_m. now rewrite update_empty. Qed.
Theorem person_dict v email extra ps : person_parse_m v (MDict ps) = (v, ps, MDict []) /\ person_serialize_m email extra (MDict ps) = (email, MDict (dict_update ps extra)).
Proof. split; [reflexivity|]. unfold person_serialize_m. now rewrite update_dict. Qed.
End Conv.
