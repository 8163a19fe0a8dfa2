(** * Proofs: what is written for a component *)
From Verif Require Import M_Base M_Text M_Line M_Codec M_Cal M_Time M_Span M_Dt M_Tree M_Comp.
From Verif Require Import S_Codec S_Dt S_Read S_Order S_Write P_Base P_Codec P_Cal P_Dt P_Tree P_Comp P_Order P_WriteText.
From Coq Require Import Lia ZifyBool ZifyNat ZifyN.
Open Scope N_scope.

Lemma set_absent {V} k (v : V) d : dict_get k d = None -> dict_set k v d = d ++ [(k, v)].
Proof.
  induction d as [|[k' v'] d IH]; [easy|]. cbn. destruct (str_eqb k k'); [discriminate|]. intro H. now rewrite IH.
Qed.
Lemma collect_app us us' : forall zs, collect zs (us ++ us') = collect (collect zs us) us'.
Proof. induction us as [|[id z] us IH]; intro zs; [easy|]. cbn [collect app]. apply IH. Qed.
Lemma with_both zs a b : with_zones zs (both a b) =
  match with_zones zs a with
  | Err e => Err e
  | Ok (its, zs1) => match with_zones zs1 b with Err e => Err e | Ok (its', zs2) => Ok (its ++ its', zs2) end
  end.
Proof. destruct a as [[its us]|e]; [|easy]. destruct b as [[its' us']|e]; [|easy]. cbn. now rewrite collect_app. Qed.

Section Values.
Variable X : ext.
Lemma moment_exact d ps r : moment_written X d ps r -> forall zs, dt_serialize X d ps zs = with_zones zs r.
Proof.
  intros H zs. unfold dt_serialize, serialize_dt, D.
  destruct H as [s Z C|z s Z U C|z s Z U F C|z id z' s Z U F C|z e Z U F]; rewrite Z; try (apply clock_exact in C as ->).
  - reflexivity.
  - rewrite U. reflexivity.
  - rewrite U. unfold write_zone. rewrite F. reflexivity.
  - rewrite U. unfold write_zone. rewrite F. cbn. destruct (dict_get id zs) eqn:G; [easy|]. now rewrite set_absent.
  - rewrite U. unfold write_zone. rewrite F. reflexivity.
Qed.
Lemma moment_total d ps : wall_ok (wall d) = true -> exists r, moment_written X d ps r.
Proof.
  intro H. destruct (clock_total _ H) as [s C]. destruct (dtz d) as [z|] eqn:Z; [|eexists; now apply MW_floating with (s := s)].
  destruct (z_is_utc (x_zdb X) z) eqn:U; [eexists; eapply MW_utc; eassumption|].
  destruct (z_from_tzinfo (x_zdb X) z) as [[[id z']|]|e] eqn:F.
  - eexists. eapply MW_zone; eassumption.
  - eexists. eapply MW_local; eassumption.
  - eexists. eapply MW_unknown; eassumption.
Qed.
Lemma shows_exact t v ps r : shows X t v ps r -> forall zs, vserialize X t v ps zs = with_zones zs r.
Proof.
  destruct 1; intro zs; cbn [vserialize with_zones collect]; try reflexivity.
  - now apply escaped_text in H as ->.
  - now apply binary_serialize_exact in H0 as ->.
  - now apply moment_exact.
  - now apply duration_exact in H as ->.
  - now apply integer_text in H as ->.
Qed.
Lemma shows_total t v ps : of_type t v -> real_value v -> exists r, shows X t v ps r.
Proof.
  destruct 1; intro R; try (eexists; constructor; fail).
  - eexists. constructor. apply escaped_total.
  - eexists. constructor; [exact R|]. now apply binary_serialize_exact.
  - destruct (moment_total d ps R) as [r H]. exists r. now constructor.
  - destruct (duration_total t R) as [s H]. eexists. constructor. exact H.
  - destruct (integer_total n) as [s H]. eexists. constructor. exact H.
  - destruct b; eexists; constructor.
  - destruct b; eexists; constructor.
Qed.
Lemma of_type_spec t v : of_type t v <-> isinst t v = true.
Proof.
  split; [now destruct 1|]. intro H. destruct t, v; try discriminate H; try constructor; destruct r; try discriminate H; constructor.
Qed.
Lemma of_type_dec t v : {of_type t v} + {~ of_type t v}.
Proof. destruct (isinst t v) eqn:H; [left; now apply of_type_spec|right; rewrite of_type_spec; congruence]. Qed.

Definition types_ok (ts : types) (convs : list vconv) : Prop := map (@snd (list N) vconv) ts = convs /\ Forall (fun p : list N * vconv => fst p = ics_type (snd p)) ts.
Lemma find_none (ts : types) v : (forall w t, In (w, t) ts -> ~ of_type t v) -> forall b ps, find_conv b (map snd ts) v ps = Err ValueError.
Proof.
  induction ts as [|[w t] ts IH]; intros H b ps; [easy|]. cbn [map snd find_conv].
  destruct (isinst t v) eqn:I; [apply of_type_spec in I; now apply (H w t) in I; [|left]|]. apply IH. intros w' t' I'. apply H with w'. now right.
Qed.
Lemma find_later (pre : types) t (post : types) v ps : (forall w' t', In (w', t') pre -> ~ of_type t' v) -> of_type t v ->
  find_conv false (map snd (pre ++ (ics_type t, t) :: post)) v ps = Ok (t, dict_set (py "VALUE") [PRaw (ics_type t)] ps).
Proof.
  induction pre as [|[w' t'] pre IH]; intros H T; cbn [app map snd find_conv].
  - apply of_type_spec in T. now rewrite T.
  - destruct (isinst t' v) eqn:I; [apply of_type_spec in I; now apply (H w' t') in I; [|left]|]. apply IH; [|exact T]. intros w1 t1 I1. apply H with w1. now right.
Qed.
(** Finding the type and writing the value. *)
Lemma value_exact ts convs v ps r : types_ok ts convs -> value_written X ts v ps r -> forall B zs (k : list N -> xp -> zones -> res B),
  (do (conv, ps1) <- find_conv true convs v ps; do (s, ps2, zs') <- vserialize X conv v ps1 zs; k s ps2 zs') =
  match with_zones zs r with Ok (s, q, zs') => k s q zs' | Err e => Err e end.
Proof.
  intros [<- W] H B zs k. destruct H as [N|w t post r -> T S|pre w t post r NE -> N T S].
  - now rewrite find_none.
  - cbn [map snd find_conv]. apply of_type_spec in T. rewrite T. cbn [bind]. rewrite (shows_exact _ _ _ _ S). now destruct r as [[[s q] us]|e].
  - assert (w = ics_type t) as ->. { rewrite Forall_forall in W. apply (W (w, t)). apply in_app_iff. right. now left. }
    destruct pre as [|[w' t'] pre]; [easy|]. cbn [app map snd find_conv].
    destruct (isinst t' v) eqn:I; [apply of_type_spec in I; now apply (N w' t') in I; [|left]|]. rewrite find_later; [|intros w1 t1 I1; apply N with w1; now right|exact T].
    cbn [bind]. rewrite (shows_exact _ _ _ _ S). now destruct r as [[[s q] us]|e].
Qed.
Lemma first_fit (ts : types) v : (forall w t, In (w, t) ts -> ~ of_type t v) \/
  exists pre w t post, ts = pre ++ (w, t) :: post /\ (forall w' t', In (w', t') pre -> ~ of_type t' v) /\ of_type t v.
Proof.
  induction ts as [|[w t] ts IH]; [now left|]. destruct (of_type_dec t v) as [T|T]; [right; now exists [], w, t, ts|].
  destruct IH as [IH|(pre & w1 & t1 & post & -> & N & T1)].
  - left. intros w' t' [E|I]; [now injection E as <- <-|now apply IH with w'].
  - right. exists ((w, t) :: pre), w1, t1, post. repeat split; [|exact T1]. intros w' t' [E|I]; [now injection E as <- <-|now apply N with w'].
Qed.
Lemma value_total ts v ps : real_value v -> exists r, value_written X ts v ps r.
Proof.
  intro R. destruct (first_fit ts v) as [N|(pre & w & t & post & -> & N & T)]; [eexists; now apply VW_none|]. destruct pre as [|p pre].
  - destruct (shows_total t v ps T R) as [r S]. exists r. now apply VW_default with w t post.
  - destruct (shows_total t v (dict_set (py "VALUE") [PRaw w] ps) T R) as [r S]. exists r. now apply VW_other with (p :: pre) w t post.
Qed.

(** ** Properties *)
Section Members.
Context {M : Type}.
Lemma own_exact (x : comp M) key r : own_params x key r -> single_params key x = r.
Proof. unfold single_params. destruct 1 as [H|p H|H|p ps H]; now rewrite H. Qed.
Lemma own_total (x : comp M) key : exists r, own_params x key r.
Proof.
  destruct (dict_get key (c_params x)) as [[p|[|p l]]|] eqn:H; eexists; [apply OP_one; exact H|now apply OP_empty|now apply (OP_list x key p l)|now apply OP_none].
Qed.
Lemma one_exact (x : comp M) n a ts convs r o st p : types_ok ts convs -> upper n = n -> one_written X x n a ts r ->
  forall zs, serialize_single X (mk_aconv a [n] p (KVal convs false o st)) n convs x zs = with_zones zs r.
Proof.
  intros T U H zs. unfold serialize_single. cbn [a_attr]. unfold a_key. cbn [a_attr].
  destruct H as [A|e A P|l ps A P|v ps e A P V|v ps s q us A P V].
  - now rewrite A.
  - destruct (get_attr a x); [easy| |]; now rewrite (own_exact _ _ _ P).
  - rewrite A, (own_exact _ _ _ P). reflexivity.
  - rewrite A, (own_exact _ _ _ P). cbn [bind]. now rewrite (value_exact _ _ _ _ _ T V).
  - rewrite A, (own_exact _ _ _ P). cbn [bind]. rewrite (value_exact _ _ _ _ _ T V). cbn. unfold ContentLine. now rewrite U.
Qed.
Lemma one_total (x : comp M) n a ts : real_attr (get_attr a x) -> exists r, one_written X x n a ts r.
Proof.
  intro R. destruct (own_total x (upper a)) as [[ps|e] P].
  - destruct (get_attr a x) as [|v|l] eqn:A; [eexists; now apply OW_none| |eexists; eapply OW_list; eassumption].
    destruct (value_total ts v ps R) as [[[[s q] us]|e] V]; eexists; [eapply OW_line|eapply OW_fails]; eassumption.
  - destruct (get_attr a x) eqn:A; [eexists; now apply OW_none| |]; exists (Err e); apply OW_params; try exact P; congruence.
Qed.

(** Lists of values. *)
Definition markedb (p : xp) : bool := match dict_get MERGE p with Some [t] => str_eqb (pval_str t) (py "TRUE") | _ => false end.
Lemma marked_spec vp : marked vp <-> markedb (snd vp) = true.
Proof.
  unfold marked, markedb. fold MERGE. split.
  - intros (t & -> & ->). apply str_eqb_refl.
  - destruct (dict_get MERGE (snd vp)) as [[|t [|? ?]]|]; try discriminate. intro H. exists t. split; [easy|now apply str_eqb_eq].
Qed.
Lemma same_spec p q : same_params p q <-> params_eqb (strs p) (strs q) = true.
Proof.
  unfold same_params, params_eqb. rewrite andb_true_iff, Nat.eqb_eq, forallb_forall. unfold strs at 1 2. rewrite !map_length.
  assert (G : forall k l, dict_get k (strs l) = option_map (map pval_str) (dict_get k l)).
  { intros k l. unfold strs. induction l as [|[k' v'] l IH]; [easy|]. cbn. destruct (str_eqb k k'); [easy|exact IH]. }
  apply and_iff_compat_l. split.
  - intros H [k v] I. unfold strs in I. apply in_map_iff in I as ([k' vs] & E & I). cbn in E. injection E as <- <-. cbn [fst snd].
    destruct (H k' vs I) as (ws & D & S). rewrite G, D. cbn. rewrite S. now destruct (list_eq_dec _ _ _).
  - intros H k vs I. specialize (H (k, map pval_str vs)). cbn [fst snd] in H. rewrite G in H. destruct (dict_get k q) as [ws|].
    + exists ws. split; [easy|]. cbn in H. destruct (list_eq_dec _ (map pval_str vs) (map pval_str ws)) in H; [easy|]. discriminate H. unfold strs. apply in_map_iff. now exists (k, vs).
    + cbn in H. discriminate H. unfold strs. apply in_map_iff. now exists (k, vs).
Qed.
Lemma same_dec p q : {same_params p q} + {~ same_params p q}.
Proof. destruct (params_eqb (strs p) (strs q)) eqn:H; [left; now apply same_spec|right; rewrite same_spec; congruence]. Qed.
Lemma marked_dec vp : {marked vp} + {~ marked vp}.
Proof. destruct (markedb (snd vp)) eqn:H; [left; now apply marked_spec|right; rewrite marked_spec; congruence]. Qed.

Definition fits_cur (cur : option xp) (os : list (list N * xp * uses)) : Prop :=
  match cur, os with
  | Some q, _ => Forall (fun o => same_params q (shown_params o)) os
  | None, [] => True
  | None, o :: os' => Forall (fun o' => same_params (shown_params o) (shown_params o')) os'
  end.
Definition next_cur (cur : option xp) (os : list (list N * xp * uses)) : option xp :=
  match cur, os with Some q, _ => Some q | None, o :: _ => Some (shown_params o) | None, [] => None end.
Lemma step_values ts convs n vp rest cur acc m zs r : types_ok ts convs -> part_written X ts vp r ->
  serialize_values X n convs (vp :: rest) cur acc m zs =
  match with_zones zs r with
  | Err e => Err e
  | Ok (s, q, zs') =>
      if match cur with Some q0 => params_eqb (strs q0) (strs q) | None => true end then
        if markedb (snd vp) then serialize_values X n convs rest (Some (match cur with Some q0 => q0 | None => q end)) (acc ++ [s]) true zs'
        else do (its, zs'') <- serialize_values X n convs rest None [] false zs';
             Ok (ILine (ContentLine n q (join_value_list (acc ++ [s]))) :: its, zs'')
      else Err ValueError
  end.
Proof.
  intros T H. destruct vp as [v p]. cbn [serialize_values snd]. unfold part_written in H. cbn [fst snd] in H. fold MERGE in H.
  rewrite (value_exact _ _ _ _ _ T H). destruct (with_zones zs r) as [[[s q] zs']|e]; [|easy].
  destruct cur as [q0|]; [destruct (params_eqb (strs q0) (strs q))|]; reflexivity.
Qed.
Lemma group_values ts convs n : types_ok ts convs -> forall g os rest cur acc m zs, Forall marked g ->
  Forall2 (fun vp o => part_written X ts vp (Ok o)) g os -> fits_cur cur os ->
  serialize_values X n convs (g ++ rest) cur acc m zs =
  serialize_values X n convs rest (next_cur cur os) (acc ++ map shown_text os) (match g with [] => m | _ => true end) (collect zs (concat (map shown_uses os))).
Proof.
  intro T. induction g as [|vp g IH]; intros os rest cur acc m zs G F C; inversion F as [|? o ? os' P F' E1 E2]; subst.
  - cbn. rewrite app_nil_r. now destruct cur.
  - inversion G as [|? ? G1 G2]; subst. cbn [app]. rewrite (step_values ts convs n vp (g ++ rest) cur acc m zs (Ok o) T P).
    destruct o as [[s q] us]. cbn [with_zones]. apply marked_spec in G1. rewrite G1.
    assert (Q : match cur with Some q0 => params_eqb (strs q0) (strs q) | None => true end = true).
    { destruct cur as [q0|]; [|easy]. apply same_spec. now inversion C. }
    rewrite Q. rewrite (IH os' rest (Some (match cur with Some q0 => q0 | None => q end))); [|easy|easy|].
    + cbn [map concat shown_uses shown_text shown_params fst snd]. rewrite collect_app, <- app_assoc. cbn [app]. destruct cur as [q0|]; now destruct g.
    + destruct cur as [q0|]; [now inversion C|exact C].
Qed.
Lemma commas_join l w : commas l w -> w = join_value_list l.
Proof. induction 1 as [s|s ss w H ->]; [easy|]. destruct ss as [|a ss]; [inversion H|reflexivity]. Qed.
Lemma commas_total l : l <> [] -> exists w, commas l w.
Proof.
  induction l as [|s l IH]; [easy|]. intros _. destruct l as [|s' l]; [eexists; constructor|]. destruct IH as [w W]; [easy|]. eexists. apply CO_more. exact W.
Qed.
Lemma parts_app ts g vp os o : parts_written X ts (g ++ [vp]) (os ++ [o]) -> 
  Forall2 (fun vp o => part_written X ts vp (Ok o)) g os /\ part_written X ts vp (Ok o) /\ fits_cur None os /\
  match os with [] => True | o0 :: _ => same_params (shown_params o0) (shown_params o) end.
Proof.
  intros [F S]. apply Forall2_app_inv_l in F as (l1 & l2 & F1 & F2 & E). inversion F2 as [|? o' ? l P F3]; subst. inversion F3; subst.
  apply app_inj_tail in E as [<- <-]. repeat split; try easy; destruct os as [|o0 os]; try easy; cbn [app] in S.
  - cbn. now apply Forall_app in S.
  - apply Forall_app in S as [_ S]. now inversion S.
Qed.
Lemma lines_exact ts convs n vps r : types_ok ts convs -> upper n = n -> lines_written X ts n vps r ->
  forall zs, serialize_values X n convs vps None [] false zs = with_zones zs r.
Proof.
  intros T U H. induction H as [|g vp rest os o w its us G NM P C _ IH|g vp rest os e G NM P _ IH|g os NE G P|g vp rest os e G [F S] P|g vp rest o os o' G [F S] P NS]; intro zs.
  - reflexivity.
  - apply parts_app in P as (F & P & FC & S). rewrite (group_values ts convs n T g os (vp :: rest) None [] false zs G F FC).
    rewrite (step_values ts convs n vp rest _ _ _ _ (Ok o) T P). destruct o as [[s q] us']. cbn [with_zones].
    assert (Q : match next_cur None os with Some q0 => params_eqb (strs q0) (strs q) | None => true end = true).
    { destruct os; [easy|]. cbn. now apply same_spec. }
    rewrite Q. rewrite marked_spec in NM. destruct (markedb (snd vp)); [easy|]. rewrite IH. cbn [with_zones bind].
    apply commas_join in C as ->. rewrite map_app. unfold ContentLine. rewrite U. cbn [app map shown_text fst shown_params snd].
    rewrite map_app, concat_app. cbn [map concat shown_uses snd]. rewrite app_nil_r, !collect_app. reflexivity.
  - destruct P as [F S]. destruct (Forall2_app_inv_l _ _ F) as (os1 & l2 & F1 & F2 & ->). inversion F2 as [|? o ? l P F3]; subst. inversion F3; subst.
    assert (P' : parts_written X ts (g ++ [vp]) (os1 ++ [o])) by (split; assumption). apply parts_app in P' as (_ & _ & FC & S').
    rewrite (group_values ts convs n T g os1 (vp :: rest) None [] false zs G F1 FC). rewrite (step_values ts convs n vp rest _ _ _ _ (Ok o) T P). destruct o as [[s q] us']. cbn [with_zones].
    assert (Q : match next_cur None os1 with Some q0 => params_eqb (strs q0) (strs q) | None => true end = true).
    { destruct os1; [easy|]. cbn. now apply same_spec. }
    rewrite Q. rewrite marked_spec in NM. destruct (markedb (snd vp)); [easy|]. rewrite IH. reflexivity.
  - destruct P as [F S]. rewrite <- (app_nil_r g). rewrite (group_values ts convs n T g os [] None [] false zs G F S). now destruct g.
  - rewrite (group_values ts convs n T g os (vp :: rest) None [] false zs G F S). now rewrite (step_values ts convs n vp rest _ _ _ _ (Err e) T P).
  - rewrite (group_values ts convs n T g (o :: os) (vp :: rest) None [] false zs G F S). rewrite (step_values ts convs n vp rest _ _ _ _ (Ok o') T P).
    destruct o' as [[s q] us']. cbn [with_zones next_cur shown_params fst snd]. rewrite same_spec in NS. cbn [shown_params fst snd] in NS. now destruct (params_eqb _ _).
Qed.
Lemma lines_total ts n vps : Forall (fun vp => real_value (fst vp)) vps -> exists r, lines_written X ts n vps r.
Proof.
  intro R. enough (G : forall g os, Forall marked g -> parts_written X ts g os -> exists r, lines_written X ts n (g ++ vps) r).
  { apply (G [] []); [constructor|]. now split; [constructor|]. }
  induction vps as [|vp vps IH]; intros g os G P.
  - rewrite app_nil_r. destruct g as [|vp g]; eexists; [constructor|]. now apply LW_open with os.
  - inversion R as [|? ? R1 R2]; subst. specialize (IH R2).
    destruct (value_total ts (fst vp) (dict_del (py "__merge_next") (snd vp)) R1) as [[o|e] V]; [|eexists; eapply LW_fails; eassumption].
    assert (D : parts_written X ts (g ++ [vp]) (os ++ [o]) \/ exists o0 os', os = o0 :: os' /\ ~ same_params (shown_params o0) (shown_params o)).
    { destruct P as [F S]. destruct os as [|o0 os].
      - left. split; [apply Forall2_app; [exact F|now constructor]|]. constructor.
      - destruct (same_dec (shown_params o0) (shown_params o)) as [SM|SM]; [|right; now exists o0, os].
        left. split; [apply Forall2_app; [exact F|now constructor]|]. cbn [app]. apply Forall_app. split; [exact S|now constructor]. }
    destruct D as [D|(o0 & os' & -> & NS)]; [|eexists; eapply LW_differ; eassumption].
    destruct (marked_dec vp) as [Mk|Mk].
    + destruct (IH (g ++ [vp]) (os ++ [o])) as [r H]; [apply Forall_app; split; [exact G|now constructor]|exact D|]. exists r. now rewrite <- app_assoc in H.
    + destruct (IH [] []) as [[[its us]|e] H]; [constructor|now split; [constructor|]| |].
      * destruct (commas_total (map shown_text (os ++ [o]))) as [w W]; [rewrite map_app; now destruct (map shown_text os)|]. eexists. eapply LW_line; eassumption.
      * eexists. eapply LW_later; eassumption.
Qed.
Lemma many_exact (x : comp M) n a ts convs r o st p : types_ok ts convs -> upper n = n -> many_written X x n a ts r ->
  forall zs, serialize_multi X (mk_aconv a [n] p (KVal convs true o st)) n convs x zs = with_zones zs r.
Proof.
  intros T U H zs. unfold serialize_multi, a_key. cbn [a_attr].
  destruct H as [v A|A|vs r A P L|vs ps r A P NE Le L|vs ps A P NE Le|vs q A P NE]; rewrite A; try reflexivity.
  - assert (S : serialize_values X n convs (map (fun v => (v, [])) vs) None [] false zs = with_zones zs r) by now apply lines_exact with ts.
    cbn in P. destruct P as [P|[P|[P|[]]]]; rewrite <- P; exact S.
  - rewrite P. destruct ps as [|q ps]; [easy|]. rewrite Le, Nat.eqb_refl. now apply lines_exact with ts.
  - rewrite P. destruct ps as [|q ps]; [easy|]. destruct (Nat.eqb_spec (length (q :: ps)) (length vs)); [easy|reflexivity].
  - rewrite P. destruct q as [|k q]; [easy|]. destruct (Nat.eqb_spec (length (k :: q)) (length vs)), (Nat.eq_dec (length (k :: q)) (length vs)); easy.
Qed.
Lemma many_total (x : comp M) n a ts : real_attr (get_attr a x) -> exists r, many_written X x n a ts r.
Proof.
  intro R. destruct (get_attr a x) as [|v|vs] eqn:A; [eexists; now apply NW_none|eexists; eapply NW_one; eassumption|].
  assert (B : exists r, lines_written X ts n (map (fun v => (v, [])) vs) r).
  { apply lines_total. apply Forall_map. exact R. }
  destruct B as [r B].
  destruct (dict_get (upper a) (c_params x)) as [[[|k q]|[|q ps]]|] eqn:P.
  - exists r. apply NW_bare with vs; [exact A|rewrite P; cbn; tauto|exact B].
  - eexists. apply NW_dict with (vs := vs) (p := k :: q); easy.
  - exists r. apply NW_bare with vs; [exact A|rewrite P; cbn; tauto|exact B].
  - destruct (Nat.eq_dec (length (q :: ps)) (length vs)) as [L|L].
    + destruct (lines_total ts n (combine vs (q :: ps))) as [r' C].
      { apply Forall_forall. intros [v p] I. apply in_combine_l in I. cbn in R. rewrite Forall_forall in R. now apply R. }
      exists r'. now apply NW_params with vs (q :: ps).
    + eexists. apply NW_count with (vs := vs) (ps := q :: ps); easy.
  - exists r. apply NW_bare with vs; [exact A|rewrite P; cbn; tauto|exact B].
Qed.

(** The time span. *)
Lemma time_exact day d ps r : time_written X day d ps r -> forall zs, span_date X day d ps zs = with_zones zs r.
Proof.
  destruct 1 as [s -> D|r -> H]; intro zs; unfold span_date; [apply day_exact in D as ->; reflexivity|now apply moment_exact].
Qed.
Lemma time_total day d ps : wall_ok (wall d) = true -> exists r, time_written X day d ps r.
Proof.
  intro H. destruct day; [destruct (day_total _ H) as [s S]; eexists; eapply TW_day; [easy|exact S]|]. destruct (moment_total d ps H) as [r R]. exists r. now apply TW_time.
Qed.
Lemma line_exact (x : comp M) n key day d r : time_line X x n key day d r -> forall zs,
  (do ps <- single_params key x; do (s, ps', zs') <- span_date X day d ps zs; Ok ([ILine (mk_line n ps' s)], zs')) = with_zones zs r.
Proof.
  destruct 1 as [e P|ps e P T|ps s q us P T]; intro zs; rewrite (own_exact _ _ _ P); [easy| |]; cbn [bind]; now rewrite (time_exact _ _ _ _ T).
Qed.
Lemma line_total (x : comp M) n key day d : wall_ok (wall d) = true -> exists r, time_line X x n key day d r.
Proof.
  intro H. destruct (own_total x key) as [[ps|e] P]; [|eexists; apply TL_params; exact P].
  destruct (time_total day d ps H) as [[[[s q] us]|e] T]; eexists; [eapply TL_line|eapply TL_fails]; eassumption.
Qed.
Lemma span_exact (x : comp M) a r : a_attr a = py "timespan" -> span_written X x r -> forall zs, serialize_span X a x zs = with_zones zs r.
Proof.
  intros EA H zs. unfold serialize_span. rewrite EA. destruct H as [t ra rb A B E|A].
  - rewrite A, with_both. change (is_all_day t) with (is_day (ts_prec t)).
    assert (EB : match ts_begin t with None => Ok ([], zs) | Some b => do ps <- single_params (py "BEGIN") x; do (s, ps', zs') <- span_date X (is_day (ts_prec t)) b ps zs; Ok ([ILine (mk_line (py "DTSTART") ps' s)], zs') end = with_zones zs ra).
    { destruct B as [-> |b r -> B]; [easy|]. now apply line_exact. }
    rewrite EB. destruct (with_zones zs ra) as [[its zs1]|e]; [|easy].
    assert (BO : forall A B (v : A) (f : A -> res B), bind (Ok v) f = f v) by reflexivity. rewrite BO. cbv beta iota.
    assert (EE : match end_representation t with
      | None => Ok ([], zs1)
      | Some REnd => let name := match ts_kind t with KTodo => py "DUE" | _ => py "DTEND" end in
          do ps <- single_params name x; do e <- eff_end (M_Comp.E X) t;
          match e with None => Err AttributeError | Some e => do (s, ps', zs') <- span_date X (is_day (ts_prec t)) e ps zs1; Ok ([ILine (mk_line name ps' s)], zs') end
      | Some RDuration => do ps <- single_params (py "DURATION") x; do d <- eff_duration (M_Comp.E X) t;
          match d with None => Err AssertionError | Some d => Ok ([ILine (mk_line (py "DURATION") ps (duration_serialize d))], zs1) end
      end = with_zones zs1 rb).
    { unfold end_representation, eff_end, eff_duration. destruct E as [D E|e r D E L|d e D P|d ps s D P S]; rewrite D; [now rewrite E| | |].
      - rewrite E. cbv zeta. change (match ts_kind t with KTodo => py "DUE" | _ => py "DTEND" end) with (end_line (ts_kind t)). exact (line_exact _ _ _ _ _ _ L zs1).
      - now rewrite (own_exact _ _ _ P).
      - rewrite (own_exact _ _ _ P). apply duration_exact in S as ->. reflexivity. }
    match goal with |- bind ?e _ = _ => transitivity (bind (with_zones zs1 rb) (fun p => let '(its2, zs2) := p in Ok (its ++ its2, zs2))); [rewrite <- EE; reflexivity|] end.
    destruct (with_zones zs1 rb) as [[its' zs2]|e]; reflexivity.
  - destruct (get_attr (py "timespan") x) as [|v|l]; try reflexivity. destruct v; try reflexivity. now destruct (A t).
Qed.
Lemma span_total (x : comp M) : real_attr (get_attr (py "timespan") x) -> exists r, span_written X x r.
Proof.
  intro R. destruct (get_attr (py "timespan") x) as [|v|l] eqn:A; try (eexists; apply SW_none; congruence). destruct v; try (eexists; apply SW_none; congruence).
  destruct R as (RB & RE & RD).
  assert (B : exists r, begin_written X x t r).
  { destruct (ts_begin t) as [b|] eqn:B; [|eexists; now apply BW_none]. destruct (line_total x (py "DTSTART") (py "BEGIN") (is_day (ts_prec t)) b (RB b eq_refl)) as [r L]. exists r. now apply BW_some with b. }
  assert (E : exists r, end_written X x t r).
  { destruct (ts_dur t) as [d|] eqn:D.
    - destruct (own_total x (py "DURATION")) as [[ps|e] P]; [|eexists; eapply EW_params; eassumption]. destruct (duration_total d (RD d eq_refl)) as [s S]. eexists. eapply EW_duration; eassumption.
    - destruct (ts_end t) as [e|] eqn:E; [|eexists; now apply EW_none].
      destruct (line_total x (end_line (ts_kind t)) (end_line (ts_kind t)) (is_day (ts_prec t)) e (RE e eq_refl)) as [r L]. exists r. now apply EW_end with e. }
  destruct B as [ra B], E as [rb E]. exists (both ra rb). now apply SW_span with t.
Qed.

(** The action. *)
Lemma action_exact (x : comp M) r : action_written x r -> forall zs, serialize_action x zs = with_zones zs r.
Proof.
  intros H zs. unfold serialize_action.
  assert (A : forall o, action_is x o -> action x = o).
  { intros o A. unfold action. destruct A as [c s I C|s C A|C A]; rewrite C.
    - cbn [In] in I. repeat destruct I as [I|I]; try easy; now injection I as <- <-.
    - now rewrite A.
    - destruct (get_attr (py "_action") x) as [|v|l]; try reflexivity. destruct v; try reflexivity. now destruct (A s). }
  destruct H as [e I|s e I P|s ps I P]; rewrite (A _ I); [easy| |]; cbn [bind]; now rewrite (own_exact _ _ _ P).
Qed.
Lemma action_total (x : comp M) : is_alarm (c_cls x) = true -> exists r, action_written x r.
Proof.
  intro C. assert (A : exists o, action_is x o).
  { destruct (c_cls x) eqn:K; try discriminate C.
    - eexists. apply (AI_class x CAudio (py "AUDIO")); [cbn [In]; tauto|exact K].
    - destruct (get_attr (py "_action") x) as [|v|l] eqn:G; try (eexists; apply AI_no_text; [exact K|congruence]).
      destruct v; try (eexists; apply AI_no_text; [exact K|congruence]). eexists. eapply AI_custom; [exact K|exact G].
    - eexists. apply (AI_class x CDisplay (py "DISPLAY")); [cbn [In]; tauto|exact K].
    - eexists. apply (AI_class x CEmail (py "EMAIL")); [cbn [In]; tauto|exact K].
    - eexists. apply (AI_class x CNone (py "NONE")); [cbn [In]; tauto|exact K]. }
  destruct A as [[s|e] A]; [|eexists; apply AW_none; exact A].
  destruct (own_total x (py "ACTION")) as [[ps|e] P]; eexists; [eapply AW_line|eapply AW_params]; eassumption.
Qed.
End Members.
End Values.

(** ** Components *)
Definition vconv_dec (a b : vconv) : {a = b} + {a <> b}.
Proof. decide equality. Defined.
Definition types_okb (ts : types) (convs : list vconv) : bool :=
  (if list_eq_dec vconv_dec (map (@snd (list N) vconv) ts) convs then true else false) && forallb (fun p : list N * vconv => str_eqb (fst p) (ics_type (snd p))) ts.
Lemma types_okb_spec ts convs : types_okb ts convs = true -> types_ok ts convs.
Proof.
  unfold types_okb, types_ok. destruct (list_eq_dec _ _ _) as [E|]; [|discriminate]. cbn [andb]. intro F. split; [exact E|].
  rewrite forallb_forall in F. apply Forall_forall. intros p I. apply str_eqb_eq. now apply F.
Qed.
Definition all_cls : list cls := [CEvent; CTodo; CCalendar; CAudio; CCustom; CDisplay; CEmail; CNone].
Lemma all_cls_in c : In c all_cls.
Proof. destruct c; cbn; tauto. Qed.
(** In all classes, a name and an attribute have the same types. *)
Definition conv_types (a : aconv) : bool :=
  match a_kind a with
  | KVal convs false _ _ => forallb (fun c => forallb (fun f => negb (str_eqb (g_attr f) (a_attr a) && str_eqb (g_name f) (hd [] (a_names a))) || types_okb (g_types f) convs) (singles c)) all_cls
  | KVal convs true _ _ => forallb (fun c => forallb (fun f => negb (str_eqb (h_attr f) (a_attr a) && str_eqb (h_name f) (hd [] (a_names a))) || types_okb (h_types f) convs) (multiples c)) all_cls
  | _ => true
  end.
Lemma all_types : forallb (fun c => forallb conv_types (converters c)) all_cls = true.
Proof. vm_compute. reflexivity. Qed.
Definition conv_ok (a : aconv) : Prop := conv_types a = true.
Lemma class_types c : Forall conv_ok (converters c).
Proof.
  pose proof all_types as H. rewrite forallb_forall in H. specialize (H c (all_cls_in c)). rewrite forallb_forall in H. apply Forall_forall. exact H.
Qed.
Definition slot_typed (c : cls) (s : slot) : bool :=
  match s with
  | One n a => existsb (fun f => str_eqb (g_attr f) a && str_eqb (g_name f) n) (singles c)
  | Many n a => existsb (fun f => str_eqb (h_attr f) a && str_eqb (h_name f) n) (multiples c)
  | Action => is_alarm c
  | _ => true
  end.
Lemma slots_typed c : c <> CCalendar -> forallb (slot_typed c) (slots c) = true.
Proof. intro H. destruct c; try reflexivity; try easy; vm_compute; reflexivity. Qed.

Section Comps.
Variable X : ext.
Context {M : Type}.
Variable dump_m : M -> zones -> res (item * zones).
Variable member_written : M -> res (item * uses) -> Prop.
Hypothesis member_exact : forall m r, member_written m r -> forall zs, dump_m m zs = with_zones zs r.

Lemma members_exact l r : members_written member_written l r -> forall zs, dump_list M dump_m l zs = with_zones zs r.
Proof.
  induction 1 as [|m l e H|m l it us r H _ IH]; intro zs; cbn [dump_list]; [easy| |]; rewrite (member_exact _ _ H); [easy|].
  rewrite with_both. cbn [with_zones bind]. rewrite IH. now destruct (with_zones (collect zs us) r) as [[its zs2]|e].
Qed.
Lemma subs_exact (x : comp M) a r : subs_written member_written x a r -> forall zs,
  match dict_get (upper a) (c_params x) with
  | Some (XOne (_ :: _)) | Some (XMany (_ :: _)) => Err ValueError
  | _ => dump_list M dump_m (get_mem a x) zs
  end = with_zones zs r.
Proof.
  intros H zs. destruct H as [(o & D & N1 & N2)|r N H].
  - rewrite D. now destruct o as [[|? ?]|[|? ?]].
  - pose proof (members_exact _ _ H zs) as E. destruct (dict_get (upper a) (c_params x)) as [[[|k q]|[|k q]]|] eqn:D; try exact E; exfalso; apply N; eexists; (split; [exact D|easy]).
Qed.
Lemma conv_exact a s (x : comp M) r : conv_ok a -> conv_slot a = Some s -> slot_written X member_written x s r ->
  forall zs, serialize_conv X M dump_m a x zs = with_zones zs r.
Proof.
  unfold conv_ok, conv_types, conv_slot, serialize_conv. destruct a as [at' ns p k]. cbn [a_kind a_names a_attr].
  destruct k as [convs [] rq st|k|m| |]; intros T S H zs.
  - destruct ns as [|n [|? ?]]; try discriminate. destruct (str_eqb (upper n) n) eqn:U; [|discriminate]. injection S as <-. inversion H as [| | |n' a' ts r' I W|]; subst.
    apply many_exact with ts; [|now apply str_eqb_eq|exact W]. rewrite forallb_forall in T. specialize (T (c_cls x) (all_cls_in _)). rewrite forallb_forall in T. specialize (T _ I).
    cbn [h_attr h_name h_types hd] in T. rewrite !str_eqb_refl in T. now apply types_okb_spec.
  - destruct ns as [|n [|? ?]]; try discriminate. destruct (str_eqb (upper n) n) eqn:U; [|discriminate]. injection S as <-. inversion H as [| |n' a' ts rl r' I W| |]; subst.
    apply one_exact with ts; [|now apply str_eqb_eq|exact W]. rewrite forallb_forall in T. specialize (T (c_cls x) (all_cls_in _)). rewrite forallb_forall in T. specialize (T _ I).
    cbn [g_attr g_name g_types hd] in T. rewrite !str_eqb_refl in T. now apply types_okb_spec.
  - destruct (str_eqb at' (py "timespan")) eqn:U; [|discriminate]. injection S as <-. apply str_eqb_eq in U. inversion H; subst. now apply span_exact.
  - injection S as <-. inversion H; subst. unfold a_key. cbn [a_attr]. now apply subs_exact.
  - injection S as <-. inversion H; subst. now apply action_exact.
  - discriminate.
Qed.
Lemma convs_exact l : forall ss (x : comp M) r, Forall conv_ok l -> map conv_slot l = map Some ss -> slots_written X member_written x ss r ->
  forall zs, serialize_convs X M dump_m l x zs = with_zones zs r.
Proof.
  induction l as [|a l IH]; intros ss x r T E H zs; destruct ss as [|s ss]; try discriminate; cbn [serialize_convs].
  - now inversion H.
  - cbn [map] in E. injection E as E1 E2. inversion T as [|? ? T1 T2]; subst. inversion H as [|? ? ra rb S1 S2]; subst.
    rewrite with_both, (conv_exact a s x ra T1 E1 S1). destruct (with_zones zs ra) as [[its zs1]|e]; [|easy]. cbn [bind].
    rewrite (IH ss x rb T2 E2 S2). now destruct (with_zones zs1 rb) as [[its2 zs2]|e].
Qed.
Theorem comp_exact (x : comp M) r : comp_written X member_written x r -> forall zs, dump_comp X M dump_m x zs = with_zones zs r.
Proof.
  intros H zs. unfold dump_comp. destruct H as [e C H|its us C H N|its us C H N]; rewrite (convs_exact _ _ _ _ (class_types _) (class_slots _ C) H); [easy| |]; cbn [with_zones bind]; unfold Container.
  - now rewrite N.
  - unfold written_name. destruct (upper (c_name x)) eqn:U; [exfalso; apply N; now apply (proj1 (upper_nil (c_name x)))|]. reflexivity.
Qed.

Variable real_member : M -> Prop.
Hypothesis member_total : forall m, real_member m -> exists r, member_written m r.
Lemma members_total l : Forall real_member l -> exists r, members_written member_written l r.
Proof.
  induction 1 as [|m l Hm _ [r IH]]; [eexists; constructor|]. destruct (member_total m Hm) as [[[it us]|e] W]; eexists; [eapply MM_cons|eapply MM_fails]; eassumption.
Qed.
Lemma subs_total (x : comp M) a : Forall real_member (get_mem a x) -> exists r, subs_written member_written x a r.
Proof.
  intro R. destruct (members_total _ R) as [r W].
  destruct (dict_get (upper a) (c_params x)) as [[[|k q]|[|k q]]|] eqn:D;
    try (exists (Err ValueError); apply UW_params; eexists; split; [exact D|easy]); exists r; (apply UW_members; [|exact W]); intros (o & D' & N1 & N2); congruence.
Qed.
Lemma slot_total (x : comp M) s : slot_typed (c_cls x) s = true -> real_comp real_member x -> exists r, slot_written X member_written x s r.
Proof.
  intros T [RA RM]. destruct s as [| |n a|n a|a]; cbn [slot_typed] in T.
  - destruct (span_total X x (RA _)) as [r W]. exists r. now constructor.
  - destruct (action_total x T) as [r W]. exists r. now constructor.
  - apply existsb_exists in T as ([a' n' ts rl] & I & E). cbn [g_attr g_name] in E. apply andb_true_iff in E as [E1 E2]. apply str_eqb_eq in E1, E2. subst a' n'.
    destruct (one_total X x n a ts (RA _)) as [r W]. exists r. now apply SL_one with ts rl.
  - apply existsb_exists in T as ([a' n' ts] & I & E). cbn [h_attr h_name] in E. apply andb_true_iff in E as [E1 E2]. apply str_eqb_eq in E1, E2. subst a' n'.
    destruct (many_total X x n a ts (RA _)) as [r W]. exists r. now apply SL_many with ts.
  - destruct (subs_total x a (RM a)) as [r W]. exists r. now constructor.
Qed.
Lemma slots_total (x : comp M) ss : forallb (slot_typed (c_cls x)) ss = true -> real_comp real_member x -> exists r, slots_written X member_written x ss r.
Proof.
  intros T R. induction ss as [|s ss IH]; [eexists; constructor|]. cbn [forallb] in T. apply andb_true_iff in T as [T1 T2].
  destruct (slot_total x s T1 R) as [ra A]. destruct (IH T2) as [rb B]. exists (both ra rb). now constructor.
Qed.
Theorem comp_total (x : comp M) : c_cls x <> CCalendar -> real_comp real_member x -> exists r, comp_written X member_written x r.
Proof.
  intros C R. destruct (slots_total x (slots (c_cls x)) (slots_typed _ C) R) as [[[its us]|e] S]; [|eexists; now apply CW_fails with (e := e)].
  destruct (c_name x) as [|c n] eqn:N; eexists; [eapply CW_nameless|eapply CW_comp]; try eassumption; congruence.
Qed.
End Comps.

Section Classes.
Variable X : ext.
Theorem alarm_exact (x : alarm) r : alarm_written X x r -> forall zs, dump_alarm X x zs = with_zones zs r.
Proof. apply comp_exact. intros []. Qed.
Theorem entry_exact (x : entry) r : entry_written X x r -> forall zs, dump_entry X x zs = with_zones zs r.
Proof. apply comp_exact. exact alarm_exact. Qed.
Lemma zones_exact zs r : zones_dumped X zs r -> dump_zones X zs = r.
Proof. induction 1 as [|id z zs e H|id z zs it e H _ IH|id z zs it its H _ IH]; cbn [dump_zones]; [easy| | |]; rewrite H; cbn [bind]; [easy| |]; now rewrite IH. Qed.
Lemma head_slots : map conv_slot (before_zones (converters CCalendar)) = map Some calendar_head.
Proof. vm_compute. reflexivity. Qed.
Lemma tail_slots : map conv_slot (after_zones (converters CCalendar)) = map Some calendar_tail.
Proof. vm_compute. reflexivity. Qed.
Lemma head_types : Forall conv_ok (before_zones (converters CCalendar)).
Proof. apply Forall_forall. apply forallb_forall. vm_compute. reflexivity. Qed.
Lemma tail_types : Forall conv_ok (after_zones (converters CCalendar)).
Proof. apply Forall_forall. apply forallb_forall. vm_compute. reflexivity. Qed.
Theorem calendar_exact (x : calendar) r : calendar_written X x r -> dump_calendar X x = r.
Proof.
  assert (H1 : forall a, slots_written X (entry_written X) x calendar_head a -> forall zs, serialize_convs X entry (dump_entry X) (before_zones (converters CCalendar)) x zs = with_zones zs a).
  { intros a A. apply convs_exact with (entry_written X) calendar_head; [exact entry_exact|apply head_types|apply head_slots|exact A]. }
  assert (H2 : forall a, slots_written X (entry_written X) x calendar_tail a -> forall zs, serialize_convs X entry (dump_entry X) (after_zones (converters CCalendar)) x zs = with_zones zs a).
  { intros a A. apply convs_exact with (entry_written X) calendar_tail; [exact entry_exact|apply tail_types|apply tail_slots|exact A]. }
  intro H. unfold dump_calendar. destruct H as [a b e A B E|its us its' us' e A B Z|its us its' us' tzs A B Z N|its us its' us' tzs A B Z N]; rewrite (H1 _ A).
  - destruct a as [[its us]|e1]; [|now injection E as ->]. cbn [with_zones bind]. rewrite (H2 _ B). destruct b as [[its' us']|e1]; [discriminate|now injection E as ->].
  - cbn [with_zones bind]. rewrite (H2 _ B). cbn [with_zones bind]. rewrite <- collect_app. now rewrite (zones_exact _ _ Z).
  - cbn [with_zones bind]. rewrite (H2 _ B). cbn [with_zones bind]. rewrite <- collect_app, (zones_exact _ _ Z). cbn [bind]. unfold Container. now rewrite N.
  - cbn [with_zones bind]. rewrite (H2 _ B). cbn [with_zones bind]. rewrite <- collect_app, (zones_exact _ _ Z). cbn [bind]. unfold Container, written_name.
    destruct (upper (c_name x)) eqn:U; [exfalso; apply N; now apply (proj1 (upper_nil (c_name x)))|]. reflexivity.
Qed.

Theorem alarm_total (x : alarm) : real_alarm x -> exists r, alarm_written X x r.
Proof. intros [C R]. apply comp_total with (fun _ => True); [intros []|destruct (c_cls x); easy|exact R]. Qed.
Theorem entry_total (x : entry) : real_entry x -> exists r, entry_written X x r.
Proof. intros [C R]. apply comp_total with real_alarm; [exact alarm_total|destruct (c_cls x); easy|exact R]. Qed.
Lemma zones_total zs : exists r, zones_dumped X zs r.
Proof.
  induction zs as [|[id z] zs [[its|e] IH]]; [eexists; constructor| |]; destruct (x_tz_dump X z) as [it|e'] eqn:D; eexists.
  - eapply ZD_cons; eassumption.
  - apply ZD_fails. exact D.
  - eapply ZD_later; eassumption.
  - apply ZD_fails. exact D.
Qed.
Theorem calendar_total (x : calendar) : real_calendar x -> exists r, calendar_written X x r.
Proof.
  intros [C R].
  destruct (slots_total X (entry_written X) real_entry entry_total x calendar_head) as [ra A]; [rewrite C; vm_compute; reflexivity|exact R|].
  destruct (slots_total X (entry_written X) real_entry entry_total x calendar_tail) as [rb B]; [rewrite C; vm_compute; reflexivity|exact R|].
  destruct ra as [[its us]|e]; [|eexists; eapply KW_fails; [exact A|exact B|reflexivity]].
  destruct rb as [[its' us']|e]; [|eexists; eapply KW_fails; [exact A|exact B|reflexivity]].
  destruct (zones_total (collect [] (us ++ us'))) as [[tzs|e] Z]; [|eexists; eapply KW_zones; eassumption].
  destruct (c_name x) as [|c n] eqn:N; eexists; [eapply KW_nameless|eapply KW_calendar]; try eassumption; congruence.
Qed.
Theorem calendar_iff (x : calendar) r : real_calendar x -> (calendar_written X x r <-> dump_calendar X x = r).
Proof.
  intro R. split; [apply calendar_exact|]. intros <-. destruct (calendar_total x R) as [r W]. now rewrite (calendar_exact x r W).
Qed.
End Classes.
