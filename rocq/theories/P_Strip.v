(** * Proofs about removing extra content *)
From Verif Require Import M_Base M_Text M_Line M_Codec M_Cal M_Time M_Span M_Dt M_Tree M_Comp M_Strip S_Strip S_Multi.
From Verif Require Import P_Base P_Line P_Comp P_Person P_Multi P_Cat.
From Coq Require Import Lia ZifyBool ZifyNat ZifyN.
Open Scope N_scope.

(** ** The options *)
Lemma asked_iff all o : asked all o <-> or_all all o = true.
Proof. unfold asked, or_all. destruct o as [[]|]; split; intuition congruence. Qed.
Lemma not_asked all o : ~ asked all o <-> or_all all o = false.
Proof. rewrite asked_iff. destruct (or_all all o); intuition congruence. Qed.

Lemma del_filter {V} k (d : dict V) : NoDup (keys d) -> dict_del k d = filter (fun kv => negb (str_eqb (fst kv) k)) d.
Proof.
  induction d as [|[j v] d IH]; [easy|]. intro ND. cbn in ND. inversion ND as [|? ? NI ND']; subst. cbn [dict_del filter fst].
  destruct (str_eqb k j) eqn:E.
  - apply str_eqb_eq in E. subst k. rewrite str_eqb_refl. cbn [negb]. clear -NI. induction d as [|[i w] d IH]; [easy|]. cbn [filter fst].
    assert (str_eqb i j = false) as -> by (apply str_eqb_neq; intros ->; apply NI; now left). cbn [negb]. f_equal. apply IH. intro H. apply NI. now right.
  - assert (str_eqb j k = false) as -> by (apply str_eqb_neq; intros ->; now rewrite str_eqb_refl in E). cbn [negb]. f_equal. now apply IH.
Qed.

Section Strip.
Context {M : Type}.
Definition unmark (v : xpar) : xpar := match v with XMany l => XMany (map (dict_del MERGE) l) | XOne p => XOne p end.
Definition unmarks (x : comp M) : comp M := set_params (map (fun kv => (fst kv, unmark (snd kv))) (c_params x)) x.

Lemma unmark_iff v w : match v with XOne p => NoDup (keys p) | XMany l => Forall (fun p => NoDup (keys p)) l end -> unmarked v w <-> w = unmark v.
Proof.
  destruct v as [p|l], w as [q|m]; cbn; intro ND; try (split; [easy|discriminate]).
  - split; [now intros ->|now intros [= ->]].
  - split.
    + intro F. f_equal. induction F as [|p q l m H F IH]; [easy|]. inversion ND; subst. cbn. rewrite H. rewrite <- del_filter by easy. f_equal. now apply IH.
    + intros [= ->]. induction ND as [|p l H F IH]; constructor; [|exact IH]. unfold without_marker. now apply del_filter.
Qed.
Lemma unmarks_iff (x : comp M) ps : dicts x ->
  Forall2 (fun kv kv' => fst kv' = fst kv /\ unmarked (snd kv) (snd kv')) (c_params x) ps <-> ps = c_params (unmarks x).
Proof.
  unfold dicts, unmarks. cbn [c_params set_params]. intro ND. split.
  - intro F. induction F as [|[k v] [k' v'] l m [H1 H2] F IH]; [easy|]. inversion ND as [|? ? N1 N2]; subst. cbn [fst snd map] in *. subst k'.
    apply unmark_iff in H2; [|exact N1]. subst v'. f_equal. now apply IH.
  - intros ->. induction ND as [|[k v] l N1 N2 IH]; constructor; [|exact IH]. cbn [fst snd] in *. split; [easy|]. now apply unmark_iff.
Qed.

Lemma strip_shape (x : comp M) all p r m : strip_call all p r m x =
  if or_all all p || or_all all r || or_all all m then
    Ok (mk_comp (c_cls x) (c_attrs x) (c_mem x) (c_name x) (if or_all all p then [] else c_extra x)
          (if or_all all r then [] else if or_all all m then c_params (unmarks x) else c_params x))
  else Err ValueError.
Proof. unfold strip_call, strip_extras. destruct x. now destruct (or_all all p), (or_all all r), (or_all all m). Qed.
Lemma strip_iff (x : comp M) all p r m y : dicts x -> strip_call all p r m x = Ok y <->
  (asked all p \/ asked all r \/ asked all m) /\ stripped (asked all p) (asked all r) (asked all m) x y.
Proof.
  intro ND. rewrite strip_shape. unfold stripped.
  pose proof (asked_iff all p) as AP. pose proof (asked_iff all r) as AR. pose proof (asked_iff all m) as AM.
  pose proof (unmarks_iff x (c_params y) ND) as U. set (u := c_params (unmarks x)) in *.
  destruct y as [yc ya ym yn ye yp]. cbn [c_cls c_name c_attrs c_mem c_extra c_params] in *.
  destruct (or_all all p), (or_all all r), (or_all all m); cbn [orb];
    (split; [intro H; try discriminate H; injection H as <- <- <- <- <- <-; intuition congruence
            |intros (A & -> & -> & -> & -> & H1 & H2 & H3 & H4 & H5)]); try (exfalso; intuition congruence);
    f_equal; f_equal; intuition congruence.
Qed.
Lemma strip_nothing (x : comp M) all p r m : (~ (asked all p \/ asked all r \/ asked all m) <-> strip_call all p r m x = Err ValueError) /\
  forall e, strip_call all p r m x = Err e -> e = ValueError.
Proof.
  rewrite strip_shape. rewrite !asked_iff. destruct (or_all all p), (or_all all r), (or_all all m); cbn [orb]; intuition congruence.
Qed.
Lemma del_twice {V} k (d : dict V) : NoDup (keys d) -> dict_del k (dict_del k d) = dict_del k d.
Proof.
  intro ND. rewrite (del_filter k d) by easy. rewrite del_filter by (rewrite <- del_filter by easy; now apply keys_del).
  clear ND. induction d as [|[j v] d IH]; [easy|]. cbn [filter fst]. destruct (str_eqb j k) eqn:E; cbn [negb]; [exact IH|]. cbn [filter fst]. rewrite E. cbn [negb]. now f_equal.
Qed.
Lemma unmark_twice v : match v with XOne p => NoDup (keys p) | XMany l => Forall (fun p => NoDup (keys p)) l end -> unmark (unmark v) = unmark v.
Proof.
  destruct v as [p|l]; [easy|]. intro F. cbn. f_equal. rewrite map_map. induction F as [|p l H F IH]; [easy|]. cbn. f_equal; [now apply del_twice|exact IH].
Qed.
Lemma strip_twice (x : comp M) all p r m y : dicts x -> strip_call all p r m x = Ok y -> strip_call all p r m y = Ok y.
Proof.
  intros ND H. rewrite strip_shape in *. destruct (_ || _); [|discriminate]. injection H as <-. f_equal. cbn [c_cls c_name c_attrs c_mem c_extra].
  f_equal; [now destruct (or_all all p)|]. destruct (or_all all r); [easy|]. destruct (or_all all m); [|easy]. unfold unmarks. cbn [c_params set_params].
  unfold dicts in ND. rewrite map_map. cbn [fst snd]. clear -ND. induction ND as [|[k v] l H F IH]; [easy|]. cbn [map fst snd] in *. f_equal; [|exact IH]. f_equal.
  now apply unmark_twice.
Qed.
End Strip.

(** ** Writing one value with other parameters *)
Definition sub (a b : xp) : Prop := forall k v, dict_get k a = Some v -> dict_get k b = Some v.
Lemma sub_refl a : sub a a. Proof. now intros k v. Qed.
Lemma sub_nil a : sub [] a. Proof. intros k v [=]. Qed.
Lemma sub_set k v a b : sub a b -> sub (dict_set k v a) (dict_set k v b).
Proof.
  intros S j w. destruct (str_eqb k j) eqn:E.
  - apply str_eqb_eq in E. subst j. now rewrite !dict_get_set_same.
  - apply str_eqb_neq in E. rewrite !dict_get_set_other by easy. apply S.
Qed.
Lemma sub_update x : forall a b, sub a b -> sub (dict_update a x) (dict_update b x).
Proof. unfold dict_update. induction x as [|[k v] x IH]; intros a b H; cbn; [exact H|]. apply IH. now apply sub_set. Qed.
Lemma nodup_update (x : xp) : forall a, NoDup (keys a) -> NoDup (keys (dict_update a x)).
Proof. unfold dict_update. induction x as [|[k v] x IH]; intros a H; cbn; [exact H|]. apply IH. now apply keys_set. Qed.
Lemma set_keys {V} k (v : V) d j : In j (keys (dict_set k v d)) -> j = k \/ In j (keys d).
Proof.
  unfold keys. rewrite in_map_iff. intros ([j' w] & <- & I). apply set_In in I as [[-> _]|I]; [now left|right]. cbn [fst]. now apply (in_map fst) in I.
Qed.

Definition is_person (c : vconv) : bool := match c with Organizer | Attendee => true | _ => false end.
(** Keys other than these two come from the person. *)
Definition tidy (c : vconv) (ps : xp) : Prop := is_person c = true \/ forall k, In k (keys ps) -> k = py "VALUE" \/ k = py "TZID".

Section One.
Variable X : ext.
Lemma vserialize_other c v ps zs s q zs' : vserialize X c v ps zs = Ok (s, q, zs') -> forall ps', sub ps' ps ->
  exists q', vserialize X c v ps' zs = Ok (s, q', zs') /\ sub q' q /\ (tidy c ps' -> tidy c q').
Proof.
  intros H ps' S.
  destruct c, v; cbn [vserialize] in *; try discriminate; try (injection H as <- <- <-; exists ps'; repeat split; (easy || exact S)).
  - unfold dt_serialize in *. destruct (serialize_dt _ _ _ _) as [[[s0 q0] z0]|]; [|discriminate]. cbn [bind] in *. injection H as <- <- <-.
    eexists. split; [reflexivity|]. destruct (dict_get (py "TZID") q0) as [l|]; [|easy]. split; [now apply sub_set|].
    intros [T|T]; [discriminate T|]. right. intros k I. apply set_keys in I as [->|I]; [now right|now apply T].
  - injection H as <- <- <-. eexists. split; [reflexivity|]. split; [now apply sub_update|]. now left.
  - injection H as <- <- <-. eexists. split; [reflexivity|]. split; [now apply sub_update|]. now left.
Qed.
Lemma vserialize_nodup c v ps zs s q zs' : vserialize X c v ps zs = Ok (s, q, zs') -> NoDup (keys ps) -> NoDup (keys q).
Proof.
  intros H S. destruct c, v; cbn [vserialize] in *; try discriminate; try (injection H as <- <- <-; exact S).
  - unfold dt_serialize in *. destruct (serialize_dt _ _ _ _) as [[[s0 q0] z0]|]; [|discriminate]. cbn [bind] in *. injection H as <- <- <-.
    destruct (dict_get (py "TZID") q0) as [l|]; [|easy]. now apply keys_set.
  - injection H as <- <- <-. now apply nodup_update.
  - injection H as <- <- <-. now apply nodup_update.
Qed.
Lemma find_other v convs : forall first ps c q, find_conv first convs v ps = Ok (c, q) -> In c convs /\ forall ps', sub ps' ps ->
  exists q', find_conv first convs v ps' = Ok (c, q') /\ sub q' q /\ (ps' = [] -> tidy c q').
Proof.
  induction convs as [|b convs IH]; intros first ps c q H; cbn [find_conv] in *; [discriminate|]. destruct (isinst b v).
  - injection H as -> <-. split; [now left|]. intros ps' S. eexists. split; [reflexivity|]. destruct first; split; auto.
    + intros ->. right. intros k [].
    + now apply sub_set.
    + intros ->. right. intros k [<-|[]]. now left.
  - apply IH in H as [I H]. split; [now right|]. exact H.
Qed.
Lemma find_nodup v convs : forall first ps c q, find_conv first convs v ps = Ok (c, q) -> NoDup (keys ps) -> NoDup (keys q).
Proof.
  induction convs as [|b convs IH]; intros first ps c q H ND; cbn [find_conv] in *; [discriminate|]. destruct (isinst b v); [|eauto].
  injection H as -> <-. destruct first; [easy|]. now apply keys_set.
Qed.
(** Both steps. *)
Definition one (convs : list vconv) (v : val) (ps : xp) (zs : zones) : res (list N * xp * zones) :=
  do (c, ps1) <- find_conv true convs v ps; vserialize X c v ps1 zs.
Definition tidies (convs : list vconv) (ps : xp) : Prop := existsb is_person convs = true \/ forall k, In k (keys ps) -> k = py "VALUE" \/ k = py "TZID".
Lemma one_other convs v ps zs s q zs' : one convs v ps zs = Ok (s, q, zs') -> forall ps', sub ps' ps ->
  exists q', one convs v ps' zs = Ok (s, q', zs') /\ sub q' q /\ (ps' = [] -> tidies convs q').
Proof.
  unfold one. intros H ps' S. unbind2 H. apply find_other in Ha as [I HF]. destruct (HF ps' S) as (q1 & -> & S1 & T1). cbn [bind].
  destruct (vserialize_other _ _ _ _ _ _ _ H q1 S1) as (q' & -> & S2 & T2). exists q'. split; [easy|]. split; [easy|]. intro E.
  destruct (T2 (T1 E)) as [T|T]; [left|right; exact T]. apply existsb_exists. eauto.
Qed.
Lemma one_nodup convs v ps zs s q zs' : one convs v ps zs = Ok (s, q, zs') -> NoDup (keys ps) -> NoDup (keys q).
Proof. unfold one. intros H ND. unbind2 H. eapply vserialize_nodup; [exact H|]. eapply find_nodup; eauto. Qed.

(** ** Several values: first one by one, then joined *)
Record out := mk_out { o_merge : bool; o_text : list N; o_ps : xp }.
Definition merge_of (p : xp) : bool := match dict_get MERGE p with Some [t] => str_eqb (pval_str t) (py "TRUE") | _ => false end.
Fixpoint each (convs : list vconv) (vs : list (val * xp)) (zs : zones) : res (list out * zones) :=
  match vs with
  | [] => Ok ([], zs)
  | (v, p) :: vs' => do (s, q, z1) <- one convs v (dict_del MERGE p) zs; do (os, z2) <- each convs vs' z1; Ok (mk_out (merge_of p) s q :: os, z2)
  end.
Fixpoint joined (name : list N) (os : list out) (cur : option xp) (acc : list (list N)) (merging : bool) : res (list item) :=
  match os with
  | [] => if merging then Err ValueError else Ok []
  | o :: os' =>
      do _ <- match cur with Some q => guard (negb (params_eqb (strs q) (strs (o_ps o)))) ValueError | None => Ok tt end;
      let cur' := match cur with Some q => q | None => o_ps o end in
      if o_merge o then joined name os' (Some cur') (acc ++ [o_text o]) true
      else do its <- joined name os' None [] false; Ok (ILine (ContentLine name (o_ps o) (join_value_list (acc ++ [o_text o]))) :: its)
  end.
Lemma values_split name convs vs : forall cur acc mg zs its zs', serialize_values X name convs vs cur acc mg zs = Ok (its, zs') <->
  exists os, each convs vs zs = Ok (os, zs') /\ joined name os cur acc mg = Ok its.
Proof.
  induction vs as [|[v p] vs IH]; intros cur acc mg zs its zs'; cbn [serialize_values each].
  - destruct mg; split.
    + discriminate.
    + intros (os & [= <- <-] & H). discriminate H.
    + intros [= <- <-]. exists []. easy.
    + intros (os & [= <- <-] & H). injection H as <-. reflexivity.
  - fold (merge_of p). unfold one at 1. destruct (find_conv true convs v (dict_del MERGE p)) as [[c q1]|]; [|split; [discriminate|intros (os & H & _); discriminate H]]. cbn [bind].
    destruct (vserialize X c v q1 zs) as [[[s q] z1]|]; [|split; [discriminate|intros (os & H & _); discriminate H]]. cbn [bind].
    split.
    + intro H. unbind H. destruct (merge_of p) eqn:EM.
      * apply IH in H as (os & E & J). rewrite E. cbn [bind]. eexists. split; [reflexivity|]. cbn [joined o_merge o_text o_ps]. now rewrite Ha.
      * unbind2 H. injection H as <- <-. apply IH in Ha0 as (os & E & J). rewrite E. cbn [bind]. eexists. split; [reflexivity|]. cbn [joined o_merge o_text o_ps].
        rewrite Ha. cbn [bind]. now rewrite J.
    + intros (os & E & J). unbind2 E. injection E as <- <-. cbn [joined o_merge o_text o_ps] in J. unbind J. rewrite Ha0. cbn [bind].
      destruct (merge_of p).
      * apply IH. eauto.
      * unbind J. injection J as <-. match goal with H1 : each _ _ _ = Ok (?os, ?z2), H2 : joined _ _ None _ _ = Ok ?r |- _ =>
          assert (serialize_values X name convs vs None [] false z1 = Ok (r, z2)) as -> by (apply IH; eauto) end. reflexivity.
Qed.
Lemma each_length convs vs : forall zs os zs', each convs vs zs = Ok (os, zs') -> length os = length vs.
Proof.
  induction vs as [|[v p] vs IH]; intros zs os zs' H; cbn [each] in H; [now injection H as <- <-|].
  unbind3 H. unbind2 H. injection H as <- <-. cbn. f_equal. eauto.
Qed.
(** Without markers there is one line for each value. *)
Lemma joined_none name os : Forall (fun o => o_merge o = false) os ->
  joined name os None [] false = Ok (map (fun o => ILine (ContentLine name (o_ps o) (o_text o))) os).
Proof. induction 1 as [|o os H F IH]; [easy|]. cbn [joined]. rewrite H. cbn [bind app]. rewrite IH. reflexivity. Qed.
(** With markers the lines are groups of them. *)
Definition joint name g' it := exists g o q, g' = g ++ [o] /\ it = ILine (ContentLine name (o_ps o) (join_value_list (map o_text g'))) /\
  Forall (fun o => params_eqb (strs q) (strs (o_ps o)) = true \/ o_ps o = q) g' /\ In q (map o_ps g').
Lemma joined_groups name os : forall cur acc mg its, joined name os cur acc mg = Ok its -> mg = match cur with Some _ => true | None => false end ->
  os = [] /\ its = [] /\ cur = None \/
  exists g o gs rest, os = (g ++ [o]) ++ concat gs /\ its = ILine (ContentLine name (o_ps o) (join_value_list (acc ++ map o_text (g ++ [o])))) :: rest /\
    (exists q, (forall q0, cur = Some q0 -> q = q0) /\ (cur = None -> In q (map o_ps (g ++ [o]))) /\
       Forall (fun o => params_eqb (strs q) (strs (o_ps o)) = true \/ o_ps o = q) (g ++ [o])) /\
    Forall2 (joint name) gs rest.
Proof.
  induction os as [|o os IH]; intros cur acc mg its H E; cbn [joined] in H.
  - subst mg. destruct cur; [discriminate|]. injection H as <-. now left.
  - right. unbind H.
    assert (HQ : let cur' := match cur with Some q => q | None => o_ps o end in params_eqb (strs cur') (strs (o_ps o)) = true \/ o_ps o = cur').
    { destruct cur as [q|]; [left|now right]. destruct (params_eqb (strs q) (strs (o_ps o))); [easy|discriminate Ha]. }
    destruct (o_merge o).
    + apply IH in H; [|easy]. destruct H as [(_ & _ & [=])|(g & o' & gs & rest & -> & -> & (q & HC & _ & F) & FG)].
      exists (o :: g), o', gs, rest. split; [easy|]. split; [now rewrite <- app_assoc|]. split; [|exact FG].
      specialize (HC _ eq_refl). exists q. split; [intros q0 ->; exact HC|]. split; [intros ->; left; now rewrite HC|]. cbn [app]. constructor; [now rewrite HC|exact F].
    + unbind H. injection H as <-. exists [], o. apply IH in Ha0; [|easy].
      assert (H1 : exists q, (forall q0, cur = Some q0 -> q = q0) /\ (cur = None -> In q (map o_ps ([] ++ [o]))) /\
         Forall (fun o => params_eqb (strs q) (strs (o_ps o)) = true \/ o_ps o = q) ([] ++ [o])).
      { exists (match cur with Some q => q | None => o_ps o end). split; [now intros q0 ->|]. split; [intros ->; now left|]. constructor; [exact HQ|constructor]. }
      destruct Ha0 as [(-> & -> & _)|(g & o' & gs & rest & -> & -> & (q & _ & HI & F) & FG)].
      * exists [], []. split; [easy|]. split; [easy|]. split; [exact H1|constructor].
      * exists ((g ++ [o']) :: gs), (ILine (ContentLine name (o_ps o') (join_value_list ([] ++ map o_text (g ++ [o'])))) :: rest).
        split; [easy|]. split; [easy|]. split; [exact H1|].
        constructor; [|exact FG]. exists g, o', q. split; [easy|]. split; [easy|]. split; [exact F|]. now apply HI.
Qed.
End One.

(** ** Equal parameters *)
Lemma get_in {V} k (v : V) d : dict_get k d = Some v -> In (k, v) d.
Proof.
  induction d as [|[j w] d IH]; cbn; [discriminate|]. destruct (str_eqb k j) eqn:E; [|intro H; right; now apply IH].
  apply str_eqb_eq in E. intros [= ->]. left. now subst.
Qed.
Lemma get_strs k (p : xp) : dict_get k (strs p) = texts p k.
Proof. unfold strs, texts. induction p as [|[j v] p IH]; [easy|]. cbn. now destruct (str_eqb k j). Qed.
Lemma get_keys {V} k (d : dict V) : In k (keys d) <-> exists v, dict_get k d = Some v.
Proof.
  split.
  - intro I. destruct (dict_get k d) as [v|] eqn:E; [eauto|]. exfalso. now apply dict_get_None in E.
  - intros (v & E). destruct (in_dec (list_eq_dec N.eq_dec) k (keys d)) as [I|I]; [exact I|]. apply dict_get_None in I. congruence.
Qed.
Lemma eqb_get a b : params_eqb a b = true -> NoDup (keys a) -> NoDup (keys b) -> forall k, dict_get k a = dict_get k b.
Proof.
  unfold params_eqb. intros H NA NB k. apply andb_prop in H as [HL HF]. apply Nat.eqb_eq in HL. rewrite forallb_forall in HF.
  assert (HS : forall j v, dict_get j a = Some v -> dict_get j b = Some v).
  { intros j v E. apply get_in in E. specialize (HF _ E). cbn [fst snd] in HF. destruct (dict_get j b) as [w|]; [|discriminate].
    destruct (list_eq_dec _ v w); [now subst|discriminate]. }
  destruct (dict_get k a) as [v|] eqn:E; [symmetry; now apply HS|]. destruct (dict_get k b) as [w|] eqn:E2; [|easy]. exfalso.
  assert (I : incl (keys a) (keys b)). { intros j Hj. apply get_keys in Hj as (v & Hj). apply get_keys. eauto. }
  apply NoDup_length_incl in I; [|exact NA|unfold keys; rewrite !map_length; lia]. apply dict_get_None in E. apply E. apply I. apply get_keys. eauto.
Qed.
Lemma eqb_texts p q : params_eqb (strs p) (strs q) = true \/ q = p -> NoDup (keys p) -> NoDup (keys q) -> forall k, texts p k = texts q k.
Proof. intros [H | ->] NP NQ k; [|easy]. rewrite <- !get_strs. apply eqb_get; [exact H|now rewrite keys_strs|now rewrite keys_strs]. Qed.
Lemma sub_texts p q k vs : sub p q -> texts p k = Some vs -> texts q k = Some vs.
Proof. unfold texts. intro S. destruct (dict_get k p) as [v|] eqn:E; [|discriminate]. now rewrite (S _ _ E). Qed.
Lemma texts_keys (p : xp) k vs : texts p k = Some vs -> In k (keys p).
Proof. unfold texts. intro H. apply get_keys. destruct (dict_get k p) as [v|]; [eauto|discriminate]. Qed.

(** ** Lines taken apart *)
Lemma commas_join ws : commas ws = join_value_list ws.
Proof. unfold join_value_list. induction ws as [|w [|w2 ws] IH]; [easy..|]. change (commas (w :: w2 :: ws)) with (w ++ 44 :: commas (w2 :: ws)). rewrite IH. reflexivity. Qed.
Definition fine (drop : bool) (n : list N) (q q' : xp) : Prop :=
  if drop then sub q' q /\ forall k, In k (keys q') -> own_params n k else q' = q.
Lemma fine_same drop n s s' q q' : fine drop n q q' -> same_params drop (mk_line n q s) (mk_line n q' s').
Proof.
  unfold fine, same_params. destruct drop; cbn [cl_params cl_name]; [|now intros ->]. intros [S K] k vs H. split; [eapply sub_texts; eauto|].
  apply K. eapply texts_keys; eauto.
Qed.
Lemma line_apart drop n s q q' : fine drop n q q' -> apart drop (ILine (mk_line n q s)) [ILine (mk_line n q' s)].
Proof.
  intro F. exists [s]. split; [easy|]. split; [easy|]. constructor; [|constructor]. eexists. split; [reflexivity|]. split; [easy|]. split; [easy|]. now apply fine_same.
Qed.
Lemma apart_nil drop : all_apart drop [] []. Proof. exists []. split; [easy|constructor]. Qed.
Lemma apart_app drop a a' b b' : all_apart drop a a' -> all_apart drop b b' -> all_apart drop (a ++ b) (a' ++ b').
Proof. intros (g & -> & F) (h & -> & G). exists (g ++ h). split; [now rewrite concat_app|]. now apply Forall2_app. Qed.
Lemma apart_line drop n s q q' : fine drop n q q' -> all_apart drop [ILine (mk_line n q s)] [ILine (mk_line n q' s)].
Proof. intro F. exists [[ILine (mk_line n q' s)]]. split; [easy|]. constructor; [now apply line_apart|constructor]. Qed.
Lemma apart_refl its : all_apart false its its.
Proof.
  exists (map (fun i => [i]) its). split; [induction its; [easy|cbn; now f_equal]|]. induction its as [|[l|n sub] its IH]; constructor; try exact IH; [|easy].
  destruct l as [n q s]. now apply line_apart.
Qed.
Lemma apart_conts drop its : Forall (fun i => exists n sub, i = ICont n sub) its -> all_apart drop its its.
Proof.
  intro F. exists (map (fun i => [i]) its). split; [clear; induction its; [easy|cbn; now f_equal]|]. induction F as [|i its (n & sb & ->) F IH]; constructor; try exact IH. easy.
Qed.

Definition pick (drop : bool) (ps : xp) : xp := if drop then [] else ps.
Section Fine.
Variable X : ext.
Variable drop : bool.
Lemma choose_sub (ps : xp) : sub (pick drop ps) ps.
Proof. unfold pick. destruct drop; [apply sub_nil|apply sub_refl]. Qed.
Lemma one_fine n convs v ps zs s q zs' : (existsb is_person convs = true -> n = py "ORGANIZER" \/ n = py "ATTENDEE") ->
  one X convs v ps zs = Ok (s, q, zs') ->
  exists q', one X convs v (pick drop ps) zs = Ok (s, q', zs') /\ fine drop n q q'.
Proof.
  intros HN H. destruct (one_other X convs v ps zs s q zs' H _ (choose_sub ps)) as (q' & E & S & T). exists q'. split; [exact E|].
  unfold fine, pick in *. destruct drop; [|rewrite H in E; now injection E as ->]. split; [exact S|]. intros k I. unfold own_params.
  destruct (T eq_refl) as [P|P]; [apply HN in P; tauto|apply P in I; tauto].
Qed.
Lemma span_fine n day d ps zs s q zs' : span_date X day d ps zs = Ok (s, q, zs') ->
  exists q', span_date X day d (pick drop ps) zs = Ok (s, q', zs') /\ fine drop n q q'.
Proof.
  unfold span_date. destruct day; intro H.
  - injection H as <- <- <-. eexists. split; [reflexivity|]. unfold fine, pick. destruct drop; [|easy]. split; [apply sub_set, sub_nil|]. intros k [<-|[]]. now left.
  - change (dt_serialize X d ps zs) with (vserialize X Datetime (VDt d) ps zs) in H. change (dt_serialize X d ?p zs) with (vserialize X Datetime (VDt d) p zs).
    destruct (vserialize_other X _ _ _ _ _ _ _ H _ (choose_sub ps)) as (q' & E & S & T). exists q'. split; [exact E|].
    unfold fine, pick in *. destruct drop; [|rewrite H in E; now injection E as ->]. split; [exact S|].
    destruct T as [T|T]; [right; intros k []|discriminate T|]. intros k I. apply T in I. unfold own_params. tauto.
Qed.
End Fine.

Section Conv.
Variable X : ext.
Context {M : Type}.
Variable dump_m : M -> zones -> res (item * zones).
Hypothesis dump_cont : forall m z it z', dump_m m z = Ok (it, z') -> exists n sub, it = ICont n sub.
Variable drop : bool.
Variables x y : comp M.
Hypothesis SC : c_cls y = c_cls x.
Hypothesis SA : c_attrs y = c_attrs x.
Hypothesis SM : c_mem y = c_mem x.
Hypothesis SP : forall k, dict_get k (c_params y) = if drop then None else option_map unmark (dict_get k (c_params x)).
Hypothesis ND : dicts x.

Lemma attr_same a : get_attr a y = get_attr a x. Proof. unfold get_attr. now rewrite SA. Qed.
Lemma dicts_get k v : dict_get k (c_params x) = Some v -> match v with XOne p => NoDup (keys p) | XMany l => Forall (fun p => NoDup (keys p)) l end.
Proof. intro H. apply get_in in H. unfold dicts in ND. rewrite Forall_forall in ND. exact (ND _ H). Qed.
Lemma single_other k ps : single_params k x = Ok ps -> single_params k y = Ok (pick drop ps) /\ NoDup (keys ps).
Proof.
  unfold single_params. intro H. rewrite SP. pose proof (dicts_get k) as DG. destruct (dict_get k (c_params x)) as [[p|[|]]|]; try discriminate; injection H as <-;
    destruct drop; (split; [easy|]); try constructor; apply (DG _ eq_refl).
Qed.
End Conv.
