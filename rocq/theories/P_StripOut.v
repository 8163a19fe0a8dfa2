(** * Proofs about writing after removing extra content *)
From Verif Require Import M_Base M_Text M_Line M_Codec M_Cal M_Time M_Span M_Dt M_Tree M_Comp M_Strip S_Strip S_Multi.
From Verif Require Import P_Base P_Line P_Comp P_Person P_Multi P_Cat P_Strip.
From Coq Require Import Lia ZifyBool ZifyNat ZifyN.
Open Scope N_scope.

Section Values.
Variable X : ext.
Variable drop : bool.
(** ** Several values *)
Definition strip1 (p : xp) : xp := if drop then [] else dict_del MERGE p.
Lemma each_other n convs (HN : existsb is_person convs = true -> n = py "ORGANIZER" \/ n = py "ATTENDEE") vs : Forall (fun vp => NoDup (keys (snd vp))) vs ->
  forall zs os zs', each X convs vs zs = Ok (os, zs') -> exists os', each X convs (map (fun vp => (fst vp, strip1 (snd vp))) vs) zs = Ok (os', zs') /\
    Forall2 (fun o o' => o_merge o' = false /\ o_text o' = o_text o /\ fine drop n (o_ps o) (o_ps o') /\ NoDup (keys (o_ps o))) os os'.
Proof.
  induction 1 as [|[v p] vs HP F IH]; intros zs os zs' H; cbn [each map fst snd] in *; [injection H as <- <-; exists []; split; [easy|constructor]|].
  unbind3 H. unbind2 H. injection H as <- <-. destruct (one_fine X drop n convs _ _ _ _ _ _ HN Ha) as (q' & E & FI).
  assert (HE : one X convs v (dict_del MERGE (strip1 p)) zs = Ok (a, q', c)).
  { unfold strip1. clear -E HP. unfold pick in E. destruct drop; [exact E|]. rewrite del_twice by exact HP. exact E. }
  rewrite HE. cbn [bind]. apply IH in Ha0 as (os' & -> & FO). cbn [bind]. eexists. split; [reflexivity|]. constructor; [|exact FO]. cbn [o_merge o_text o_ps].
  split; [|split; [easy|split; [exact FI|]]].
  - unfold merge_of, strip1. destruct drop; [easy|]. now rewrite get_del_same.
  - eapply one_nodup; [exact Ha|]. now apply keys_del.
Qed.
Lemma fine_trans n s s' ps q q' : fine drop (upper n) q q' -> (forall k, texts ps k = texts q k) ->
  same_params drop (mk_line (upper n) ps s) (mk_line (upper n) q' s').
Proof.
  intros F T. pose proof (fine_same drop (upper n) s s' q q' F) as H. unfold same_params in *. destruct drop; cbn [cl_params cl_name] in *.
  - intros k vs E. rewrite T. now apply H.
  - intro k. rewrite T. apply H.
Qed.
Lemma group_apart name g o q os' : Forall (fun o => params_eqb (strs q) (strs (o_ps o)) = true \/ o_ps o = q) (g ++ [o]) ->
  Forall2 (fun o o' => o_merge o' = false /\ o_text o' = o_text o /\ fine drop (upper name) (o_ps o) (o_ps o') /\ NoDup (keys (o_ps o))) (g ++ [o]) os' ->
  NoDup (keys q) ->
  apart drop (ILine (ContentLine name (o_ps o) (join_value_list (map o_text (g ++ [o])))))
    (map (fun o => ILine (ContentLine name (o_ps o) (o_text o))) os').
Proof.
  intros FQ FO NQ. unfold ContentLine. cbn [apart]. exists (map o_text (g ++ [o])). split; [now rewrite map_app; destruct (map o_text g)|].
  split; [cbn [cl_value]; now rewrite commas_join|].
  assert (HL : forall k, texts (o_ps o) k = texts q k).
  { intro k. apply Forall_app in FQ as [_ FQ]. inversion FQ as [|? ? H1 _]; subst. apply Forall2_app_inv_l in FO as (? & ? & _ & FO & _).
    inversion FO as [|? ? ? ? (_ & _ & _ & N1) _]; subst. symmetry. now apply eqb_texts. }
  revert os' FO. clear -FQ NQ HL. induction (g ++ [o]) as [|o1 l IH]; intros os' FO; inversion FO as [|? o' ? os'' (_ & HT & HF & N1) FO']; subst; [constructor|].
  inversion FQ as [|? ? H1 H2]; subst. cbn [map]. constructor; [|now apply IH]. eexists. split; [reflexivity|]. cbn [cl_name cl_value]. split; [easy|]. split; [exact HT|].
  eapply fine_trans; [exact HF|]. intro k. rewrite HL. now apply eqb_texts.
Qed.
Lemma groups_apart name gs rest : Forall2 (joint name) gs rest ->
  forall os', Forall2 (fun o o' => o_merge o' = false /\ o_text o' = o_text o /\ fine drop (upper name) (o_ps o) (o_ps o') /\ NoDup (keys (o_ps o))) (concat gs) os' ->
  all_apart drop rest (map (fun o => ILine (ContentLine name (o_ps o) (o_text o))) os').
Proof.
  induction 1 as [|g' it gs rest (g & o & q & -> & -> & FQ & IQ) F IH]; intros os' FO; cbn [concat] in FO; [inversion FO; apply apart_nil|].
  apply Forall2_app_inv_l in FO as (o1 & o2 & F1 & F2 & ->). rewrite (map_app _ o1 o2).
  assert (NQ : NoDup (keys q)).
  { apply in_map_iff in IQ as (o3 & <- & I3). clear -F1 I3. induction F1 as [|a b l l' (_ & _ & _ & N1) F1 IH]; [easy|]. destruct I3 as [->|I3]; [exact N1|now apply IH]. }
  destruct (IH _ F2) as (gg & E & FG). rewrite E.
  exists (map (fun o => ILine (ContentLine name (o_ps o) (o_text o))) o1 :: gg). split; [easy|]. constructor; [|exact FG]. eapply group_apart; eauto.
Qed.
Lemma values_other name convs (HN : existsb is_person convs = true -> upper name = py "ORGANIZER" \/ upper name = py "ATTENDEE") vs :
  Forall (fun vp => NoDup (keys (snd vp))) vs -> forall zs its zs', serialize_values X name convs vs None [] false zs = Ok (its, zs') ->
  exists its', serialize_values X name convs (map (fun vp => (fst vp, strip1 (snd vp))) vs) None [] false zs = Ok (its', zs') /\
    all_apart drop its its' /\ length its' = length vs.
Proof.
  intros F zs its zs' H. apply values_split in H as (os & E & J). destruct (each_other (upper name) convs HN vs F _ _ _ E) as (os' & E' & FO).
  exists (map (fun o => ILine (ContentLine name (o_ps o) (o_text o))) os'). split; [|split].
  - apply values_split. exists os'. split; [exact E'|]. apply joined_none. clear -FO. induction FO as [|a b l l' (H & _) F IH]; constructor; [exact H|exact IH].
  - apply joined_groups in J; [|easy]. destruct J as [(-> & -> & _)|(g & o & gs & rest & -> & -> & (q & _ & HI & FQ) & FG)].
    + inversion FO; subst. apply apart_nil.
    + apply (groups_apart name ((g ++ [o]) :: gs)); [|exact FO]. constructor; [|exact FG]. exists g, o, q. split; [easy|]. split; [easy|]. split; [exact FQ|]. now apply HI.
  - rewrite map_length. apply each_length in E'. rewrite E'. now rewrite map_length.
Qed.

Definition person_names (a : aconv) : Prop := match a_kind a with KVal convs _ _ _ => existsb is_person convs = true ->
  upper (match a_names a with n :: _ => n | [] => [] end) = py "ORGANIZER" \/ upper (match a_names a with n :: _ => n | [] => [] end) = py "ATTENDEE" | _ => True end.
Lemma map_strip_combine (vs : list val) : forall ps : list xp, map (fun vp => (fst vp, strip1 (snd vp))) (combine vs ps) = combine vs (map strip1 ps).
Proof. induction vs as [|v vs IH]; intros [|p ps]; cbn; [easy..|]. now f_equal. Qed.
Lemma combine_const (vs : list val) : forall ps : list xp, length ps = length vs -> combine vs (map (fun _ => @nil (list N * list pval)) ps) = map (fun v => (v, [])) vs.
Proof. induction vs as [|v vs IH]; intros [|p ps]; cbn; try easy. intros [= H]. f_equal. now apply IH. Qed.
End Values.

Section Conv.
Variable X : ext.
Context {M : Type}.
Variable dump_m : M -> zones -> res (item * zones).
Hypothesis dump_cont : forall m z it z', dump_m m z = Ok (it, z') -> exists n sub, it = ICont n sub.
Variable drop : bool.
Variables x y : comp M.
Hypothesis SC : c_cls y = c_cls x.
Hypothesis SA : c_attrs y = c_attrs x.
Hypothesis SM : c_mem y = c_mem x.
Hypothesis SP : forall k, dict_get k (c_params y) = if drop then None else option_map unmark (dict_get k (c_params x)).
Hypothesis ND : dicts x.

Lemma multi_other a name convs : (existsb is_person convs = true -> upper name = py "ORGANIZER" \/ upper name = py "ATTENDEE") ->
  forall zs its zs', serialize_multi X a name convs x zs = Ok (its, zs') -> exists its', serialize_multi X a name convs y zs = Ok (its', zs') /\
  all_apart drop its its' /\ forall vs, get_attr (a_attr a) x = AMany vs -> length its' = length vs.
Proof.
  intros HN zs its zs' H. unfold serialize_multi in *. rewrite (attr_same x y SA), SP. pose proof (dicts_get x ND (a_key a)) as DG.
  destruct (get_attr (a_attr a) x) as [|v|vs]; try discriminate.
  assert (EMPTY : serialize_values X name convs (map (fun v => (v, [])) vs) None [] false zs = Ok (its, zs') ->
    exists its', serialize_values X name convs (map (fun v => (v, [])) vs) None [] false zs = Ok (its', zs') /\
    all_apart drop its its' /\ (forall vs0, AMany vs = AMany vs0 -> length its' = length vs0)).
  { intro H0. destruct (values_other X drop name convs HN (map (fun v => (v, [])) vs)) with (2 := H0) as (its' & E & A & L).
    - apply Forall_map, Forall_forall. intros v _. constructor.
    - exists its'. split; [|split; [exact A|intros vs0 [= <-]; now rewrite map_length in L]]. rewrite <- E. f_equal. rewrite map_map. apply map_ext. intro v. cbn [fst snd].
      unfold strip1. clear. now destruct drop. }
  destruct (dict_get (a_key a) (c_params x)) as [[[|e p]|[|p ps]]|]; try (destruct drop; exact (EMPTY H)).
  - destruct (Nat.eqb _ _); discriminate.
  - specialize (DG _ eq_refl). destruct (Nat.eqb (length (p :: ps)) (length vs)) eqn:EL; [|discriminate]. apply Nat.eqb_eq in EL.
    destruct (values_other X drop name convs HN (combine vs (p :: ps))) with (2 := H) as (its' & E & A & L).
    { apply Forall_forall. intros [v q] I. apply in_combine_r in I. rewrite Forall_forall in DG. now apply DG. }
    exists its'. rewrite map_strip_combine in E.
    split; [|split; [exact A|]].
    + destruct drop eqn:ED; cbn [option_map unmark].
      * rewrite <- E. f_equal. symmetry. unfold strip1. rewrite <- combine_const with (ps := p :: ps) by exact EL. reflexivity.
      * cbn [map]. replace (Nat.eqb _ _) with true by (symmetry; apply Nat.eqb_eq; cbn [length]; rewrite map_length; exact EL). rewrite <- E. reflexivity.
    + intros vs0 [= <-]. rewrite L, combine_length. lia.
Qed.

(** ** One property *)
Lemma conv_other a : person_names a -> forall zs its zs', serialize_conv X M dump_m a x zs = Ok (its, zs') ->
  exists its', serialize_conv X M dump_m a y zs = Ok (its', zs') /\ all_apart drop its its' /\
    match a_kind a with KVal _ true _ _ => forall vs, get_attr (a_attr a) x = AMany vs -> length its' = length vs | _ => True end.
Proof.
  intros PN zs its zs' H. unfold serialize_conv, person_names in *. destruct (a_kind a) as [convs multi req s|k|m| |].
  - destruct multi; [now apply multi_other|]. unfold serialize_single in *. rewrite (attr_same x y SA).
    destruct (get_attr (a_attr a) x) as [|v|vs]; [injection H as <- <-; exists []; split; [easy|split; [apply apart_nil|easy]]| |destruct (single_params _ _); discriminate].
    unbind H. destruct (single_other drop x y SP ND _ _ Ha) as [-> _]. cbn [bind]. set (n := match a_names a with n :: _ => n | [] => [] end) in *.
    assert (H1 : exists s q, one X convs v a0 zs = Ok (s, q, zs') /\ its = [ILine (ContentLine n q s)]).
    { unfold one. unbind2 H. unbind3 H. injection H as <- <-. rewrite Ha0. cbn [bind]. eauto. }
    destruct H1 as (t & q & H1 & ->). destruct (one_fine X drop (upper n) _ _ _ _ _ _ _ PN H1) as (q' & E & FI).
    exists [ILine (ContentLine n q' t)]. split; [|split; [now apply apart_line|easy]]. unfold one in E. unbind2 E. rewrite Ha0. cbn [bind]. rewrite E. reflexivity.
  - unfold serialize_span in *. rewrite (attr_same x y SA). destruct (get_attr (a_attr a) x) as [|[]|]; try discriminate. unbind2 H. unbind2 H. injection H as <- <-.
    assert (H1 : exists i1, match ts_begin t with
        | None => Ok ([], zs)
        | Some b0 => do ps <- single_params (py "BEGIN") y; do (s, ps', zs') <- span_date X (is_all_day t) b0 ps zs; Ok ([ILine (mk_line (py "DTSTART") ps' s)], zs')
        end = Ok (i1, b) /\ all_apart drop a0 i1).
    { destruct (ts_begin t) as [d|]; [|injection Ha as <- <-; exists []; split; [easy|apply apart_nil]]. unbind Ha. destruct (single_other drop x y SP ND _ _ Ha1) as [-> _]. cbn [bind].
      unbind3 Ha. injection Ha as <- <-. destruct (span_fine X drop (py "DTSTART") _ _ _ _ _ _ _ Ha2) as (q' & -> & FI). cbn [bind]. eexists. split; [reflexivity|]. now apply apart_line. }
    destruct H1 as (i1 & E1 & A1). rewrite E1. cbn [bind].
    match goal with |- exists its', bind ?e _ = _ /\ _ => assert (H2 : exists i2, e = Ok (i2, b0) /\ all_apart drop a1 i2) end.
    { destruct (end_representation t) as [[|]|]; [| |injection Ha0 as <- <-; exists []; split; [easy|apply apart_nil]].
      - unbind Ha0. destruct (single_other drop x y SP ND _ _ Ha1) as [-> _]. cbn [bind].
        unbind Ha0. destruct a3 as [e|]; [|discriminate]. rewrite Ha2. cbn [bind]. injection Ha0 as <- <-. eexists. split; [reflexivity|]. apply apart_line.
        unfold fine. clear. destruct drop; [|easy]. split; [apply sub_nil|]. intros ? [].
      - unbind Ha0. destruct (single_other drop x y SP ND _ _ Ha1) as [-> _]. cbn [bind].
        unbind Ha0. destruct a3 as [e|]; [|discriminate]. rewrite Ha2. cbn [bind]. unbind3 Ha0. injection Ha0 as <- <-.
        destruct (span_fine X drop (match ts_kind t with KTodo => py "DUE" | _ => py "DTEND" end) _ _ _ _ _ _ _ Ha3) as (q' & -> & FI). cbn [bind]. eexists. split; [reflexivity|]. now apply apart_line. }
    destruct H2 as (i2 & -> & A2). cbn [bind]. eexists. split; [reflexivity|]. split; [now apply apart_app|easy].
  - rewrite SP. unfold get_mem in *. rewrite SM.
    assert (H1 : dump_list M dump_m (match dict_get (a_attr a) (c_mem x) with Some l => l | None => [] end) zs = Ok (its, zs') /\
      match dict_get (a_key a) (c_params x) with Some (XOne (_ :: _)) | Some (XMany (_ :: _)) => False | _ => True end).
    { destruct (dict_get (a_key a) (c_params x)) as [[[|]|[|]]|]; try discriminate; auto. }
    destruct H1 as [H1 H2]. exists its. split; [|split; [|easy]].
    + destruct drop; [exact H1|]. destruct (dict_get (a_key a) (c_params x)) as [[[|]|[|]]|]; try contradiction; exact H1.
    + apply apart_conts. revert zs H1 H. clear - dump_cont. intros zs H1 _. revert zs its zs' H1.
      induction (match dict_get (a_attr a) (c_mem x) with Some l => l | None => [] end) as [|m0 l IH]; intros zs its zs' H; cbn [dump_list] in H; [injection H as <- <-; constructor|].
      unbind2 H. unbind2 H. injection H as <- <-. constructor; [eapply dump_cont; exact Ha|eapply IH; exact Ha0].
  - unfold serialize_action in *. unbind H. unbind H. injection H as <- <-. destruct (single_other drop x y SP ND _ _ Ha0) as [-> _].
    assert (action y = Ok a0) as ->. { rewrite <- Ha. unfold action. rewrite SC. now rewrite (attr_same x y SA). }
    cbn [bind]. eexists. split; [reflexivity|]. split; [|easy]. apply apart_line. unfold fine. clear. destruct drop; [|easy]. split; [apply sub_nil|]. intros ? [].
  - injection H as <- <-. exists []. split; [easy|split; [apply apart_nil|easy]].
Qed.
Lemma convs_other l : Forall person_names l -> forall zs its zs', serialize_convs X M dump_m l x zs = Ok (its, zs') ->
  exists its', serialize_convs X M dump_m l y zs = Ok (its', zs') /\ all_apart drop its its'.
Proof.
  induction 1 as [|a l PA F IH]; intros zs its zs' H; cbn [serialize_convs] in *; [injection H as <- <-; exists []; split; [easy|apply apart_nil]|].
  unbind2 H. unbind2 H. injection H as <- <-. destruct (conv_other a PA _ _ _ Ha) as (i1 & -> & A1 & _). cbn [bind]. destruct (IH _ _ _ Ha0) as (i2 & -> & A2). cbn [bind].
  eexists. split; [reflexivity|]. now apply apart_app.
Qed.
End Conv.

(** ** Whole components *)
Definition person_names_b (a : aconv) : bool := match a_kind a with KVal convs _ _ _ => negb (existsb is_person convs) ||
  let n := upper (match a_names a with n :: _ => n | [] => [] end) in str_eqb n (py "ORGANIZER") || str_eqb n (py "ATTENDEE") | _ => true end.
Lemma persons c : Forall person_names (converters c).
Proof.
  assert (H : forallb person_names_b (converters c) = true) by (destruct c; vm_compute; reflexivity).
  rewrite forallb_forall in H. apply Forall_forall. intros a I. apply H in I. unfold person_names_b, person_names in *.
  destruct (a_kind a); try easy. intro E. rewrite E in I. cbn [negb orb] in I. apply orb_prop in I as [I|I]; apply str_eqb_eq in I; auto.
Qed.

Section Whole.
Variable X : ext.
Context {M : Type}.
Variable dump_m : M -> zones -> res (item * zones).
Hypothesis dump_cont : forall m z it z', dump_m m z = Ok (it, z') -> exists n sub, it = ICont n sub.

Lemma no_lines c n l (y : comp M) : (forall b, In b l -> In b (class_fields c) /\ ~ In n (a_names b)) ->
  forall zs its zs', serialize_convs X M dump_m l y zs = Ok (its, zs') -> lines n its = [].
Proof.
  intro HB. induction l as [|b l IH]; intros zs its zs' H; cbn [serialize_convs] in H; [now injection H as <- <-|].
  unbind2 H. unbind2 H. injection H as <- <-. rewrite lines_app. match goal with H : serialize_convs _ _ _ _ _ _ = _ |- _ => apply IH in H; [rewrite H|intros; apply HB; now right] end.
  rewrite app_nil_r. destruct (HB b (or_introl eq_refl)) as [I NI].
  pose proof (serialize_conv_spec X M dump_m c b y _ _ _ I Ha) as S.
  assert (HL : forall its, Forall (line_named (a_names b)) its -> lines n its = []).
  { intros is F. apply lines_none. intros ln Hl E. rewrite Forall_forall in F. destruct (F _ Hl) as (l2 & [= <-] & I2). now rewrite E in I2. }
  destruct (a_kind b) as [convs m r s|k|m| |]; auto.
  - apply lines_none. intros ln Hl. destruct (in_split _ _ Hl) as (l1 & l2 & ->).
    apply Forall2_app_inv_r in S as (m1 & m2 & _ & F & _). inversion F as [|y0 it' m2' l2' (z1 & z2 & D) F']; subst.
    apply dump_cont in D as (? & ? & ?). discriminate.
  - now subst.
Qed.
Definition has_name (n : list N) (b : aconv) : bool := existsb (str_eqb n) (a_names b).
Definition is_multi (b : aconv) : bool := match a_kind b with KVal _ true _ _ => true | _ => false end.
Lemma listed_conv c a n : In (a, n) (listed c) -> exists l1 b l2, converters c = l1 ++ b :: l2 /\ a_attr b = a /\ a_names b = [n] /\ is_multi b = true /\
  forallb (fun d => negb (has_name n d)) (l1 ++ l2) = true.
Proof.
  assert (H : forall i, In (a, n) (listed c) -> forall b, nth_error (converters c) i = Some b ->
    str_eqb (a_attr b) a && match a_names b with [m] => str_eqb m n | _ => false end && is_multi b &&
    forallb (fun d => negb (has_name n d)) (firstn i (converters c) ++ skipn (S i) (converters c)) = true ->
    exists l1 b l2, converters c = l1 ++ b :: l2 /\ a_attr b = a /\ a_names b = [n] /\ is_multi b = true /\ forallb (fun d => negb (has_name n d)) (l1 ++ l2) = true).
  { intros i _ b E H. rewrite !Bool.andb_true_iff in H. destruct H as [[[H1 H2] H3] H4]. exists (firstn i (converters c)), b, (skipn (S i) (converters c)).
    split; [|split; [now apply str_eqb_eq|split; [|split; [exact H3|exact H4]]]].
    - apply nth_error_split in E as (l1 & l2 & E & L). rewrite E. rewrite <- L. rewrite firstn_app, firstn_all, Nat.sub_diag. cbn [firstn]. rewrite app_nil_r. f_equal.
      rewrite skipn_app, skipn_all2 by lia. replace (S (length l1) - length l1)%nat with 1%nat by lia. reflexivity.
    - destruct (a_names b) as [|m [|]]; try discriminate. apply str_eqb_eq in H2. now subst. }
  intro I. destruct c; cbn [listed In] in I; try contradiction; repeat destruct I as [[= <- <-]|I]; try contradiction.
  all: first [eapply (H 11%nat); [cbn [listed In]; tauto|vm_compute; reflexivity|vm_compute; reflexivity]
             |eapply (H 12%nat); [cbn [listed In]; tauto|vm_compute; reflexivity|vm_compute; reflexivity]
             |eapply (H 16%nat); [cbn [listed In]; tauto|vm_compute; reflexivity|vm_compute; reflexivity]
             |eapply (H 17%nat); [cbn [listed In]; tauto|vm_compute; reflexivity|vm_compute; reflexivity]
             |eapply (H 6%nat); [cbn [listed In]; tauto|vm_compute; reflexivity|vm_compute; reflexivity]
             |eapply (H 7%nat); [cbn [listed In]; tauto|vm_compute; reflexivity|vm_compute; reflexivity]
             |eapply (H 5%nat); [cbn [listed In]; tauto|vm_compute; reflexivity|vm_compute; reflexivity]].
Qed.

Lemma lines_all n its : Forall (line_named [n]) its -> length (lines n its) = length its.
Proof.
  induction 1 as [|it its (l & -> & [E|[]]) F IH]; [easy|]. change (ILine l :: its) with ([ILine l] ++ its). rewrite lines_app, !app_length, IH. unfold lines. cbn [flat_map]. rewrite <- E, str_eqb_refl. reflexivity.
Qed.
Lemma count_lines (drop : bool) (x y : comp M) : c_cls y = c_cls x -> c_attrs y = c_attrs x -> c_mem y = c_mem x ->
  (forall k, dict_get k (c_params y) = if drop then None else option_map unmark (dict_get k (c_params x))) -> dicts x ->
  forall zs its zs' its', serialize_convs X M dump_m (converters (c_cls x)) x zs = Ok (its, zs') ->
  serialize_convs X M dump_m (converters (c_cls x)) y zs = Ok (its', zs') ->
  forall a n vs, In (a, n) (listed (c_cls x)) -> get_attr a x = AMany vs -> length (lines n its') = length vs.
Proof.
  intros SC SA SM SP ND zs its zs' its' HX HY a n vs I G. apply listed_conv in I as (l1 & b & l2 & E & EA & EN & EM & F).
  pose proof (persons (c_cls x)) as PN. rewrite E in *. rewrite serialize_convs_app in HX, HY. unbind2 HX. unbind2 HX. injection HX as <- <-.
  assert (HI : forall d, In d (l1 ++ b :: l2) -> In d (class_fields (c_cls x))) by (intros d H; rewrite <- E in H; now apply converters_In).
  apply Forall_app in PN as [PN1 PN2]. inversion PN2 as [|? ? PB PN3]; subst. rewrite forallb_app, Bool.andb_true_iff in F. destruct F as [F1 F2].
  assert (HNO : forall l d, forallb (fun d => negb (has_name n d)) l = true -> In d l -> ~ In n (a_names d)).
  { intros l d F I. rewrite forallb_forall in F. apply F in I. intro J. apply existsb_str in J. unfold has_name in I. now rewrite J in I. }
  destruct (convs_other X dump_m dump_cont drop x y SC SA SM SP ND l1 PN1 _ _ _ Ha) as (i1 & E1 & _).
  cbn [serialize_convs] in Ha0. unbind2 Ha0. unbind2 Ha0. injection Ha0 as <- <-.
  destruct (conv_other X dump_m dump_cont drop x y SC SA SM SP ND b PB _ _ _ Ha1) as (i2 & E2 & _ & CN).
  destruct (convs_other X dump_m dump_cont drop x y SC SA SM SP ND l2 PN3 _ _ _ Ha2) as (i3 & E3 & _).
  rewrite E1 in HY. cbn [bind serialize_convs] in HY. rewrite E2 in HY. cbn [bind] in HY. rewrite E3 in HY. cbn [bind] in HY. injection HY as <-.
  rewrite !lines_app. rewrite (no_lines (c_cls x) n l1 y) with (2 := E1), (no_lines (c_cls x) n l2 y) with (2 := E3).
  - rewrite app_nil_r. cbn [app]. assert (IB : In b (class_fields (c_cls x))) by (apply HI, in_elt). pose proof (serialize_conv_spec X M dump_m _ b y _ _ _ IB E2) as SP2.
    unfold is_multi in EM. destruct (a_kind b) as [convs [] req s| | | |]; try discriminate. rewrite EN in SP2. rewrite lines_all by exact SP2. now apply CN.
  - intros d Hd. split; [apply HI, in_app_iff; right; now right|]. now apply (HNO l2).
  - intros d Hd. split; [apply HI, in_app_iff; now left|]. now apply (HNO l1).
Qed.
Lemma params_drop (x : comp M) k : dict_get k (@nil (list N * xpar)) = if true then None else option_map unmark (dict_get k (c_params x)). Proof. reflexivity. Qed.
Lemma params_unmark (x : comp M) k : dict_get k (c_params (unmarks x)) = option_map unmark (dict_get k (c_params x)).
Proof. unfold unmarks. cbn [c_params set_params]. induction (c_params x) as [|[j v] d IH]; [easy|]. cbn. now destruct (str_eqb k j). Qed.
Lemma same_extra c1 c2 (x : comp M) l zs : c_cls c1 = c_cls c2 -> c_attrs c1 = c_attrs c2 -> c_mem c1 = c_mem c2 -> c_params c1 = c_params c2 ->
  serialize_convs X M dump_m l c1 zs = serialize_convs X M dump_m l c2 zs.
Proof.
  intros E1 E2 E3 E4. revert zs. induction l as [|a l IH]; intro zs; cbn [serialize_convs]; [easy|].
  assert (HS : serialize_conv X M dump_m a c1 zs = serialize_conv X M dump_m a c2 zs).
  { unfold serialize_conv, serialize_multi, serialize_single, serialize_span, serialize_action, action, single_params, get_mem, get_attr. now rewrite E1, E2, E3, E4. }
  rewrite HS. destruct (serialize_conv X M dump_m a c2 zs) as [[its z]|]; [|easy]. cbn [bind]. now rewrite IH.
Qed.
(** The part that a component writes itself. *)
Lemma convs_after (x y : comp M) all p r m : dicts x -> strip_call all p r m x = Ok y ->
  forall l, Forall person_names l -> forall zs its zs', serialize_convs X M dump_m l x zs = Ok (its, zs') ->
  exists its', serialize_convs X M dump_m l y zs = Ok (its', zs') /\
    (asked all r -> all_apart true its its') /\ (~ asked all r -> asked all m -> all_apart false its its') /\ (~ asked all r -> ~ asked all m -> its' = its) /\
    (l = converters (c_cls x) -> asked all r \/ asked all m -> forall a n vs, In (a, n) (listed (c_cls x)) -> get_attr a x = AMany vs -> length (lines n its') = length vs).
Proof.
  intros ND HS l PN zs its zs' H. rewrite strip_shape in HS. pose proof (asked_iff all r) as AR. pose proof (asked_iff all m) as AM.
  destruct (_ || _ || _); [|discriminate]. injection HS as <-. set (y := mk_comp _ _ _ _ _ _).
  destruct (or_all all r) eqn:ER; [|destruct (or_all all m) eqn:EM]; try (assert (NR : ~ asked all r) by (rewrite AR; discriminate)).
  - destruct (convs_other X dump_m dump_cont true x y eq_refl eq_refl eq_refl (params_drop x) ND l PN _ _ _ H) as (its' & E & A).
    exists its'. split; [exact E|]. split; [tauto|]. split; [tauto|]. split; [tauto|]. intros -> _. eapply (count_lines true x y); eauto; exact (params_drop x).
  - destruct (convs_other X dump_m dump_cont false x y eq_refl eq_refl eq_refl (params_unmark x) ND l PN _ _ _ H) as (its' & E & A).
    exists its'. split; [exact E|]. split; [tauto|]. split; [tauto|]. split; [tauto|]. intros -> _. eapply (count_lines false x y); eauto; exact (params_unmark x).
  - exists its. split; [rewrite <- H; now apply same_extra|]. assert (NM : ~ asked all m) by (rewrite AM; discriminate). split; [tauto|]. split; [tauto|]. split; [easy|]. tauto.
Qed.
Lemma dump_after (x y : comp M) all p r m zs n its zs' : dicts x -> strip_call all p r m x = Ok y -> dump_comp X M dump_m x zs = Ok (ICont n its, zs') ->
  exists its', dump_comp X M dump_m y zs = Ok (ICont n its', zs') /\ written_after (asked all p) (asked all r) (asked all m) x its its'.
Proof.
  intros ND HS H. unfold dump_comp in *. unbind2 H. unbind H. injection H as -> ->.
  assert (HY : c_cls y = c_cls x /\ c_name y = c_name x /\ c_extra y = if or_all all p then [] else c_extra x).
  { rewrite strip_shape in HS. destruct (_ || _ || _); [|discriminate]. now injection HS as <-. }
  destruct HY as (-> & -> & ->). destruct (convs_after x y all p r m ND HS _ (persons (c_cls x)) _ _ _ Ha) as (base' & -> & A1 & A2 & A3 & A4). cbn [bind].
  unfold Container in *. destruct (upper (c_name x)) as [|c0 n0]; [discriminate|]. cbn [bind]. injection Ha0 as <- <-. eexists. split; [reflexivity|].
  exists a, base', (if or_all all p then [] else c_extra x). split; [easy|]. split; [easy|]. split; [rewrite asked_iff; now intros ->|]. split; [rewrite not_asked; now intros ->|]. split; [exact A1|]. split; [exact A2|]. split; [exact A3|]. now apply A4.
Qed.
End Whole.

Section Classes.
Variable X : ext.
Lemma alarm_cont (m : alarm) z it z' : dump_alarm X m z = Ok (it, z') -> exists n sub, it = ICont n sub.
Proof. unfold dump_alarm, dump_comp. intro H. unbind2 H. unbind H. injection H as <- <-. apply Container_ICont in Ha0 as [n ->]. eauto. Qed.
Lemma entry_cont (m : entry) z it z' : dump_entry X m z = Ok (it, z') -> exists n sub, it = ICont n sub.
Proof. unfold dump_entry, dump_comp. intro H. unbind2 H. unbind H. injection H as <- <-. apply Container_ICont in Ha0 as [n ->]. eauto. Qed.
Lemma alarm_after (x y : alarm) all p r m zs n its zs' : dicts x -> strip_call all p r m x = Ok y -> dump_alarm X x zs = Ok (ICont n its, zs') ->
  exists its', dump_alarm X y zs = Ok (ICont n its', zs') /\ written_after (asked all p) (asked all r) (asked all m) x its its'.
Proof. apply dump_after. intros []. Qed.
Lemma entry_after (x y : entry) all p r m zs n its zs' : dicts x -> strip_call all p r m x = Ok y -> dump_entry X x zs = Ok (ICont n its, zs') ->
  exists its', dump_entry X y zs = Ok (ICont n its', zs') /\ written_after (asked all p) (asked all r) (asked all m) x its its'.
Proof. apply dump_after. exact alarm_cont. Qed.
Lemma zones_cont (HZ : forall z it, x_tz_dump X z = Ok it -> exists n sub, it = ICont n sub) zs : forall its, dump_zones X zs = Ok its -> Forall (fun i => exists n sub, i = ICont n sub) its.
Proof. induction zs as [|[i z] zs IH]; intros its H; cbn [dump_zones] in H; [injection H as <-; constructor|]. unbind H. unbind H. injection H as <-. constructor; eauto. Qed.
Lemma part_persons : Forall person_names (before_zones (converters CCalendar)) /\ Forall person_names (after_zones (converters CCalendar)).
Proof.
  pose proof (persons CCalendar) as P. rewrite Forall_forall in P. split; apply Forall_forall; intros a I; apply P; revert I; generalize (converters CCalendar); intro l; induction l as [|b l IH]; cbn; try easy.
  - destruct (is_zones b); [easy|]. intros [->|I]; [now left|right; now apply IH].
  - destruct (is_zones b); [now right|]. intro I. right. now apply IH.
Qed.
Lemma calendar_after (HZ : forall z it, x_tz_dump X z = Ok it -> exists n sub, it = ICont n sub) (x y : calendar) all p r m n its :
  c_cls x = CCalendar -> dicts x -> strip_call all p r m x = Ok y -> dump_calendar X x = Ok (ICont n its) ->
  exists its', dump_calendar X y = Ok (ICont n its') /\ written_after (asked all p) (asked all r) (asked all m) x its its'.
Proof.
  intros HC ND HS H. unfold dump_calendar in *. unbind2 H. unbind2 H. unbind H. destruct part_persons as [PB PA].
  assert (HY : c_name y = c_name x /\ c_extra y = if or_all all p then [] else c_extra x).
  { rewrite strip_shape in HS. destruct (_ || _ || _); [|discriminate]. now injection HS as <-. }
  destruct HY as (-> & ->).
  destruct (convs_after X (dump_entry X) entry_cont x y all p r m ND HS _ PB _ _ _ Ha) as (b1 & -> & A1 & A2 & A3 & _). cbn [bind].
  destruct (convs_after X (dump_entry X) entry_cont x y all p r m ND HS _ PA _ _ _ Ha0) as (b2 & -> & B1 & B2 & B3 & _). cbn [bind]. rewrite Ha1. cbn [bind].
  apply zones_cont in Ha1; [|exact HZ].
  unfold Container in *. destruct (upper (c_name x)) as [|c0 n0]; [discriminate|]. injection H as <- <-. eexists. split; [reflexivity|].
  match goal with |- written_after _ _ _ _ (?u ++ ?v ++ ?w ++ _) _ => exists (u ++ v ++ w), (b1 ++ v ++ b2), (if or_all all p then [] else c_extra x) end.
  rewrite <- !app_assoc. split; [easy|]. split; [easy|]. split; [rewrite asked_iff; now intros ->|]. split; [rewrite not_asked; now intros ->|]. split; [|split; [|split]].
  - intro R. apply apart_app; [now apply A1|]. apply apart_app; [now apply apart_conts|now apply B1].
  - intros R J. apply apart_app; [now apply A2|]. apply apart_app; [now apply apart_conts|now apply B2].
  - intros R J. now rewrite A3, B3.
  - intros _ a2 n vs I. rewrite HC in I. destruct I.
Qed.
End Classes.
