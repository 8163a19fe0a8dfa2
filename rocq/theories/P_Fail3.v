(** * Proofs for C71: the first values of a line *)
From Verif Require Import M_Base M_Text M_Line M_Codec M_Cal M_Time M_Span M_Dt M_Tree M_Comp M_Merge M_Fail.
From Verif Require Import S_Text S_Codec S_Dt S_Comp S_Multi S_Reorder P_Base P_Text P_Multi P_Comp P_Cat P_Frame P_Whole P_Keep P_Local P_Reorder P_ReadGen S_Read P_Value P_ReadVal P_ReadSpan P_Read P_ReadAll S_Merge P_Merge S_Fail P_Fail.
From Coq Require Import Lia ZifyBool ZifyNat ZifyN.
Open Scope N_scope.

(** ** Splitting *)
Lemma split_on_comma w r : split_on c_comma (w ++ c_comma :: r) = split_on c_comma w ++ split_on c_comma r.
Proof.
  induction w as [|x w IH]; [reflexivity|]. cbn [app split_on]. destruct (x =? c_comma); [now rewrite IH|]. rewrite IH.
  destruct (split_on c_comma w) as [|v it] eqn:E; [now apply split_on_nonempty in E|]. reflexivity.
Qed.
Lemma split_merge_first it : forall val w v r, split_merge val it = ([w], None) -> split_merge val (it ++ v :: r) = gcons w (split_merge v r).
Proof.
  induction it as [|u it IH]; intros val w v r H; cbn [split_merge app] in *.
  - destruct (Nat.odd _); [discriminate|]. injection H as ->. reflexivity.
  - destruct (Nat.odd _); [now apply IH|]. unfold gcons in H. destruct (split_merge u it) as [l e] eqn:E. cbn [fst snd] in H. injection H as -> -> ->. now apply split_merge_join in E.
Qed.
Lemma split_first w r : good_piece w -> ~ In 10 w -> split_value_list (w ++ c_comma :: r) = gcons w (split_value_list r).
Proof.
  intros G NL. assert (E : split_value_list (join_value_list [w]) = ([w], None)) by (apply split_good_pieces; [easy|]; intros u [<-|[]]; auto). cbn [join_value_list join] in E.
  unfold split_value_list in *. rewrite split_on_comma. destruct (split_on c_comma w) as [|val it]; [discriminate|]. cbn [app].
  destruct (split_on c_comma r) as [|v r'] eqn:ER; [now apply split_on_nonempty in ER|]. now apply split_merge_first.
Qed.
Lemma split_merge_rest it : forall val l e, split_merge val it = (l, Some e) -> exists u, join [c_comma] (l ++ [u]) = join [c_comma] (val :: it).
Proof.
  induction it as [|v it IH]; intros val l e H; cbn [split_merge] in H.
  - destruct (Nat.odd _); [|discriminate]. injection H as <- _. now exists val.
  - destruct (Nat.odd _).
    + destruct (IH _ _ _ H) as (u & E). exists u. rewrite E. apply join_snoc_comma.
    + unfold gcons in H. destruct (split_merge v it) as [l' e'] eqn:E. cbn [fst snd] in H. injection H as <- ->. destruct (IH _ _ _ E) as (u & E1). exists u. cbn [app].
      rewrite join_cons by (now destruct l'). rewrite E1. reflexivity.
Qed.
Lemma split_rest s l e : split_value_list s = (l, Some e) -> exists u, join [c_comma] (l ++ [u]) = s.
Proof.
  unfold split_value_list. destruct (split_on c_comma s) as [|val it] eqn:E; [discriminate|]. intro H. apply split_merge_rest in H as (u & H). exists u. rewrite H, <- E. apply join_split_on.
Qed.
(** The pieces of a value, and the exception after them. *)
Definition pieces (t : vconv) (s : list N) : list (list N) * option exn :=
  match t with Text => split_value_list s | _ => (split_on c_comma s, None) end.
Lemma pieces_join t s l : pieces t s = (l, None) -> join [c_comma] l = s /\ l <> [].
Proof.
  assert (G : forall l, (split_on c_comma s, @None exn) = (l, None) -> join [c_comma] l = s /\ l <> []) by (intros l' [= <-]; split; [apply join_split_on|apply split_on_nonempty]).
  destruct t; cbn [pieces]; try apply G. intro H. split; [now apply split_join|eapply split_nonempty; eauto].
Qed.
Lemma pieces_rest t s l e : pieces t s = (l, Some e) -> exists u, join [c_comma] (l ++ [u]) = s.
Proof. destruct t; cbn [pieces]; try discriminate. apply split_rest. Qed.
Lemma pieces_first t w r : (t = Text -> exists v, TextEsc w v) -> (t <> Text -> ~ In 44 w) -> pieces t (w ++ c_comma :: r) = (w :: fst (pieces t r), snd (pieces t r)).
Proof.
  intros HT HN.
  assert (G : ~ In 44 w -> (split_on c_comma (w ++ c_comma :: r), @None exn) = (w :: split_on c_comma r, None)) by (intro H; rewrite split_on_comma, split_on_nosep by exact H; reflexivity).
  destruct t; cbn [pieces fst snd]; try (apply G, HN; discriminate). destruct (HT eq_refl) as (v & HV). rewrite split_first; [reflexivity|eapply TextEsc_good; eauto|eapply TextEsc_line; eauto].
Qed.
Lemma pieces_prefix t ss rest s : (t = Text -> Forall (fun w => exists v, TextEsc w v) ss) -> (t <> Text -> Forall (fun w => ~ In 44 w) ss) -> commas (ss ++ [rest]) s ->
  exists more, fst (pieces t s) = ss ++ more.
Proof.
  revert s. induction ss as [|w ss IH]; intros s HT HN H; cbn [app] in *; [eauto|]. inversion H as [|? ? r HR]; subst; [now destruct ss|].
  change (py "," ++ r) with (c_comma :: r). rewrite pieces_first.
  - destruct (IH r) as (more & E); auto.
    + intro E. specialize (HT E). now inversion HT.
    + intro E. specialize (HN E). now inversion HN.
    + exists more. cbn [fst]. now rewrite E.
  - intro E. specialize (HT E). now inversion HT.
  - intro E. specialize (HN E). now inversion HN.
Qed.
Lemma pieces_commaless t s : t <> Text -> Forall (fun w => ~ In 44 w) (fst (pieces t s)).
Proof.
  intro NT. assert (fst (pieces t s) = split_on c_comma s) as -> by (now destruct t). apply Forall_forall. intros w I. now apply split_on_no_sep_in in I.
Qed.
Lemma commas_cut ss : forall more s, more <> [] -> join [c_comma] (ss ++ more) = s -> commas (ss ++ [join [c_comma] more]) s.
Proof.
  induction ss as [|w ss IH]; intros more s NE H; cbn [app] in *; [subst; constructor|]. rewrite join_cons in H by (destruct ss; [exact NE|discriminate]). subst s.
  change ([c_comma]) with (py ",") at 2. constructor. now apply IH.
Qed.

Section Fail.
Variable X : ext.
Variable M : Type.
Variable zs : zones.
Local Notation lst := (lst M).

Lemma begun_text t ss ps vs qs : values_begun X zs t ss ps vs qs -> t = Text -> Forall (fun w => exists v, TextEsc w v) ss.
Proof. induction 1 as [|w ss ps v rest vs qs D H IH]; intro E; [constructor|]. constructor; [|auto]. subst t. inversion D; subst. eauto. Qed.
(** What is changed by storing values. *)
Definition grown (a : aconv) (vs : list val) (qs : list xp) (y x : comp M) : Prop :=
  exists old, dict_get (a_attr a) (c_attrs y) = Some (AMany old) /\ dict_get (a_attr a) (c_attrs x) = Some (AMany (old ++ vs)) /\
  dict_get (a_key a) (c_params x) = added qs (dict_get (a_key a) (c_params y)) /\
  (forall k, k <> a_attr a -> dict_get k (c_attrs x) = dict_get k (c_attrs y)) /\ (forall k, k <> a_key a -> dict_get k (c_params x) = dict_get k (c_params y)) /\
  c_cls x = c_cls y /\ c_name x = c_name y /\ c_extra x = c_extra y /\ c_mem x = c_mem y.
Lemma values_begin a cv o vals : forall ps (s s' : lst) e, listed M a (l_comp s) -> zeq X zs (l_zones s) -> values_out X M a cv vals o ps s = (s', Err e) ->
  exists n vs qs, (n <= length vals)%nat /\ (o = None -> (n < length vals)%nat) /\ values_begun X zs cv (firstn n vals) ps vs qs /\ grown a vs qs (l_comp s) (l_comp s') /\
    forall ss more vs' qs', vals = ss ++ more -> values_begun X zs cv ss ps vs' qs' -> (length ss <= n)%nat.
Proof.
  induction vals as [|w vals IH]; intros ps s s' e HL HZ H; cbn [values_out] in H.
  - destruct o as [e'|]; [|discriminate]. injection H as <- _. exists 0%nat, [], []. split; [easy|]. split; [discriminate|]. split; [constructor|]. split.
    + destruct HL as [(l & HL) _]. exists l. rewrite app_nil_r. repeat split; auto.
    + intros ss more vs' qs' E _. destruct ss; [easy|discriminate].
  - unfold first in H. destruct (vparse _ _ _ _ _) as [[[v ps'] z]|e'] eqn:EV.
    + apply (read_denotes X zs) in EV as [D Z]; [|exact HZ].
      match type of H with context [append_params _ ?q _] => assert (EM : q = note_as (py "TRUE") ps'); [|rewrite EM in H; clear EM] end.
      { destruct vals; [|reflexivity]. destruct o; [reflexivity|]. exfalso.
        destruct (listed_append M a (dict_set MERGE (raw [py "FALSE"]) ps') v _ HL) as (l & x1 & x2 & EL & E1 & E2 & HL2 & EX). rewrite E1, E2 in H. cbn [values_out] in H. discriminate. }
      destruct (listed_append M a (note_as (py "TRUE") ps') v _ HL) as (l & x1 & x2 & EL & E1 & E2 & HL2 & EX). rewrite E1, E2 in H.
      match type of H with values_out _ _ _ _ _ _ ?p ?s1 = _ => destruct (IH p s1 _ _ HL2 Z H) as (n & vs & qs & N1 & N2 & HB & (old & G1 & G2 & G3 & G4 & G5 & G6 & G7 & G8 & G9) & HX) end.
      exists (S n), (v :: vs), (note_as (py "TRUE") ps' :: qs). cbn [length firstn]. split; [lia|]. split; [intro E; specialize (N2 E); lia|]. split; [now constructor|].
      cbn [l_comp] in *. split.
      * rewrite EX in *. cbn [c_attrs c_params c_cls c_name c_extra c_mem] in *. exists l. rewrite dict_get_set_same in G1. injection G1 as <-. split; [exact EL|]. split; [now rewrite G2, <- app_assoc|].
        split; [|split; [|split; [|auto]]].
        -- rewrite G3, dict_get_set_same. unfold added. cbn [notes]. destruct qs; [reflexivity|]. now rewrite <- app_assoc.
        -- intros k NK. rewrite G4, dict_get_set_other by auto. reflexivity.
        -- intros k NK. rewrite G5, dict_get_set_other by auto. reflexivity.
      * intros ss more vs' qs' E B. destruct ss as [|u ss]; [cbn; lia|]. cbn [app] in E. injection E as <- ->. inversion B as [|? ? ? v2 r2 vs2 qs2 D2 B2]; subst. cbn [length].
        assert (r2 = ps') as ->.
        { destruct (denotes_read X zs zs _ _ _ _ _ (zeq_refl X zs) D) as (z1 & F1 & _). destruct (denotes_read X zs zs _ _ _ _ _ (zeq_refl X zs) D2) as (z2 & F2 & _). congruence. }
        specialize (HX ss more _ _ eq_refl B2). lia.
    + injection H as <- _. exists 0%nat, [], []. cbn [firstn length]. split; [lia|]. split; [lia|]. split; [constructor|]. split.
      * destruct HL as [(l & HL) _]. exists l. rewrite app_nil_r. repeat split; auto.
      * intros ss more vs' qs' E B. destruct ss as [|u ss]; [easy|]. injection E as <- _. inversion B as [|? ? ? v2 r2 vs2 qs2 D2 B2]; subst.
        destruct (denotes_read X zs (l_zones s) _ _ _ _ _ HZ D2) as (z2 & F2 & _). congruence.
Qed.
Lemma multi_begin a convs ts l (s s' : lst) e : types_ok ts convs -> listed M a (l_comp s) -> zeq X zs (l_zones s) -> multi_out X M a convs l s = (s', Err e) ->
  exists vs qs, begun_most X zs ts l vs qs /\ grown a vs qs (l_comp s) (l_comp s').
Proof.
  intros TO HL HZ H. unfold multi_out, first in H. destruct (prepare_params convs (cl_params l)) as [[ps cv]|e'] eqn:EP.
  - apply (typed_iff _ _ _ _ _ TO) in EP as [HT ->]. change (match cv with Text => split_value_list (cl_value l) | _ => (split_on c_comma (cl_value l), None) end) with (pieces cv (cl_value l)) in H. destruct (pieces cv (cl_value l)) as [vals o] eqn:EV.
    destruct (values_begin a cv o vals _ _ _ _ HL HZ H) as (n & vs & qs & N1 & N2 & HB & HG & HX). exists vs, qs. split; [|exact HG]. left. exists n. split.
    + assert (exists rest, commas (firstn n vals ++ [rest]) (cl_value l)) as (rest & HC).
      { destruct o as [e0|].
        - apply pieces_rest in EV as (u & EV). exists (join [c_comma] (skipn n vals ++ [u])). apply commas_cut; [now destruct (skipn n vals)|]. now rewrite app_assoc, firstn_skipn.
        - apply pieces_join in EV as [EV _]. exists (join [c_comma] (skipn n vals)). specialize (N2 eq_refl). apply commas_cut; [|now rewrite firstn_skipn].
          intro E. apply (f_equal (@length _)) in E. rewrite skipn_length in E. cbn [length] in E. lia. }
      exists cv, (firstn n vals), rest. split; [now apply firstn_length_le|]. split; [exact HT|]. split; [exact HC|]. split; [|exact HB]. intro NT. pose proof (pieces_commaless cv (cl_value l) NT) as F. rewrite EV in F. cbn [fst] in F.
      rewrite <- (firstn_skipn n vals) in F. now apply Forall_app in F.
    + intros m vs' qs' (t & ss & rest & <- & HT' & HC & HN & HB'). pose proof (typed_det _ _ _ _ _ TO HT HT') as <-.
      destruct (pieces_prefix cv ss rest (cl_value l) (begun_text _ _ _ _ _ HB') HN HC) as (more & E). rewrite EV in E. cbn [fst] in E. eapply HX; eauto.
  - injection H as <- _. exists [], []. split.
    + right. split; [easy|]. split; [easy|]. intros m vs' qs' (t & ss & rest & _ & HT & _). rewrite (proj2 (typed_iff _ _ _ _ _ TO) (conj HT eq_refl)) in EP. discriminate.
    + destruct HL as [(w & HL) _]. exists w. rewrite app_nil_r. repeat split; auto.
Qed.
End Fail.
