(** * Proofs: equality, hash and text of recurrence rules and sets (C65) *)
From Verif Require Import M_Base M_Line M_Codec M_Cal M_Time M_Span M_Dt M_Rrule M_Show M_RuleEq.
From Verif Require Import S_Show S_RuleEq.
From Verif Require Import P_Base P_Attr P_Show2.
From Coq Require Import Lia ZifyBool ZifyNat ZifyN.
Open Scope Z_scope.

Section RuleEq.
Variable V : Type.
Variable veq : V -> V -> bool.
Notation dict_eq := (dict_eq V veq).
Notation rule := (rrule V).

Lemma sdec (k j : list N) : {k = j} + {k <> j}. Proof. apply list_eq_dec, N.eq_dec. Qed.
Lemma get_in (d : dict V) k : dict_get k d <> None <-> In k (keys d).
Proof.
  induction d as [|[j v] d IH]; cbn; [tauto|]. destruct (str_eqb k j) eqn:E; [apply str_eqb_eq in E as ->; split; [now left|discriminate]|].
  rewrite IH. split; [now right|]. intros [-> |H]; [now rewrite str_eqb_refl in E|exact H].
Qed.
Lemma get_of_in (d : dict V) k v : NoDup (keys d) -> In (k, v) d -> dict_get k d = Some v.
Proof.
  induction d as [|[j w] d IH]; intros ND I; [destruct I|]. cbn in *. inversion ND as [|? ? NI ND']; subst. destruct I as [I|I].
  - injection I as -> ->. now rewrite str_eqb_refl.
  - destruct (str_eqb k j) eqn:E; [|now apply IH]. apply str_eqb_eq in E as ->. exfalso. apply NI. apply (in_map fst) in I. exact I.
Qed.
Lemma get_pair (d : dict V) k v : dict_get k d = Some v -> In (k, v) d.
Proof.
  induction d as [|[j w] d IH]; cbn; [discriminate|]. destruct (str_eqb k j) eqn:E; [|auto]. apply str_eqb_eq in E as ->. intro H. injection H as ->. now left.
Qed.
Lemma dict_eq_iff a b : NoDup (keys a) -> NoDup (keys b) -> dict_eq a b = true <-> forall k, same_value V veq (dict_get k a) (dict_get k b).
Proof.
  intros NA NB. unfold M_RuleEq.dict_eq. rewrite andb_true_iff, Nat.eqb_eq, forallb_forall. split.
  - intros [L F] k. destruct (dict_get k a) as [v|] eqn:EA.
    + specialize (F _ (get_pair _ _ _ EA)). cbn in F. destruct (dict_get k b); [exact F|discriminate].
    + destruct (dict_get k b) as [w|] eqn:EB; [|exact I]. cbn. assert (IN : incl (keys a) (keys b)).
      { intros j J. apply get_in in J. destruct (dict_get j a) as [v|] eqn:EJ; [|easy]. specialize (F _ (get_pair _ _ _ EJ)). cbn in F. apply get_in. destruct (dict_get j b); [discriminate|discriminate]. }
      assert (IN' : incl (keys b) (keys a)) by (apply NoDup_length_incl; [exact NA|unfold keys; rewrite !map_length; lia|exact IN]).
      assert (K : In k (keys b)) by (apply get_in; congruence). apply IN' in K. apply get_in in K. now rewrite EA in K.
  - intro H. split.
    + assert (IN : forall a b, (forall k, same_value V veq (dict_get k a) (dict_get k b)) -> incl (keys a) (keys b)).
      { intros c d S k K. apply get_in in K. apply get_in. specialize (S k). destruct (dict_get k c), (dict_get k d); (discriminate || easy). }
      assert (IN' : incl (keys b) (keys a)). { intros k K. apply get_in in K. apply get_in. specialize (H k). destruct (dict_get k a), (dict_get k b); (discriminate || easy). }
      pose proof (NoDup_incl_length NA (IN _ _ H)) as L1. pose proof (NoDup_incl_length NB IN') as L2. unfold keys in *. rewrite !map_length in *. lia.
    + intros [k v] I. cbn. specialize (H k). rewrite (get_of_in a k v NA I) in H. destruct (dict_get k b); [exact H|destruct H].
Qed.
Lemma get_update (own : dict V) : forall d k, NoDup (keys own) -> dict_get k (dict_update d own) = match dict_get k own with Some v => Some v | None => dict_get k d end.
Proof.
  unfold dict_update. induction own as [|[j v] own IH]; intros d k ND; [reflexivity|]. cbn [fold_left fst snd dict_get]. cbn in ND. inversion ND as [|? ? NI ND']; subst. rewrite IH by exact ND'.
  destruct (str_eqb k j) eqn:E.
  - apply str_eqb_eq in E as ->. destruct (dict_get j own) eqn:G; [exfalso; apply NI, get_in; congruence|]. apply dict_get_set_same.
  - destruct (dict_get k own); [reflexivity|]. assert (NE : k <> j) by (intros ->; now rewrite str_eqb_refl in E). clear - NE. induction d as [|[i w] d IHd]; cbn [dict_set dict_get].
    + destruct (str_eqb k j) eqn:E; [apply str_eqb_eq in E; contradiction|reflexivity].
    + destruct (str_eqb j i) eqn:E; cbn [dict_get]; [|now rewrite IHd]. apply str_eqb_eq in E as <-. destruct (str_eqb k j) eqn:E'; [apply str_eqb_eq in E'; contradiction|reflexivity].
Qed.
Definition base (r : rule) : dict V := [(py "interval", rr_interval V r); (py "count", rr_count V r); (py "dtstart", rr_dtstart V r);
               (py "freq", rr_freq V r); (py "until", rr_until V r); (py "wkst", rr_wkst V r)].
Lemma base_nodup r : NoDup (keys (base r)).
Proof.
  cbn [keys base map fst]. repeat (constructor; [intro H; cbn [In] in H; repeat (destruct H as [H|H]; [discriminate H|]); exact H|]). constructor.
Qed.
Lemma to_dict_get r k : proper V r -> dict_get k (rrule_to_dict V r) = parameter V r k.
Proof.
  intro P. unfold rrule_to_dict, parameter. rewrite get_update by exact P. destruct (dict_get k (rr_original V r)); [reflexivity|]. cbn [dict_get].
  destruct (str_eqb k (py "interval")) eqn:E1; [apply str_eqb_eq in E1 as ->; reflexivity|]. destruct (str_eqb k (py "count")) eqn:E2; [apply str_eqb_eq in E2 as ->; reflexivity|].
  destruct (str_eqb k (py "dtstart")) eqn:E3; [apply str_eqb_eq in E3 as ->; reflexivity|]. destruct (str_eqb k (py "freq")) eqn:E4; [apply str_eqb_eq in E4 as ->; reflexivity|].
  destruct (str_eqb k (py "until")) eqn:E5; [apply str_eqb_eq in E5 as ->; reflexivity|reflexivity].
Qed.
Lemma to_dict_nodup r : NoDup (keys (rrule_to_dict V r)).
Proof. apply keys_update. exact (base_nodup r). Qed.
Theorem rule_eq_iff a b : proper V a -> proper V b -> rrule_eq V veq a b = true <-> same_rule V veq a b.
Proof.
  intros PA PB. unfold rrule_eq. rewrite dict_eq_iff by apply to_dict_nodup. unfold same_rule. split; intros H k; specialize (H k); rewrite !to_dict_get in * by assumption; exact H.
Qed.
Lemma list_eq_iff {A} (P : A -> Prop) (eq : A -> A -> bool) (R : A -> A -> Prop) : (forall x y, P x -> P y -> eq x y = true <-> R x y) ->
  forall a b, Forall P a -> Forall P b -> list_eq eq a b = true <-> Forall2 R a b.
Proof.
  intro H. induction a as [|x a IH]; intros [|y b] FA FB; cbn [list_eq]; try (split; [discriminate|intro F; inversion F]); [split; [constructor|reflexivity]|].
  inversion FA; inversion FB; subst. rewrite andb_true_iff, H, IH by assumption. split; [intros [X Y]; now constructor|intro F; inversion F; now split].
Qed.
Lemma all_true {A} (l : list A) : Forall (fun _ => True) l. Proof. induction l; now constructor. Qed.
Theorem set_eq_iff a b : proper_set V a -> proper_set V b -> rruleset_eq V veq a b = true <-> same_set V veq a b.
Proof.
  intros [PA PA'] [PB PB']. unfold rruleset_eq, same_set. rewrite !andb_true_iff.
  rewrite (list_eq_iff (proper V) (rrule_eq V veq) (same_rule V veq) rule_eq_iff) by assumption. rewrite (list_eq_iff (proper V) (rrule_eq V veq) (same_rule V veq) rule_eq_iff) by assumption.
  rewrite !(list_eq_iff (fun _ => True) veq (fun v w => veq v w = true) (fun x y _ _ => iff_refl _)) by apply all_true. tauto.
Qed.
Lemma F2_refl {A} (R : A -> A -> Prop) : (forall x, R x x) -> forall l, Forall2 R l l. Proof. intros H l. induction l; now constructor. Qed.
Lemma F2_sym {A} (R : A -> A -> Prop) : (forall x y, R x y -> R y x) -> forall a b, Forall2 R a b -> Forall2 R b a. Proof. intros H a b F. induction F; constructor; auto. Qed.
Lemma F2_trans {A} (R : A -> A -> Prop) : (forall x y z, R x y -> R y z -> R x z) -> forall a b c, Forall2 R a b -> Forall2 R b c -> Forall2 R a c.
Proof. intros H a b c F. revert c. induction F as [|x y a b X F IH]; intros c G; inversion G; subst; constructor; eauto. Qed.
Lemma same_rule_equiv : equivalence veq -> (forall a, same_rule V veq a a) /\ (forall a b, same_rule V veq a b -> same_rule V veq b a) /\
  (forall a b c, same_rule V veq a b -> same_rule V veq b c -> same_rule V veq a c).
Proof.
  intros (R & S & T). split; [|split].
  - intros a k. unfold same_value. destruct (parameter V a k); [apply R|exact I].
  - intros a b H k. specialize (H k). unfold same_value in *. destruct (parameter V a k), (parameter V b k); auto.
  - intros a b c H H' k. specialize (H k). specialize (H' k). unfold same_value in *. destruct (parameter V a k), (parameter V b k), (parameter V c k); try easy. eapply T; eassumption.
Qed.
Theorem rule_equivalence : equivalence veq ->
  (forall a, proper V a -> rrule_eq V veq a a = true) /\
  (forall a b, proper V a -> proper V b -> rrule_eq V veq a b = true -> rrule_eq V veq b a = true) /\
  (forall a b c, proper V a -> proper V b -> proper V c -> rrule_eq V veq a b = true -> rrule_eq V veq b c = true -> rrule_eq V veq a c = true).
Proof.
  intro EQ. destruct (same_rule_equiv EQ) as (R & S & T). split; [|split].
  - intros a P. now apply rule_eq_iff.
  - intros a b P P' H. apply rule_eq_iff in H; [|assumption|assumption]. apply rule_eq_iff; auto.
  - intros a b c P P' P'' H H'. apply rule_eq_iff in H; [|assumption|assumption]. apply rule_eq_iff in H'; [|assumption|assumption]. apply rule_eq_iff; [assumption|assumption|]. eapply T; eassumption.
Qed.
Theorem set_equivalence : equivalence veq ->
  (forall a, proper_set V a -> rruleset_eq V veq a a = true) /\
  (forall a b, proper_set V a -> proper_set V b -> rruleset_eq V veq a b = true -> rruleset_eq V veq b a = true) /\
  (forall a b c, proper_set V a -> proper_set V b -> proper_set V c -> rruleset_eq V veq a b = true -> rruleset_eq V veq b c = true -> rruleset_eq V veq a c = true).
Proof.
  intro EQ. destruct (same_rule_equiv EQ) as (R & S & T). destruct EQ as (R' & S' & T'). split; [|split].
  - intros a P. apply set_eq_iff; [assumption|assumption|]. split; [|split; [|split]]; apply F2_refl; auto.
  - intros a b P P' H. apply set_eq_iff in H as (A & B & C & D); [|assumption|assumption]. apply set_eq_iff; [assumption|assumption|]. split; [|split; [|split]]; apply F2_sym; auto.
  - intros a b c P P' P'' H H'. apply set_eq_iff in H as (A & B & C & D); [|assumption|assumption]. apply set_eq_iff in H' as (A' & B' & C' & D'); [|assumption|assumption]. apply set_eq_iff; [assumption|assumption|].
    split; [|split; [|split]]; eapply F2_trans; eauto.
Qed.

(** ** Hash *)
Variable vhash : V -> Z.
Variable shash : list N -> Z.
Variable thash : list Z -> Z.
Lemma keys_upd (own own' : dict V) : forall d d', keys own = keys own' -> keys d = keys d' -> keys (dict_update d own) = keys (dict_update d' own').
Proof.
  assert (KS : forall k (v w : V) d d', keys d = keys d' -> keys (dict_set k v d) = keys (dict_set k w d')).
  { intros k v w. induction d as [|[j x] d IH]; intros [|[j' x'] d'] H; cbn in *; try discriminate; [reflexivity|]. injection H as -> H. destruct (str_eqb k j'); cbn; apply (f_equal (cons _)); [exact H|exact (IH _ H)]. }
  unfold dict_update. revert own'. induction own as [|[j v] own IH]; intros [|[j' v'] own'] d d' H HD; cbn in H; try discriminate; [exact HD|]. injection H as -> H. cbn [fold_left fst snd]. apply IH; [exact H|]. now apply KS.
Qed.
Lemma hash_items (a b : dict V) : NoDup (keys a) -> keys a = keys b -> (forall v w, veq v w = true -> vhash v = vhash w) ->
  (forall k, same_value V veq (dict_get k a) (dict_get k b)) ->
  map (fun kv => thash [shash (fst kv); vhash (snd kv)]) a = map (fun kv => thash [shash (fst kv); vhash (snd kv)]) b.
Proof.
  intros ND KE HV S. assert (S' : forall k v, In (k, v) a -> exists w, dict_get k b = Some w /\ vhash v = vhash w).
  { intros k v I. specialize (S k). rewrite (get_of_in a k v ND I) in S. destruct (dict_get k b) as [w|]; [|destruct S]. exists w. split; [reflexivity|]. now apply HV. }
  assert (NB : NoDup (keys b)) by congruence. clear S. revert b KE NB S'. induction a as [|[k v] a IH]; intros [|[j w] b] KE NB S; cbn in KE; try discriminate; [reflexivity|]. injection KE as <- KE. cbn [map fst snd].
  cbn in ND, NB. inversion ND as [|? ? NI ND']; subst. inversion NB as [|? ? NI' NB']; subst. f_equal.
  - destruct (S k v (or_introl eq_refl)) as (w' & G & HW). cbn in G. rewrite str_eqb_refl in G. injection G as <-. now rewrite HW.
  - apply IH; [exact ND'|exact KE|exact NB'|]. intros i u IN. destruct (S i u (or_intror IN)) as (w' & G & HW). exists w'. split; [|exact HW]. cbn in G. destruct (str_eqb i k) eqn:E; [|exact G].
    apply str_eqb_eq in E as ->. exfalso. apply NI. apply (in_map fst) in IN. exact IN.
Qed.
Theorem rule_hash a b : (forall v w, veq v w = true -> vhash v = vhash w) -> proper V a -> proper V b -> same_order V a b ->
  rrule_eq V veq a b = true -> rrule_hash V vhash shash thash a = rrule_hash V vhash shash thash b.
Proof.
  intros HV PA PB SO H. apply rule_eq_iff in H; [|assumption|assumption]. unfold rrule_hash. f_equal. apply hash_items; [apply to_dict_nodup|apply keys_upd; [exact SO|reflexivity]|exact HV|].
  intro k. rewrite !to_dict_get by assumption. apply H.
Qed.
Theorem set_hash a b : (forall v w, veq v w = true -> vhash v = vhash w) -> proper_set V a -> proper_set V b -> same_orders V a b ->
  rruleset_eq V veq a b = true -> rruleset_hash V vhash shash thash a = rruleset_hash V vhash shash thash b.
Proof.
  intros HV [PA PA'] [PB PB'] [SO SO'] H. apply set_eq_iff in H as (A & B & C & D); [|now split|now split]. unfold rruleset_hash.
  assert (HR : forall l m, Forall (proper V) l -> Forall (proper V) m -> Forall2 (same_order V) l m -> Forall2 (same_rule V veq) l m -> map (rrule_hash V vhash shash thash) l = map (rrule_hash V vhash shash thash) m).
  { intros l m PL PM F G. induction F as [|x y l m X F IH]; [reflexivity|]. inversion G; inversion PL; inversion PM; subst. cbn [map]. f_equal; [apply rule_hash; auto; now apply rule_eq_iff|auto]. }
  assert (HD : forall l m, Forall2 (fun v w => veq v w = true) l m -> map vhash l = map vhash m) by (intros l m F; induction F; cbn [map]; f_equal; auto).
  now rewrite (HR _ _ PA PB SO A), (HR _ _ PA' PB' SO' C), (HD _ _ B), (HD _ _ D).
Qed.
End RuleEq.

(** ** Texts *)
Theorem set_text s : rules_only s -> rruleset_str s = text_of (flat_map (rule_lines (py "RRULE")) (rs_rules s) ++ flat_map (rule_lines (py "EXRULE")) (rs_exrules s)).
Proof.
  intros (D & X & F). unfold rruleset_str. rewrite D, X. cbn [flat_map]. rewrite !app_nil_r. unfold text_of. rewrite flat_map_app.
  f_equal.
  - induction (rs_rules s) as [|r l IH]; [reflexivity|]. cbn [flat_map]. rewrite flat_map_app, <- IH. f_equal. unfold rule_str, rule_lines, property. destruct (r_start r); cbn [flat_map app]; rewrite <- ?app_assoc; reflexivity.
  - induction F as [|r l H F IH]; [reflexivity|]. cbn [flat_map]. rewrite flat_map_app, <- IH. f_equal. unfold rule_str, rule_lines, property. rewrite H. cbn [app flat_map]. rewrite app_nil_r, <- ?app_assoc. reflexivity.
Qed.

Lemma rules_text l : flat_map (fun r => rule_str r ++ [10%N]) l = text_of (flat_map (rule_lines (py "RRULE")) l).
Proof.
  unfold text_of. induction l as [|r l IH]; [reflexivity|]. cbn [flat_map]. rewrite flat_map_app, <- IH. f_equal. unfold rule_str, rule_lines, property. destruct (r_start r); cbn [flat_map app]; rewrite <- ?app_assoc; reflexivity.
Qed.
Lemma exrules_text l : Forall (fun r => r_start r = None) l -> flat_map (fun r => py "EX" ++ tl (rule_str r) ++ [10%N]) l = text_of (flat_map (rule_lines (py "EXRULE")) l).
Proof.
  unfold text_of. intro F. induction F as [|r l H F IH]; [reflexivity|]. cbn [flat_map]. rewrite flat_map_app, <- IH. f_equal. unfold rule_str, rule_lines, property. rewrite H. cbn [app flat_map]. rewrite app_nil_r, <- ?app_assoc. reflexivity.
Qed.
Lemma dates_text l : Forall (fun w => wall_ok w = true) l ->
  Forall2 (fun w t => moment_shown t w None) l (map wall_str l) /\ flat_map (fun d => wall_str d ++ [10%N]) l = text_of (map wall_str l).
Proof.
  intros F. unfold text_of. split.
  - induction F as [|w l H F IH]; [constructor|]. cbn [map]. constructor; [|exact IH]. unfold wall_str. set (E := mk_env _ _ _ _ _ _). refine (dt_is_shown E (mk_dt w false None) _). split; [exact H|discriminate].
  - clear F. induction l as [|w l IH]; [reflexivity|]. cbn [map flat_map]. now rewrite IH.
Qed.
Theorem set_text_dates s : Forall (fun r => r_start r = None) (rs_exrules s) -> Forall (fun w => wall_ok w = true) (rs_dates s ++ rs_exdates s) ->
  exists ds xs, Forall2 (fun w t => moment_shown t w None) (rs_dates s) ds /\ Forall2 (fun w t => moment_shown t w None) (rs_exdates s) xs /\
    rruleset_str s = text_of (flat_map (rule_lines (py "RRULE")) (rs_rules s) ++ flat_map (rule_lines (py "EXRULE")) (rs_exrules s) ++ ds ++ xs).
Proof.
  intros FX FD. apply Forall_app in FD as [FD FE]. destruct (dates_text _ FD) as [D1 D2]. destruct (dates_text _ FE) as [E1 E2].
  exists (map wall_str (rs_dates s)), (map wall_str (rs_exdates s)). split; [exact D1|]. split; [exact E1|]. unfold rruleset_str. rewrite rules_text, (exrules_text _ FX), D2, E2.
  unfold text_of. now rewrite !flat_map_app.
Qed.
