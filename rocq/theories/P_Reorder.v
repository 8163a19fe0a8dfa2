(** * Proofs: the order of different properties does not matter *)
From Verif Require Import M_Base M_Text M_Line M_Codec M_Cal M_Time M_Span M_Dt M_Tree M_Comp.
From Verif Require Import S_Comp S_Reorder P_Base P_Comp P_Frame P_Whole P_Keep P_Local.
From Coq Require Import Lia ZifyBool ZifyNat ZifyN.
Open Scope N_scope.

(** ** The classes: names with a converter in common are those of the time span *)
Definition all_names (c : cls) : list (list N) := flat_map a_names (converters c).
Definition quietb (c : cls) : bool :=
  forallb (fun n => forallb (fun m => if str_eqb n m then true else
    forallb (fun a => forallb (fun b =>
      indepb a b || (is_span a && is_span b && Nat.eqb (length (lookup c n)) 1 && Nat.eqb (length (lookup c m)) 1
                     && str_eqb (a_attr a) (a_attr b) && Nat.eqb (length (filter is_span (converters c))) 1
                     && existsb (str_eqb n) SPAN_NAMES && existsb (str_eqb m) SPAN_NAMES))
      (lookup c m)) (lookup c n)) (all_names c)) (all_names c).
Lemma lookup_names c a n : In a (lookup c n) -> In n (all_names c) /\ In a (converters c).
Proof.
  unfold lookup, all_names. rewrite filter_In. intros [H1 H2]. apply existsb_exists in H2 as (m & Hm & E). apply str_eqb_eq in E as <-.
  split; [|exact H1]. apply in_flat_map. eauto.
Qed.
Lemma existsb_In n l : existsb (str_eqb n) l = true -> In n l.
Proof. intro H. apply existsb_exists in H as (m & Hm & E). now apply str_eqb_eq in E as <-. Qed.
Lemma quiet_all c : quietb c = true.
Proof. destruct c; vm_compute; reflexivity. Qed.
Lemma class_quiet c a b n m : In a (lookup c n) -> In b (lookup c m) -> n <> m ->
  indep a b \/ (is_span a = true /\ lookup c n = [a] /\ lookup c m = [a] /\ In n SPAN_NAMES /\ In m SPAN_NAMES).
Proof.
  intros Ha Hb N. pose proof (quiet_all c) as Q. unfold quietb in Q. rewrite forallb_forall in Q.
  specialize (Q n (proj1 (lookup_names _ _ _ Ha))). rewrite forallb_forall in Q. specialize (Q m (proj1 (lookup_names _ _ _ Hb))).
  destruct (str_eqb n m) eqn:E; [now apply str_eqb_eq in E|]. rewrite forallb_forall in Q. specialize (Q a Ha). rewrite forallb_forall in Q. specialize (Q b Hb).
  apply orb_true_iff in Q as [Q|Q]; [left; now apply indepb_spec|right].
  rewrite !andb_true_iff, !Nat.eqb_eq in Q. destruct Q as [[[[[[[A B] L1] L2] _] F] I1] I2].
  destruct (lookup c n) as [|a' [|? ?]] eqn:En; try discriminate. destruct Ha as [->|[]].
  destruct (lookup c m) as [|b' [|? ?]] eqn:Em; try discriminate. destruct Hb as [->|[]].
  assert (Fa : In a (filter is_span (converters c))) by (apply filter_In; split; [apply (lookup_names c a n); rewrite En; now left|exact A]).
  assert (Fb : In b (filter is_span (converters c))) by (apply filter_In; split; [apply (lookup_names c b m); rewrite Em; now left|exact B]).
  destruct (filter is_span (converters c)) as [|f [|? ?]]; try discriminate. destruct Fa as [<-|[]], Fb as [<-|[]].
  auto 7 using existsb_In.
Qed.
Lemma class_pairwise_all c : pairwise (converters c).
Proof. apply pairwiseb_spec. destruct c; vm_compute; reflexivity. Qed.

(** ** Reordering is symmetric *)
Lemma apart_sym c a b : apart c a b -> apart c b a.
Proof. intros (N & K & S). split; [congruence|]. split; [tauto|]. tauto. Qed.
Lemma reorder_mono c (R Q : item -> item -> Prop) l m : (forall a b, R a b -> Q a b) -> reorder c R l m -> reorder c Q l m.
Proof. intros H. induction 1; [constructor|constructor; auto|now constructor|]. eapply RO_trans; eauto. Qed.
Lemma reorder_inv c (R Q : item -> item -> Prop) l m : (forall a b, R a b -> Q b a) -> reorder c R l m -> reorder c Q m l.
Proof. intros H. induction 1; [constructor|constructor; auto|constructor; now apply apart_sym|]. eapply RO_trans; eauto. Qed.
Lemma reorder_filter c (R : item -> item -> Prop) p l m : (forall a b, R a b -> p a = p b) ->
  (forall a b, apart c a b -> p a = true -> p b = true -> False) -> (forall a b, R a b -> p a = true -> a = b) ->
  reorder c R l m -> filter p l = filter p m.
Proof.
  intros H1 H2 H3. induction 1 as [|a b l m HR _ IH|a b l HA|]; cbn [filter]; [easy| | |congruence].
  - rewrite <- (H1 _ _ HR), IH. destruct (p a) eqn:P; [|easy]. now rewrite (H3 _ _ HR P).
  - destruct (p a) eqn:A, (p b) eqn:B; try easy. exfalso. eauto.
Qed.
Lemma action_filter c l m : reorder c eq l m -> filter (fun it => str_eqb (item_name it) (py "ACTION")) l = filter (fun it => str_eqb (item_name it) (py "ACTION")) m.
Proof.
  apply reorder_filter; [now intros a b -> | |easy]. intros a b (N & _) A B. apply str_eqb_eq in A, B. congruence.
Qed.
Lemma find_action_order c l m : reorder c eq l m -> find_action l = find_action m.
Proof. intro H. unfold find_action. now rewrite (action_filter c l m H). Qed.
Lemma alarm_class_order c l m d : reorder c eq l m -> alarm_class l d -> alarm_class m d.
Proof.
  intros H (x & I & N & A). exists x. split; [|now split].
  assert (F : In (ILine x) (filter (fun it => str_eqb (item_name it) (py "ACTION")) l)) by (apply filter_In; split; [exact I|]; cbn; rewrite N; now apply str_eqb_eq).
  rewrite (action_filter _ _ _ H) in F. now apply filter_In in F.
Qed.
Lemma alarm_order_sym l m : alarm_order l m -> alarm_order m l.
Proof. intros (c & A & R). exists c. split; [eapply alarm_class_order; eauto|]. eapply reorder_inv; [|exact R]. auto. Qed.
Lemma in_entry_sym a b : in_entry a b -> in_entry b a.
Proof. intros [H|(l & m & -> & -> & H)]; [now left|right]. eauto 6 using alarm_order_sym. Qed.
Lemma entry_order_sym c l m : entry_order c l m -> entry_order c m l.
Proof. apply reorder_inv, in_entry_sym. Qed.
Lemma in_calendar_sym a b : in_calendar a b -> in_calendar b a.
Proof.
  intros [H|[(l & m & -> & -> & H)|(l & m & -> & -> & H)]]; [now left|right; left|right; right]; eauto 6 using entry_order_sym.
Qed.
Lemma calendar_order_sym l m : calendar_order l m -> calendar_order m l.
Proof. apply reorder_inv, in_calendar_sym. Qed.

(** ** Sameness is an equivalence *)
Section Same.
Context {M : Type} (RM : M -> M -> Prop).
Lemma F2_refl : (forall x, RM x x) -> forall l, Forall2 RM l l. Proof. intros H l. induction l; auto. Qed.
Lemma F2_sym : (forall x y, RM x y -> RM y x) -> forall l m, Forall2 RM l m -> Forall2 RM m l. Proof. intros H l m. induction 1; auto. Qed.
Lemma F2_trans : (forall x y z, RM x y -> RM y z -> RM x z) -> forall l m n, Forall2 RM l m -> Forall2 RM m n -> Forall2 RM l n.
Proof. intros H l m n A. revert n. induction A; intros n B; inversion B; subst; eauto. Qed.
Lemma same_refl : (forall x, RM x x) -> forall x, same RM x x.
Proof. intros H x. split; auto. intro k. destruct (dict_get k (c_mem x)); auto using F2_refl. Qed.
Lemma same_sym : (forall x y, RM x y -> RM y x) -> forall x y, same RM x y -> same RM y x.
Proof. intros H x y [? ? ? ? K ?]. split; auto. intro k. specialize (K k). destruct (dict_get k (c_mem x)), (dict_get k (c_mem y)); auto using F2_sym. Qed.
Lemma same_trans : (forall x y z, RM x y -> RM y z -> RM x z) -> forall x y z, same RM x y -> same RM y z -> same RM x z.
Proof.
  intros H x y z [? ? ? A1 K1 P1] [? ? ? A2 K2 P2]. split; [congruence..| | |]; intro k; [now rewrite A1| |now rewrite P1].
  specialize (K1 k). specialize (K2 k). destruct (dict_get k (c_mem x)), (dict_get k (c_mem y)), (dict_get k (c_mem z)); auto; try easy. eapply F2_trans; eauto.
Qed.
End Same.

Section Order.
Variable X : ext.

(** ** Alarms *)
Lemma class_of a : action_class a (type_from_action a).
Proof.
  unfold type_from_action. repeat match goal with |- context [str_eqb a ?b] => let E := fresh in destruct (str_eqb a b) eqn:E; [apply str_eqb_eq in E as ->; constructor|] end.
  constructor. intros [<-|[<-|[<-|[<-|[]]]]]; cbn in *; discriminate.
Qed.
Lemma class_det a c d : action_class a c -> action_class a d -> c = d.
Proof.
  intros K L; destruct K; inversion L; subst; try reflexivity; exfalso; match goal with F : ~ In _ _ |- _ => apply F; cbn; tauto end.
Qed.
Lemma alarm_reorder n l m zs zs' x zs1 : alarm_order l m -> zeq X zs zs' -> load_alarm X n l zs = Ok (x, zs1) ->
  exists y zs2, load_alarm X n m zs' = Ok (y, zs2) /\ same_alarm x y.
Proof.
  intros (c & (a & Ia & Na & Ca) & R) HZ. unfold load_alarm. rewrite <- (find_action_order c l m R). intro H. unbind H. rewrite Ha. cbn [bind].
  assert (TA : type_from_action a0 = c).
  { revert Ha. unfold find_action. assert (F : In (ILine a) (filter (fun it => str_eqb (item_name it) (py "ACTION")) l)) by (apply filter_In; split; [exact Ia|]; cbn; rewrite Na; now apply str_eqb_eq).
    destruct (filter _ l) as [|[b|? ?] [|? ?]]; try discriminate. destruct F as [[= ->]|[]]. intros [= <-]. eapply class_det; [apply class_of|exact Ca]. }
  rewrite TA in *. unfold load_comp in *.
  destruct (instance_reorder X Empty_set eq (fun x => eq_refl) (fun x y => @eq_sym _ x y) (fun x y z => @eq_trans _ x y z) no_member eq
    (fun l it (E : ILine l = it) => eq_sym E) (fun n l it (E : ICont n l = it) => ex_intro _ l (eq_sym E))
    ltac:(discriminate) ltac:(discriminate) (fun it => eq_refl) c (fun a b E => or_introl E) (class_pairwise_all c) (class_quiet c)
    (new_comp X Empty_set c) n l m zs zs' x zs1 R eq_refl HZ H) as (y & zs2 & E & S & _).
  exists y, zs2. split; [exact E|exact S].
Qed.
Lemma alarm_zeq n l zs x zs1 : load_alarm X n l zs = Ok (x, zs1) -> zeq X zs zs1.
Proof.
  unfold load_alarm, load_comp. intro H. unbind H.
  exact (instance_zeq X Empty_set eq (fun x => eq_refl) no_member eq
    (fun l it (E : ILine l = it) => eq_sym E) (fun n l it (E : ICont n l = it) => ex_intro _ l (eq_sym E))
    ltac:(discriminate) ltac:(discriminate) (fun it => eq_refl) (type_from_action a) (new_comp X Empty_set _) n l zs x zs1 eq_refl H).
Qed.

(** ** Events and todos *)
Lemma in_entry_line l it : in_entry (ILine l) it -> it = ILine l.
Proof. intros [<-|(a & b & E & _)]; [easy|discriminate]. Qed.
Lemma in_entry_cont n l it : in_entry (ICont n l) it -> exists l', it = ICont n l'.
Proof. intros [<-|(a & b & [= -> ->] & -> & _)]; eauto. Qed.
Lemma entry_member_zeq k n l zs x zs1 : entry_member X k n l zs = Ok (x, zs1) -> zeq X zs zs1.
Proof. destruct k; try discriminate. apply alarm_zeq. Qed.
Lemma alarm_refl x : same_alarm x x. Proof. now apply same_refl. Qed.
Lemma entry_refl x : same_entry x x. Proof. now apply same_refl, alarm_refl. Qed.
Lemma alarm_sym x y : same_alarm x y -> same_alarm y x. Proof. now apply same_sym. Qed.
Lemma entry_sym x y : same_entry x y -> same_entry y x. Proof. apply same_sym, alarm_sym. Qed.
Lemma alarm_trans x y z : same_alarm x y -> same_alarm y z -> same_alarm x z. Proof. apply same_trans. congruence. Qed.
Lemma entry_trans x y z : same_entry x y -> same_entry y z -> same_entry x z. Proof. apply same_trans, alarm_trans. Qed.

(** A reading that does not change the zones can be done with equal zones. *)
Lemma alarm_same n l zs zs' x zs1 : zeq X zs zs' -> load_alarm X n l zs = Ok (x, zs1) ->
  exists y zs2, load_alarm X n l zs' = Ok (y, zs2) /\ same_alarm x y.
Proof.
  intros HZ H. assert (alarm_order l l); [|now apply (alarm_reorder n l l zs zs' x zs1)].
  pose proof H as K. unfold load_alarm in K. unbind K. exists (type_from_action a). split; [now apply find_action_spec|].
  clear. induction l; constructor; auto.
Qed.
Lemma entry_member_same k n l l' zs zs' x zs1 : in_entry (ICont n l) (ICont n l') -> zeq X zs zs' -> entry_member X k n l zs = Ok (x, zs1) ->
  exists y zs2, entry_member X k n l' zs' = Ok (y, zs2) /\ same_alarm x y.
Proof.
  intros HI HZ. destruct k; try discriminate. destruct HI as [[= <-]|(a & b & [= -> ->] & [= ->] & O)]; [now apply alarm_same|now apply alarm_reorder].
Qed.
Lemma entry_reorder c n l m zs zs' x zs1 : In c [CEvent; CTodo] -> entry_order c l m -> zeq X zs zs' -> load_entry X c n l zs = Ok (x, zs1) ->
  exists y zs2, load_entry X c n m zs' = Ok (y, zs2) /\ same_entry x y.
Proof.
  intros HC O HZ H.
  assert (HK : forall a b, in_entry a b -> a = b \/ known c a).
  { intros a b [->|(u & v & -> & _)]; [now left|right]. cbn. destruct HC as [<-|[<-|[]]]; cbn; tauto. }
  destruct (instance_reorder X alarm same_alarm alarm_refl alarm_sym alarm_trans (entry_member X) in_entry in_entry_line in_entry_cont
    entry_member_zeq entry_member_same (fun it => or_introl eq_refl) c HK (class_pairwise_all c) (class_quiet c)
    (new_comp X alarm c) n l m zs zs' x zs1 O eq_refl HZ H) as (y & zs2 & E & S & _).
  exists y, zs2. split; [exact E|exact S].
Qed.
Lemma entry_zeq c n l zs x zs1 : load_entry X c n l zs = Ok (x, zs1) -> zeq X zs zs1.
Proof.
  intro H. exact (instance_zeq X alarm same_alarm alarm_refl (entry_member X) in_entry in_entry_line in_entry_cont
    entry_member_zeq entry_member_same (fun it => or_introl eq_refl) c (new_comp X alarm c) n l zs x zs1 eq_refl H).
Qed.
Lemma entry_order_refl c l : entry_order c l l.
Proof. induction l; constructor; [now left|assumption]. Qed.

(** ** Calendars *)
Lemma in_calendar_line l it : in_calendar (ILine l) it -> it = ILine l.
Proof. intros [<-|[(a & b & E & _)|(a & b & E & _)]]; [easy|discriminate..]. Qed.
Lemma in_calendar_cont n l it : in_calendar (ICont n l) it -> exists l', it = ICont n l'.
Proof. intros [<-|[(a & b & [= -> ->] & -> & _)|(a & b & [= -> ->] & -> & _)]]; eauto. Qed.
Lemma calendar_member_zeq k n l zs x zs1 : calendar_member X k n l zs = Ok (x, zs1) -> zeq X zs zs1.
Proof. destruct k; try discriminate; apply entry_zeq. Qed.
Lemma wrong_name c n l zs : In c [CEvent; CTodo] -> n <> NAME c -> load_entry X c n l zs = Err ValueError.
Proof.
  intros HC N. unfold load_entry, load_comp, populate_instance. cbn [c_cls new_comp]. destruct (str_eqb n (NAME c)) eqn:E; [now apply str_eqb_eq in E|easy].
Qed.
Lemma calendar_member_same k n l l' zs zs' x zs1 : in_calendar (ICont n l) (ICont n l') -> zeq X zs zs' -> calendar_member X k n l zs = Ok (x, zs1) ->
  exists y zs2, calendar_member X k n l' zs' = Ok (y, zs2) /\ same_entry x y.
Proof.
  intros HI HZ. destruct k; try discriminate; cbn [calendar_member]; intro H.
  - destruct HI as [[= <-]|[(a & b & [= -> ->] & [= ->] & O)|(a & b & [= -> ->] & [= ->] & O)]].
    + eapply entry_reorder; eauto using entry_order_refl. cbn; tauto.
    + eapply entry_reorder; eauto. cbn; tauto.
    + rewrite wrong_name in H; [discriminate|cbn; tauto|discriminate].
  - destruct HI as [[= <-]|[(a & b & [= -> ->] & [= ->] & O)|(a & b & [= -> ->] & [= ->] & O)]].
    + eapply entry_reorder; eauto using entry_order_refl. cbn; tauto.
    + rewrite wrong_name in H; [discriminate|cbn; tauto|discriminate].
    + eapply entry_reorder; eauto. cbn; tauto.
Qed.
Lemma zones_filter l : forall zs, load_zones X l zs = load_zones X (filter (fun it => str_eqb (item_name it) (py "VTIMEZONE")) l) zs.
Proof.
  induction l as [|[cl|n sub] l IH]; intro zs; cbn [filter item_name load_zones]; [easy| |].
  - rewrite IH. destruct (str_eqb _ _); reflexivity.
  - destruct (str_eqb n (py "VTIMEZONE")) eqn:E; [|apply IH]. cbn [load_zones]. rewrite E. destruct (x_tz_load X sub) as [[id z]|]; cbn [bind]; [apply IH|easy].
Qed.
Lemma zones_order l m zs : calendar_order l m -> load_zones X l zs = load_zones X m zs.
Proof.
  intro O. rewrite (zones_filter l), (zones_filter m). f_equal. eapply reorder_filter; [| | |exact O].
  - now intros a b [->|[(u & v & -> & -> & _)|(u & v & -> & -> & _)]].
  - intros a b (N & _) A B. apply str_eqb_eq in A, B. congruence.
  - now intros a b [->|[(u & v & -> & -> & _)|(u & v & -> & -> & _)]].
Qed.
Lemma calendar_reorder n l m x : calendar_order l m -> load_calendar X n l = Ok x -> exists y, load_calendar X n m = Ok y /\ same_calendar x y.
Proof.
  intros O. unfold load_calendar, populate_calendar. destruct (str_eqb n (py "VCALENDAR")); [|discriminate]. rewrite <- (zones_order l m [] O). intro H.
  unbind H. rewrite Ha. cbn [bind]. unbind2 H. injection H as <-.
  assert (HK : forall u v, in_calendar u v -> u = v \/ known CCalendar u).
  { intros u v [->|[(? & ? & -> & _)|(? & ? & -> & _)]]; [now left|right; cbn; tauto..]. }
  destruct (instance_reorder X entry same_entry entry_refl entry_sym entry_trans (calendar_member X) in_calendar in_calendar_line in_calendar_cont
    calendar_member_zeq calendar_member_same (fun it => or_introl eq_refl) CCalendar HK (class_pairwise_all _) (class_quiet _)
    (new_comp X entry CCalendar) n l m a a _ _ O eq_refl (zeq_refl X a) Ha0) as (y & zs2 & -> & S & _).
  cbn [bind]. exists y. split; [easy|exact S].
Qed.

(** ** In both directions *)
Lemma agree_intro {A} (R : A -> A -> Prop) (f g : res A) :
  (forall x, f = Ok x -> exists y, g = Ok y /\ R x y) -> (forall x, g = Ok x -> exists y, f = Ok y) -> agree R f g.
Proof.
  intros H1 H2. destruct f as [x|], g as [y|]; cbn; auto.
  - destruct (H1 x eq_refl) as (y' & [= ->] & K). exact K.
  - destruct (H1 x eq_refl) as (y' & [=] & K).
  - destruct (H2 y eq_refl) as (x' & [=]).
Qed.
Theorem alarm_both n l m zs : alarm_order l m -> agree same_alarm (rmap fst (load_alarm X n l zs)) (rmap fst (load_alarm X n m zs)).
Proof.
  intro O. apply agree_intro.
  - intros x H. apply bind_Ok in H as ([y z] & H & [= <-]). destruct (alarm_reorder n l m zs zs y z O (zeq_refl X zs) H) as (u & v & -> & S). cbn. eauto.
  - intros x H. apply bind_Ok in H as ([y z] & H & [= <-]). destruct (alarm_reorder n m l zs zs y z (alarm_order_sym _ _ O) (zeq_refl X zs) H) as (u & v & -> & S). cbn. eauto.
Qed.
Theorem entry_both c n l m zs : In c [CEvent; CTodo] -> entry_order c l m -> agree same_entry (rmap fst (load_entry X c n l zs)) (rmap fst (load_entry X c n m zs)).
Proof.
  intros HC O. apply agree_intro.
  - intros x H. apply bind_Ok in H as ([y z] & H & [= <-]). destruct (entry_reorder c n l m zs zs y z HC O (zeq_refl X zs) H) as (u & v & -> & S). cbn. eauto.
  - intros x H. apply bind_Ok in H as ([y z] & H & [= <-]). destruct (entry_reorder c n m l zs zs y z HC (entry_order_sym _ _ _ O) (zeq_refl X zs) H) as (u & v & -> & S). cbn. eauto.
Qed.
Theorem calendar_both n l m : calendar_order l m -> agree same_calendar (load_calendar X n l) (load_calendar X n m).
Proof.
  intro O. apply agree_intro; intros x H; [now apply calendar_reorder with (1 := O)|].
  destruct (calendar_reorder n m l x (calendar_order_sym _ _ O) H) as (y & E & _). eauto.
Qed.
End Order.

(** ** Rearrangements are reorderings *)
Lemma reorder_refl c (R : item -> item -> Prop) l : (forall a, R a a) -> reorder c R l l.
Proof. intro H. induction l; constructor; auto. Qed.
Lemma reorder_front c (R : item -> item -> Prop) a p q : (forall a, R a a) -> (forall b, In b p -> apart c a b) -> reorder c R (a :: p ++ q) (p ++ a :: q).
Proof.
  intros HR. induction p as [|b p IH]; intro H; cbn [app]; [now apply reorder_refl|].
  eapply RO_trans; [apply RO_swap, H; now left|]. constructor; [apply HR|]. apply IH. intros x Hx. apply H. now right.
Qed.
Definition unk (c : cls) (it : item) : bool := negb (knownb c it).
Lemma unk_spec c it : unk c it = true <-> ~ known c it.
Proof. unfold unk. rewrite negb_true_iff. pose proof (knownb_spec c it). destruct (knownb c it); intuition congruence. Qed.
Lemma Unknown_filter c l us : Unknown c l us <-> us = filter (unk c) l.
Proof.
  split.
  - induction 1 as [|it its us K _ IH|it its us K _ IH]; cbn [filter]; [easy| |].
    + destruct (unk c it) eqn:E; [now apply unk_spec in E|exact IH].
    + apply unk_spec in K. rewrite K. now f_equal.
  - intros ->. induction l as [|it l IH]; cbn [filter]; [constructor|]. destruct (unk c it) eqn:E; [apply U_keep; [now apply unk_spec|exact IH]|].
    apply U_known; [|exact IH]. apply knownb_spec. unfold unk in E. now apply negb_false_iff in E.
Qed.
Lemma filter_first {A} (p : A -> bool) l a r : filter p l = a :: r -> exists u v, l = u ++ a :: v /\ (forall b, In b u -> p b = false) /\ p a = true /\ filter p v = r.
Proof.
  induction l as [|x l IH]; cbn [filter]; [discriminate|]. destruct (p x) eqn:E.
  - intros [= -> <-]. exists [], l. repeat split; auto. now intros b [].
  - intro H. destruct (IH H) as (u & v & -> & F & P & K). exists (x :: u), v. repeat split; auto. intros b [<-|I]; auto.
Qed.
Lemma filter_none {A} (p : A -> bool) l : (forall b, In b l -> p b = false) -> filter p l = [].
Proof. induction l as [|x l IH]; intro H; cbn [filter]; [easy|]. rewrite (H x); [|now left]. apply IH. intros b I. apply H. now right. Qed.
(** The items before [a] are not in a group whose first member is [a]. *)
Lemma group_before (g : item -> bool) a u v r : (forall b, In b u -> named (item_name a) b = false) -> g a = true ->
  a :: r = filter g (u ++ a :: v) -> forall b, In b u -> g b = false.
Proof.
  intros HN HA H b I. rewrite filter_app in H. destruct (filter g u) as [|x f] eqn:E.
  - destruct (g b) eqn:G; [|easy]. assert (In b (filter g u)) by (apply filter_In; auto). rewrite E in *. easy.
  - cbn in H. injection H as -> _. assert (K : In x (filter g u)) by (rewrite E; now left). apply filter_In in K as [K _].
    specialize (HN x K). unfold named in HN. exfalso. assert (str_eqb (item_name x) (item_name x) = true) by now apply str_eqb_eq. congruence.
Qed.
Lemma group_tail (g : item -> bool) a u v l : (forall b, In b u -> g a = true -> g b = false) -> filter g (a :: l) = filter g (u ++ a :: v) -> filter g l = filter g (u ++ v).
Proof.
  intros H. rewrite !filter_app. cbn [filter]. destruct (g a) eqn:G; [|auto]. intro E.
  rewrite (filter_none g u) in * by auto. cbn in *. congruence.
Qed.
Theorem arranged_reorder c (R : item -> item -> Prop) : (forall a, R a a) -> forall l m, arranged c l m -> reorder c R l m.
Proof.
  intros HR. induction l as [|a l IH]; intros m (HN & HU & HE).
  - destruct m as [|b m]; [constructor|]. specialize (HN (item_name b)). cbn in HN. unfold named at 1 in HN.
    assert (str_eqb (item_name b) (item_name b) = true) as E by now apply str_eqb_eq. rewrite E in HN. discriminate.
  - assert (NA : named (item_name a) a = true) by now apply str_eqb_eq.
    pose proof (HN (item_name a)) as H. cbn [filter] in H. rewrite NA in H. symmetry in H. apply filter_first in H as (u & v & -> & HB & _ & _).
    assert (HU' : filter (unk c) (a :: l) = filter (unk c) (u ++ a :: v)) by (apply Unknown_filter, HU; now apply Unknown_filter).
    set (e := fun it => (named (py "DTEND") it || named (py "DUE") it)%bool) in *.
    assert (BU : forall b, In b u -> unk c a = true -> unk c b = false).
    { intros b I K. cbn [filter] in HU'. rewrite K in HU'. eapply group_before; eauto. }
    assert (BE : forall b, In b u -> e a = true -> e b = false).
    { intros b I K. cbn [filter] in HE. rewrite K in HE. eapply group_before; eauto. }
    assert (BN : forall n b, In b u -> named n a = true -> named n b = false).
    { intros n b I K. apply str_eqb_eq in K. subst n. now apply HB. }
    apply RO_trans with (m := a :: u ++ v).
    + constructor; [apply HR|]. apply IH. split; [|split].
      * intro n. eapply group_tail; [apply BN|apply HN].
      * intros us K. apply Unknown_filter in K as ->. apply Unknown_filter. eapply group_tail; [apply BU|exact HU'].
      * eapply group_tail; [apply BE|exact HE].
    + apply reorder_front; [exact HR|]. intros b I. split; [|split].
      * intro E. specialize (HB b I). unfold named in HB. rewrite E in HB. assert (str_eqb (item_name b) (item_name b) = true) by now apply str_eqb_eq. congruence.
      * destruct (unk c a) eqn:K; [right; apply knownb_spec; specialize (BU b I eq_refl); unfold unk in BU; now apply negb_false_iff in BU|].
        left. apply knownb_spec. unfold unk in K. now apply negb_false_iff in K.
      * intros [A B]. assert (E1 : forall x, In (item_name x) [py "DTEND"; py "DUE"] -> e x = true).
        { intros x [X1|[X1|[]]]; unfold e, named; rewrite <- X1; cbn; [easy|]. now rewrite orb_true_r || reflexivity. }
        pose proof (BE b I (E1 a A)). rewrite (E1 b B) in *. discriminate.
Qed.
