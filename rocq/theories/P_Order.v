(** * Proofs: the order of what is written *)
From Verif Require Import M_Base M_Line M_Codec M_Cal M_Time M_Span M_Dt M_Tree M_Comp S_Comp S_Multi S_Read S_Order P_Base P_Comp P_Cat P_ReadAll.
From Coq Require Import Lia ZifyBool ZifyNat ZifyN.
Open Scope N_scope.

Section Order.
Variable X : ext.
Variable M : Type.
Variable dump_m : M -> zones -> res (item * zones).
Variable name_of : M -> list N.
Hypothesis dump_named : forall m z it z', dump_m m z = Ok (it, z') -> exists sub, it = ICont (name_of m) sub.

Lemma single_block a name convs (x : comp M) zs its zs' : upper name = name ->
  serialize_single X a name convs x zs = Ok (its, zs') -> block name_of x (One name (a_attr a)) its.
Proof.
  intros U H. unfold serialize_single in H. cbn [block]. destruct (get_attr (a_attr a) x) as [|v|vs]; [now injection H as <- <-| |destruct (single_params _ _); discriminate].
  unbind H. unbind2 H. unbind3 H. injection H as <- <-. eexists. split; [reflexivity|]. exact U.
Qed.
Lemma values_block name convs vs : upper name = name -> forall cur acc merging zs its zs',
  serialize_values X name convs vs cur acc merging zs = Ok (its, zs') ->
  Forall (line_of name) its /\ (length its <= length vs)%nat /\ (vs <> [] -> its <> []).
Proof.
  intros U. induction vs as [|[v p] vs IH]; intros cur acc merging zs its zs' H; cbn [serialize_values] in H.
  { destruct merging; [discriminate|]. injection H as <- <-. split; [constructor|]. split; [cbn; lia|easy]. }
  unbind2 H. unbind3 H. unbind H. destruct (match dict_get MERGE p with Some [t] => _ | _ => _ end).
  - destruct vs as [|w vs]; [cbn [serialize_values] in H; discriminate|]. apply IH in H as (A & B & C). split; [easy|]. split; [cbn [length] in *; lia|].
    intros _. apply C. discriminate.
  - unbind2 H. injection H as <- <-. match goal with K : serialize_values _ _ _ _ _ _ _ _ = _ |- _ => apply IH in K as (A & B & C) end.
    split; [constructor; [|easy]; eexists; split; [reflexivity|exact U]|]. split; [cbn [length]; lia|discriminate].
Qed.
Lemma multi_block a name convs (x : comp M) zs its zs' : upper name = name ->
  serialize_multi X a name convs x zs = Ok (its, zs') -> block name_of x (Many name (a_attr a)) its.
Proof.
  intros U H. unfold serialize_multi in H. cbn [block]. destruct (get_attr (a_attr a) x) as [|v|vs]; try discriminate. exists vs. split; [reflexivity|].
  destruct (dict_get _ _) as [[[|p l']|[|p l']]|].
  - apply values_block in H as (A & B & C); [|exact U]. rewrite map_length in B. split; [easy|]. split; [easy|]. intros NE. apply C. now destruct vs.
  - destruct (Nat.eqb _ _); discriminate.
  - apply values_block in H as (A & B & C); [|exact U]. rewrite map_length in B. split; [easy|]. split; [easy|]. intros NE. apply C. now destruct vs.
  - destruct (Nat.eqb _ _) eqn:E; [|discriminate]. apply Nat.eqb_eq in E. apply values_block in H as (A & B & C); [|exact U]. rewrite combine_length in B.
    split; [easy|]. split; [lia|]. intros NE. apply C. now destruct vs.
  - apply values_block in H as (A & B & C); [|exact U]. rewrite map_length in B. split; [easy|]. split; [easy|]. intros NE. apply C. now destruct vs.
Qed.
Lemma span_block a (x : comp M) zs its zs' : a_attr a = py "timespan" ->
  serialize_span X a x zs = Ok (its, zs') -> block name_of x Span its.
Proof.
  intros A H. unfold serialize_span in H. rewrite A in H. cbn [block]. destruct (get_attr (py "timespan") x) as [|[]|]; try discriminate.
  unbind2 H. unbind2 H. injection H as <- <-. do 3 eexists. split; [reflexivity|]. split; [reflexivity|]. split.
  - destruct (ts_begin t); [|now injection Ha as <- <-]. unbind Ha. unbind3 Ha. injection Ha as <- <-. eexists. split; reflexivity.
  - destruct (end_representation t) as [[]|]; [| |left; now injection Ha0 as <- <-]; right.
    + unbind Ha0. unbind Ha0. match type of Ha0 with match ?o with _ => _ end = _ => destruct o; [|discriminate] end. injection Ha0 as <- <-.
      eexists. split; [reflexivity|]. cbn. auto.
    + unbind Ha0. unbind Ha0. match type of Ha0 with match ?o with _ => _ end = _ => destruct o; [|discriminate] end. unbind3 Ha0. injection Ha0 as <- <-.
      eexists. split; [reflexivity|]. destruct (ts_kind t); cbn; auto.
Qed.
Lemma action_block (x : comp M) zs its zs' : serialize_action x zs = Ok (its, zs') -> block name_of x Action its.
Proof. unfold serialize_action. intro H. unbind H. unbind H. injection H as <- <-. eexists. split; reflexivity. Qed.
Lemma member_block a k ns p (x : comp M) zs its zs' :
  serialize_conv X M dump_m (mk_aconv a ns p (KMember k)) x zs = Ok (its, zs') -> block name_of x (Subs a) its.
Proof.
  unfold serialize_conv. cbn [a_kind a_attr]. intro H. cbn [block].
  assert (D : dump_list M dump_m (get_mem a x) zs = Ok (its, zs')) by (destruct (dict_get _ _) as [[[]|[]]|]; try discriminate; exact H).
  apply dump_list_spec in D. clear H. induction D as [|m it l its (z1 & z2 & E) F IH]; [constructor|]. constructor; [|exact IH]. now apply dump_named in E.
Qed.

(** Which slot a converter is. *)
Definition conv_slot (a : aconv) : option slot :=
  match a_kind a, a_names a with
  | KVal _ false _ _, [n] => if str_eqb (upper n) n then Some (One n (a_attr a)) else None
  | KVal _ true _ _, [n] => if str_eqb (upper n) n then Some (Many n (a_attr a)) else None
  | KSpan _, _ => if str_eqb (a_attr a) (py "timespan") then Some Span else None
  | KMember _, _ => Some (Subs (a_attr a))
  | KAction, _ => Some Action
  | _, _ => None
  end.
Lemma conv_block a s (x : comp M) zs its zs' : conv_slot a = Some s -> serialize_conv X M dump_m a x zs = Ok (its, zs') -> block name_of x s its.
Proof.
  unfold conv_slot. destruct (a_kind a) as [convs [] r st|k|m| |] eqn:K; intros S H.
  - unfold serialize_conv in H. rewrite K in H. destruct (a_names a) as [|n [|n2 l]]; try discriminate. destruct (str_eqb (upper n) n) eqn:U; [|discriminate].
    injection S as <-. apply str_eqb_eq in U. now apply multi_block in H.
  - unfold serialize_conv in H. rewrite K in H. destruct (a_names a) as [|n [|n2 l]]; try discriminate. destruct (str_eqb (upper n) n) eqn:U; [|discriminate].
    injection S as <-. apply str_eqb_eq in U. now apply single_block in H.
  - unfold serialize_conv in H. rewrite K in H. destruct (str_eqb (a_attr a) (py "timespan")) eqn:U; [|discriminate].
    injection S as <-. apply str_eqb_eq in U. now apply span_block in H.
  - injection S as <-. destruct a as [at' ns p k']. cbn [a_kind] in K. subst k'. cbn [a_attr]. now apply member_block in H.
  - unfold serialize_conv in H. rewrite K in H. injection S as <-. now apply action_block in H.
  - discriminate.
Qed.
Lemma convs_order l : forall ss (x : comp M) zs its zs', map conv_slot l = map Some ss -> serialize_convs X M dump_m l x zs = Ok (its, zs') -> in_order name_of x ss its.
Proof.
  induction l as [|a l IH]; intros ss x zs its zs' E H; destruct ss as [|s ss]; try discriminate; cbn [serialize_convs] in H.
  - injection H as <- <-. constructor.
  - cbn [map] in E. injection E as E1 E2. unbind2 H. unbind2 H. injection H as <- <-. constructor; [eapply conv_block; eauto|eapply IH; eauto].
Qed.
Lemma class_slots c : c <> CCalendar -> map conv_slot (converters c) = map Some (slots c).
Proof. destruct c; intro H; try easy; vm_compute; reflexivity. Qed.
Theorem comp_order (x : comp M) zs it zs' : c_cls x <> CCalendar -> dump_comp X M dump_m x zs = Ok (it, zs') ->
  exists its, it = ICont (upper (c_name x)) (its ++ c_extra x) /\ in_order name_of x (slots (c_cls x)) its.
Proof.
  intros NC H. unfold dump_comp in H. unbind2 H. unbind H. injection H as <- <-. exists a. split.
  - unfold Container in Ha0. destruct (upper (c_name x)); [discriminate|]. now injection Ha0 as <-.
  - eapply convs_order; [|exact Ha]. now apply class_slots.
Qed.
End Order.

Section Classes.
Variable X : ext.
Lemma comp_named M (d : M -> zones -> res (item * zones)) (x : comp M) z it z' : dump_comp X M d x z = Ok (it, z') -> exists sub, it = ICont (written_name x) sub.
Proof.
  unfold dump_comp. intro H. unbind2 H. unbind H. injection H as <- <-. unfold Container, written_name in *. destruct (upper (c_name x)); [discriminate|].
  injection Ha0 as <-. eauto.
Qed.
Theorem alarm_order (x : alarm) zs it zs' : c_cls x <> CCalendar -> dump_alarm X x zs = Ok (it, zs') ->
  exists its, it = ICont (written_name x) (its ++ c_extra x) /\ in_order nobody x (slots (c_cls x)) its.
Proof. intros NC H. apply (comp_order X Empty_set dump_none nobody) with zs zs'; [intros []|easy|exact H]. Qed.
Theorem entry_order (x : entry) zs it zs' : c_cls x <> CCalendar -> dump_entry X x zs = Ok (it, zs') ->
  exists its, it = ICont (written_name x) (its ++ c_extra x) /\ in_order written_name x (slots (c_cls x)) its.
Proof.
  intros NC H. apply (comp_order X alarm (dump_alarm X) written_name) with zs zs'; [|easy|exact H]. intros m z it1 z'. apply comp_named.
Qed.
Lemma zones_written zs tzs : dump_zones X zs = Ok tzs -> Forall2 (fun z it => x_tz_dump X (snd z) = Ok it) zs tzs.
Proof.
  revert tzs. induction zs as [|[id z] zs IH]; intros tzs H; cbn [dump_zones] in H; [injection H as <-; constructor|].
  unbind H. unbind H. injection H as <-. constructor; auto.
Qed.
Theorem calendar_order (x : calendar) it : dump_calendar X x = Ok it ->
  exists head (zs : zones) tzs tail, it = ICont (written_name x) (head ++ tzs ++ tail ++ c_extra x) /\
    in_order written_name x calendar_head head /\ Forall2 (fun z it => x_tz_dump X (snd z) = Ok it) zs tzs /\
    in_order written_name x calendar_tail tail.
Proof.
  intro H. unfold dump_calendar in H. unbind2 H. unbind2 H. unbind H.
  assert (DN : forall (m : entry) z it z', dump_entry X m z = Ok (it, z') -> exists sub, it = ICont (written_name m) sub) by (intros m z it0 z'; apply comp_named).
  apply (convs_order X entry (dump_entry X) written_name DN) with (ss := calendar_head) in Ha; [|vm_compute; reflexivity].
  apply (convs_order X entry (dump_entry X) written_name DN) with (ss := calendar_tail) in Ha0; [|vm_compute; reflexivity].
  apply zones_written in Ha1. unfold Container in H. unfold written_name at 1. destruct (upper (c_name x)) as [|c0 n0] eqn:U; [discriminate|].
  injection H as <-. do 4 eexists. split; [reflexivity|]. eauto.
Qed.
End Classes.

(** ** Consequences *)
Lemma order_app {M} (nm : M -> list N) x ss1 : forall ss2 its, in_order nm x (ss1 ++ ss2) its ->
  exists a b, its = a ++ b /\ in_order nm x ss1 a /\ in_order nm x ss2 b.
Proof.
  induction ss1 as [|s ss1 IH]; intros ss2 its H; [exists [], its; repeat split; [constructor|exact H]|].
  cbn [app] in H. inversion H as [|? ? b its' B O]; subst. destruct (IH ss2 its' O) as (a1 & b1 & -> & A1 & B1).
  exists (b ++ a1), b1. split; [now rewrite app_assoc|]. split; [now constructor|exact B1].
Qed.
Definition plain (s : slot) : bool := match s with Subs _ => false | _ => true end.
Lemma plain_block {M} (nm : M -> list N) x s its : plain s = true -> block nm x s its -> Forall is_line its.
Proof.
  destruct s; intros P B; try discriminate; cbn [block] in B.
  - destruct B as (t & a & b & _ & -> & A & B). apply Forall_app. split.
    + destruct (ts_begin t); [destruct A as (l & -> & _); constructor; [now exists l|constructor]|subst; constructor].
    + destruct B as [->|(l & -> & _)]; [constructor|]. constructor; [now exists l|constructor].
  - destruct B as (l & -> & _). constructor; [now exists l|constructor].
  - destruct (get_attr _ _) in B; [subst; apply Forall_nil|destruct B as (l0 & -> & _); apply Forall_cons; [now exists l0|apply Forall_nil]|destruct B as (l0 & -> & _); apply Forall_cons; [now exists l0|apply Forall_nil]].
  - destruct B as (vs & _ & F & _). eapply Forall_impl; [|exact F]. intros it (l & -> & _). now exists l.
Qed.
Lemma plain_order {M} (nm : M -> list N) x ss : forall its, forallb plain ss = true -> in_order nm x ss its -> Forall is_line its.
Proof.
  induction ss as [|s ss IH]; intros its P O; inversion O as [|? ? b its' B O']; subst; [constructor|]. cbn [forallb] in P. apply andb_prop in P as [P1 P2].
  apply Forall_app. split; [eapply plain_block; eauto|now apply IH].
Qed.
Lemma subs_block {M} (nm : M -> list N) x a its : block nm x (Subs a) its -> Forall is_component its /\ (its = [] <-> get_mem a x = []).
Proof.
  cbn [block]. intro F. split; [|split; [intro E; rewrite E in F; now inversion F|intro E; rewrite E in F; now inversion F]].
  induction F as [|m it l its (sub & ->) F IH]; constructor; [|exact IH]. red. eauto.
Qed.
Lemma split_lines a : forall b c d : list item, a ++ b = c ++ d -> Forall is_line a -> Forall is_component b -> Forall is_line c -> Forall is_component d -> a = c /\ b = d.
Proof.
  induction a as [|x a IH]; intros b c d E L1 C1 L2 C2.
  - destruct c as [|y c]; [easy|]. cbn in E. subst b. inversion C1 as [|? ? (n & l & Q) _]; subst. inversion L2 as [|? ? (l2 & Q) _]. discriminate.
  - inversion L1 as [|? ? (l1 & ->) L1']; subst. destruct c as [|y c].
    + cbn in E. subst d. inversion C2 as [|? ? (n & l & Q) _]. discriminate.
    + cbn in E. injection E as <- E. inversion L2; subst. destruct (IH b c d E) as [-> ->]; auto.
Qed.
Lemma first_app a b : Forall is_line a -> (properties_first (a ++ b) <-> properties_first b).
Proof.
  intro L. split.
  - induction L as [|x a (l & ->) L IH]; intro P; [exact P|]. apply IH. destruct P as (c & d & E & F1 & F2). destruct c as [|y c].
    + cbn in E. subst d. inversion F2 as [|? ? (n & l' & Q) _]. discriminate.
    + cbn in E. injection E as <- E. inversion F1; subst. now exists c, d.
  - intros (c & d & -> & F1 & F2). exists (a ++ c), d. split; [now rewrite app_assoc|]. split; [|easy]. apply Forall_app. now split.
Qed.
Lemma first_component a b : Forall is_component a -> a <> [] -> (properties_first (a ++ b) <-> Forall is_component b).
Proof.
  intros C NE. split.
  - intros (c & d & E & F1 & F2). destruct a as [|x a]; [easy|]. inversion C as [|? ? (n & l & ->) C']; subst. destruct c as [|y c].
    + cbn in E. subst d. inversion F2 as [|? ? _ F]; subst. now apply Forall_app in F as [_ F].
    + cbn in E. injection E as <- E. inversion F1 as [|? ? (l' & Q) _]. discriminate.
  - intro F. exists [], (a ++ b). split; [reflexivity|]. split; [constructor|]. apply Forall_app. now split.
Qed.
Lemma lines_components b : Forall is_line b -> Forall is_component b -> b = [].
Proof. destruct b; [reflexivity|]. intros F1 F2. inversion F1 as [|? ? (l & ->) _]. inversion F2 as [|? ? (n & l2 & Q) _]. discriminate. Qed.

(** The attributes of an event that are written after its alarms. *)
Lemma later_none (x : entry) its : in_order written_name x [Many (py "ATTACH") (py "attach"); One (py "CLASSIFICATION") (py "classification"); One (py "TRANSPARENT") (py "transparent");
      One (py "ORGANIZER") (py "organizer"); One (py "GEO") (py "geo"); Many (py "ATTENDEE") (py "attendees"); Many (py "CATEGORIES") (py "categories")] its ->
  (its = [] <-> ~ after_alarms x).
Proof.
  intro O. repeat match goal with H : in_order _ _ (_ :: _) _ |- _ => inversion H; clear H; subst | H : in_order _ _ [] _ |- _ => inversion H; clear H; subst end.
  cbn [block] in *. rewrite app_nil_r. unfold after_alarms. cbn [In].
  assert (ONE : forall n a its, match get_attr a x with ANone => its = [] | _ => exists l : content_line, its = [ILine l] /\ cl_name l = n end -> (its = [] <-> get_attr a x = ANone)).
  { intros n a its. destruct (get_attr a x); [intros ->; easy| |]; intros (l0 & -> & _); split; discriminate. }
  assert (MANY : forall n a its, (exists vs, get_attr a x = AMany vs /\ Forall (line_of n) its /\ (length its <= length vs)%nat /\ (vs <> [] -> its <> [])) -> (its = [] <-> get_attr a x = AMany [])).
  { intros n a its (vs & -> & _ & L & NE). split; [intros ->; destruct vs; [reflexivity|now contradiction NE]|]. intros [= ->]. destruct its; [reflexivity|cbn in L; lia]. }
  repeat match goal with H : exists vs, get_attr _ _ = AMany vs /\ _ |- _ => apply MANY in H | H : match get_attr _ _ with _ => _ end |- _ => apply ONE in H end.
  split.
  - intro E. repeat (apply app_eq_nil in E as [? E]). intros [(a & I & NA)|(a & I & NA)]; repeat (destruct I as [<-|I]; [apply NA; tauto|]); destruct I.
  - intro NA.
    assert (forall a, In a [py "classification"; py "transparent"; py "organizer"; py "geo"] -> get_attr a x = ANone) as A1.
    { intros a I. destruct (get_attr a x) eqn:E; [reflexivity| |]; exfalso; apply NA; left; exists a; (split; [exact I|congruence]). }
    assert (forall a, In a [py "attach"; py "attendees"; py "categories"] -> get_attr a x = AMany []) as A2.
    { intros a I. destruct (get_attr a x) as [|v|[|v l]] eqn:E; [| |reflexivity|]; exfalso; apply NA; right; exists a; (split; [exact I|congruence]). }
    repeat match goal with
    | |- ?b ++ _ = [] => let K := fresh in assert (K : b = []) by (match goal with H : b = [] <-> _ |- _ => apply H; (apply A1 || apply A2); cbn [In]; tauto end); rewrite K; cbn [app]
    end. match goal with H : ?b = [] <-> _ |- ?b = [] => apply H; (apply A1 || apply A2); cbn [In]; tauto end.
Qed.
Theorem event_first X (x : entry) zs n its zs' : c_cls x = CEvent -> dump_entry X x zs = Ok (ICont n its, zs') ->
  (properties_first its <->
   get_mem (py "alarms") x = [] /\ properties_first (c_extra x) \/
   get_mem (py "alarms") x <> [] /\ ~ after_alarms x /\ Forall is_component (c_extra x)).
Proof.
  intros C H. assert (NCC : c_cls x <> CCalendar) by congruence. destruct (entry_order X x zs _ zs' NCC H) as (its0 & E & O). injection E as -> ->. rewrite C in O.
  change (slots CEvent) with ((firstn 10 (slots CEvent) ++ [Subs (py "alarms")]) ++ skipn 11 (slots CEvent)) in O.
  apply order_app in O as (ab & c & -> & O & O3). apply order_app in O as (a & b & -> & O1 & O2).
  apply plain_order in O1; [|reflexivity]. inversion O2 as [|? ? b1 r B O2']; subst. inversion O2'; subst. clear O2 O2'. rewrite app_nil_r.
  apply subs_block in B as [CB NB0]. assert (NB : b1 = [] <-> get_mem (py "alarms") x = []) by exact NB0. clear NB0. assert (LC : Forall is_line c) by (eapply plain_order; [|exact O3]; reflexivity). apply later_none in O3.
  rewrite <- !app_assoc, (first_app a _ O1). destruct b1 as [|y b1].
  - cbn [app]. rewrite (first_app c _ LC). destruct NB as [NB _]. rewrite (NB eq_refl). tauto.
  - rewrite (first_component _ _ CB) by discriminate. assert (NM : get_mem (py "alarms") x <> []) by (intro Q; apply NB in Q; discriminate).
    rewrite Forall_app, <- O3. split; [|intros [[Q _]|(_ & -> & F)]; [easy|split; [constructor|exact F]]]. intros [F1 F2]. right. split; [easy|]. split; [|exact F2].
    now apply lines_components.
Qed.
Theorem calendar_first X (x : calendar) n its : (forall z it, x_tz_dump X z = Ok it -> is_component it) ->
  get_mem (py "events") x <> [] \/ get_mem (py "todos") x <> [] -> dump_calendar X x = Ok (ICont n its) ->
  (properties_first its <-> Forall is_component (c_extra x)).
Proof.
  intros TZ NE H. destruct (calendar_order X x _ H) as (hd & zs & tzs & tl & E & O1 & FZ & O2). injection E as -> ->.
  apply plain_order in O1; [|reflexivity]. rewrite (first_app hd _ O1).
  assert (CZ : Forall is_component tzs) by (clear - TZ FZ; induction FZ; constructor; eauto).
  assert (CT : Forall is_component tl /\ tl <> []).
  { inversion O2 as [|? ? b1 r B1 O2']; subst. inversion O2' as [|? ? b2 r2 B2 O3]; subst. inversion O3; subst. rewrite app_nil_r.
    apply subs_block in B1 as [C1 N1]. apply subs_block in B2 as [C2 N2]. split; [apply Forall_app; now split|]. intro Q. apply app_eq_nil in Q as [-> ->]. tauto. }
  destruct CT as [CT NT]. rewrite app_assoc. apply first_component; [apply Forall_app; now split|]. intro Q. apply app_eq_nil in Q as [_ Q]. easy.
Qed.
Lemma block_one {M} (nm : M -> list N) x n a its : block nm x (One n a) its -> get_attr a x <> ANone -> exists l, its = [ILine l] /\ cl_name l = n.
Proof. cbn [block]. destruct (get_attr a x); [easy|auto|auto]. Qed.
(** VERSION and PRODID come first. *)
Theorem calendar_begins X (x : calendar) n its : dump_calendar X x = Ok (ICont n its) ->
  get_attr (py "version") x <> ANone -> get_attr (py "prodid") x <> ANone ->
  exists v p rest, its = ILine v :: ILine p :: rest /\ cl_name v = py "VERSION" /\ cl_name p = py "PRODID".
Proof.
  intros H V P. destruct (calendar_order X x _ H) as (hd & zs & tzs & tl & E & O1 & _). injection E as -> ->.
  inversion O1 as [|? ? b1 r1 B1 O2]; subst. inversion O2 as [|? ? b2 r2 B2 _]; subst.
  destruct (block_one _ _ (py "VERSION") (py "version") _ B1 V) as (v & -> & EV). destruct (block_one _ _ (py "PRODID") (py "prodid") _ B2 P) as (p & -> & EP).
  exists v, p. eexists. split; [reflexivity|auto].
Qed.

(** ** Names *)
Definition slot_names (s : slot) : list (list N) :=
  match s with Span => [py "DTSTART"; py "DTEND"; py "DUE"; py "DURATION"] | Action => [py "ACTION"] | One n _ | Many n _ => [n] | Subs _ => [] end.
Lemma order_names {M} (nm : M -> list N) x ss : forall its l, in_order nm x ss its -> In (ILine l) its -> In (cl_name l) (flat_map slot_names ss).
Proof.
  induction ss as [|s ss IH]; intros its l O I; inversion O as [|? ? b its' B O']; subst; [destruct I|]. cbn [flat_map]. apply in_app_iff.
  apply in_app_iff in I as [I|I]; [left|right; eapply IH; eauto]. destruct s; cbn [block slot_names] in *.
  - destruct B as (t & a & b0 & _ & -> & A & B). apply in_app_iff in I as [I|I].
    + destruct (ts_begin t); [destruct A as (l0 & -> & E)|subst; destruct I]. destruct I as [[= ->]|[]]. left. now symmetry.
    + destruct B as [->|(l0 & -> & E)]; [destruct I|]. destruct I as [[= ->]|[]]. now right.
  - destruct B as (l0 & -> & E). destruct I as [[= ->]|[]]. left. now symmetry.
  - destruct (get_attr _ _) in B; [subst; destruct I|destruct B as (k0 & -> & E); destruct I as [[= ->]|[]]; left; now symmetry|destruct B as (k0 & -> & E); destruct I as [[= ->]|[]]; left; now symmetry].
  - destruct B as (vs & _ & F & _). rewrite Forall_forall in F. destruct (F _ I) as (l0 & [= <-] & E). left. now symmetry.
  - exfalso. apply in_split in I as (l1 & l2 & ->). apply Forall2_app_inv_r in B as (m1 & m2 & _ & F & _).
    inversion F as [|? ? ? ? (sub & Q)]. discriminate.
Qed.
Lemma order_one {M} (nm : M -> list N) x ss n a : forall its, In (One n a) ss -> in_order nm x ss its -> get_attr a x <> ANone ->
  exists l, In (ILine l) its /\ cl_name l = n.
Proof.
  induction ss as [|s ss IH]; intros its I O NA; inversion O as [|? ? b its' B O']; subst; [destruct I|]. destruct I as [->|I].
  - cbn [block] in B. destruct (get_attr a x); [easy| |]; destruct B as (l0 & -> & E); exists l0; (split; [now left|exact E]).
  - destruct (IH its' I O' NA) as (l & J & E). exists l. split; [apply in_app_iff; now right|exact E].
Qed.
Lemma renamed_rows c a rfc w : In (c, a, rfc, w) RENAMED ->
  (c, a, rfc, w) = (CEvent, py "classification", py "CLASS", py "CLASSIFICATION") \/
  (c, a, rfc, w) = (CEvent, py "transparent", py "TRANSP", py "TRANSPARENT") \/
  (c, a, rfc, w) = (CTodo, py "percent", py "PERCENT-COMPLETE", py "PERCENT") \/
  (c, a, rfc, w) = (CCalendar, py "scale", py "CALSCALE", py "SCALE").
Proof. unfold RENAMED. cbn [In]. intuition congruence. Qed.
Definition nth_slot (k : nat) (c : cls) : slot := nth k (slots c) Span.
Lemma renamed_cases c a rfc w : In (c, a, rfc, w) RENAMED -> c <> CCalendar ->
  In (One w a) (slots c) /\ ~ In rfc (flat_map slot_names (slots c)).
Proof.
  intros I NC. apply renamed_rows in I.
  destruct I as [E|[E|[E|E]]]; injection E as -> -> -> ->; try congruence; (split; [|intro J; apply existsb_str in J; vm_compute in J; discriminate]).
  - change (One (py "CLASSIFICATION") (py "classification")) with (nth_slot 12 CEvent). apply nth_In. vm_compute. lia.
  - change (One (py "TRANSPARENT") (py "transparent")) with (nth_slot 13 CEvent). apply nth_In. vm_compute. lia.
  - change (One (py "PERCENT") (py "percent")) with (nth_slot 12 CTodo). apply nth_In. vm_compute. lia.
Qed.
Theorem renamed_entry X c a rfc w (x : entry) zs n its zs' : In (c, a, rfc, w) RENAMED -> c <> CCalendar -> c_cls x = c ->
  get_attr a x <> ANone -> dump_entry X x zs = Ok (ICont n its, zs') ->
  (exists l, In (ILine l) its /\ cl_name l = w) /\ (forall l, In (ILine l) its -> cl_name l = rfc -> In (ILine l) (c_extra x)).
Proof.
  intros I NC C NA H. destruct (renamed_cases c a rfc w I NC) as [R1 R2]. assert (NCC : c_cls x <> CCalendar) by congruence. destruct (entry_order X x zs _ zs' NCC H) as (its0 & E & O).
  injection E as -> ->. rewrite C in O. split.
  - destruct (order_one _ _ _ _ _ _ R1 O NA) as (l & J & E). exists l. split; [apply in_app_iff; now left|exact E].
  - intros l J E. apply in_app_iff in J as [J|J]; [|exact J]. exfalso. apply R2. rewrite <- E. eapply order_names; eauto.
Qed.
Theorem renamed_read X c a rfc w n its zs x zs' : In (c, a, rfc, w) RENAMED -> c <> CCalendar ->
  load_entry X c n its zs = Ok (x, zs') -> (forall l, In (ILine l) its -> cl_name l <> w) ->
  get_attr a x = ANone /\ forall l, In (ILine l) its -> cl_name l = rfc -> In (ILine l) (c_extra x).
Proof.
  intros I NC H NW. apply renamed_rows in I.
  assert (CE : c = CEvent \/ c = CTodo) by (destruct I as [E|[E|[E|E]]]; injection E as -> _ _ _; tauto).
  destruct (proj1 (entry_exact X c its zs n CE) x zs' H) as [_ R]. split.
  - assert (F : exists f, In f (singles c) /\ g_attr f = a /\ g_name f = w /\ initial X a = ANone).
    { destruct I as [E|[E|[E|E]]]; injection E as -> -> -> ->; try congruence.
      - exists (nth 9 (singles CEvent) (mk_single [] [] [] Plain)). split; [apply nth_In; vm_compute; lia|]. repeat split.
      - exists (nth 10 (singles CEvent) (mk_single [] [] [] Plain)). split; [apply nth_In; vm_compute; lia|]. repeat split.
      - exists (nth 9 (singles CTodo) (mk_single [] [] [] Plain)). split; [apply nth_In; vm_compute; lia|]. repeat split. }
    destruct F as (f & If & A & W & IN). pose proof (rd_one _ _ _ _ _ _ R f If) as (ls & [EL _] & B). rewrite A, W in *.
    assert (ls = []) as ->.
    { destruct ls as [|l ls]; [reflexivity|]. exfalso. assert (J : In l (lines w its)) by (rewrite <- EL; now left).
      unfold lines in J. apply in_flat_map in J as (it & J1 & J2). destruct it as [l1|m sub]; [|destruct J2]. destruct (str_eqb (cl_name l1) w) eqn:Q; [|destruct J2].
      destruct J2 as [->|[]]. apply str_eqb_eq in Q. now apply (NW l). }
    destruct B as (_ & B & _). unfold get_attr. rewrite B. exact IN.
  - intros l J E. assert (NK : ~ known c (ILine l)).
    { intros [K _]. rewrite E in K. apply existsb_str in K.
      destruct I as [E0|[E0|[E0|E0]]]; injection E0 as -> -> -> ->; try congruence; vm_compute in K; discriminate. }
    pose proof (rd_extra _ _ _ _ _ _ R) as U. clear - U J NK. induction U as [|it its us K U IH|it its us K U IH]; [destruct J| |].
    + destruct J as [->|J]; [easy|auto].
    + destruct J as [->|J]; [now left|right; auto].
Qed.
Theorem renamed_calendar X (x : calendar) n its : (forall z it, x_tz_dump X z = Ok it -> is_component it) ->
  get_attr (py "scale") x <> ANone -> dump_calendar X x = Ok (ICont n its) ->
  (exists l, In (ILine l) its /\ cl_name l = py "SCALE") /\ (forall l, In (ILine l) its -> cl_name l = py "CALSCALE" -> In (ILine l) (c_extra x)).
Proof.
  intros TZ NA H. destruct (calendar_order X x _ H) as (hd & zs & tzs & tl & E & O1 & FZ & O2). injection E as -> ->.
  assert (CZ : Forall is_component tzs) by (clear - TZ FZ; induction FZ; constructor; eauto). split.
  - destruct (order_one written_name x calendar_head (py "SCALE") (py "scale") hd) as (l & J & E); [unfold calendar_head; cbn [In]; tauto|exact O1|exact NA|].
    exists l. split; [apply in_app_iff; now left|exact E].
  - intros l J E. apply in_app_iff in J as [J|J].
    { exfalso. pose proof (order_names _ _ _ _ _ O1 J) as K. rewrite E in K. apply existsb_str in K. vm_compute in K. discriminate. }
    apply in_app_iff in J as [J|J]; [rewrite Forall_forall in CZ; destruct (CZ _ J) as (m & sub & Q); discriminate|].
    apply in_app_iff in J as [J|J]; [|exact J]. pose proof (order_names _ _ _ _ _ O2 J) as K. destruct K.
Qed.
Theorem renamed_calendar_read X n its x : load_calendar X n its = Ok x -> (forall l, In (ILine l) its -> cl_name l <> py "SCALE") ->
  get_attr (py "scale") x = ANone /\ forall l, In (ILine l) its -> cl_name l = py "CALSCALE" -> In (ILine l) (c_extra x).
Proof.
  intros H NW. destruct (proj1 (calendar_exact X its n) x H) as [_ (zs & _ & R)]. split.
  - assert (I2 : In (nth 2 (singles CCalendar) (mk_single [] [] [] Plain)) (singles CCalendar)) by (apply nth_In; vm_compute; lia).
    pose proof (rd_one _ _ _ _ _ _ R _ I2) as (ls & [EL _] & B).
    assert (ls = []) as ->.
    { destruct ls as [|l ls]; [reflexivity|]. exfalso. assert (J : In l (lines (py "SCALE") its)) by (change (In l (lines (g_name (nth 2 (singles CCalendar) (mk_single [] [] [] Plain))) its)); rewrite <- EL; now left).
      unfold lines in J. apply in_flat_map in J as (it & J1 & J2). destruct it as [l1|m sub]; [|destruct J2]. destruct (str_eqb (cl_name l1) (py "SCALE")) eqn:Q; [|destruct J2].
      destruct J2 as [->|[]]. apply str_eqb_eq in Q. now apply (NW l). }
    destruct B as (_ & B & _). change (dict_get (py "scale") (c_attrs x) = Some ANone) in B. unfold get_attr. now rewrite B.
  - intros l J E. assert (NK : ~ known CCalendar (ILine l)).
    { intros [K _]. rewrite E in K. apply existsb_str in K. vm_compute in K. discriminate. }
    pose proof (rd_extra _ _ _ _ _ _ R) as U. clear - U J NK. induction U as [|it its us K U IH|it its us K U IH]; [destruct J| |].
    + destruct J as [->|J]; [easy|auto].
    + destruct J as [->|J]; [now left|right; auto].
Qed.
