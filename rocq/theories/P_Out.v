(** * Proofs: what written components consist of *)
From Verif Require Import M_Base M_Text M_Line M_Codec M_Cal M_Time M_Span M_Dt M_Tree M_Comp.
From Verif Require Import S_Text S_Codec S_Line S_Fold S_Tree S_Comp S_Store P_Base P_Text P_Codec P_Dt P_Comp P_Attr.
From Coq Require Import Lia ZifyBool ZifyNat ZifyN.
Open Scope N_scope.

(** ** Texts without line breaks *)
Lemma nb_app a b : no_break a -> no_break b -> no_break (a ++ b).
Proof. intros HA HB c Hc H. apply in_app_iff in H as [H|H]; [now apply (HA c)|now apply (HB c)]. Qed.
Lemma nb_digits s : forallb is_digit s = true -> no_break s.
Proof.
  intros H c Hc Hs. rewrite forallb_forall in H. apply H, is_digit_spec in Hs. cbn in Hc. destruct Hc as [<-|[<-|[]]]; lia.
Qed.
Lemma nb_dec n : no_break (dec n). Proof. apply nb_digits, dec_digits. Qed.
Lemma nb_pad k n : no_break (pad k n). Proof. apply nb_digits, pad_digits. Qed.
Lemma nb_nil : no_break []. Proof. easy. Qed.
Lemma nb_cons c s : c <> 13 -> c <> 10 -> no_break s -> no_break (c :: s).
Proof. intros H1 H2 H d Hd [<-|Hs]; [cbn in Hd; intuition|now apply (H d)]. Qed.
Ltac nb := repeat first [assumption|simple apply nb_dec|simple apply nb_pad|simple apply nb_app|simple apply nb_nil|(simple apply nb_cons; [discriminate|discriminate|])].
Lemma nb_fmt_date f : no_break (fmt_date f). Proof. unfold fmt_date, z2. nb. Qed.
Lemma nb_fmt_datetime w : no_break (fmt_datetime w).
Proof.
  unfold fmt_datetime. apply nb_app; [apply nb_fmt_date|]. change (py "T") with [84]. unfold fmt_time, z2. nb.
Qed.
Lemma nb_duration t : no_break (duration_serialize t).
Proof.
  unfold duration_serialize, zdec. cbv zeta.
  match goal with |- context [match ?r with [] => _ | _ => _ end] => assert (H : no_break r); [|destruct r] end.
  - change (py "D") with [68]. change (py "T") with [84]. change (py "H") with [72]. change (py "M") with [77]. change (py "S") with [83].
    repeat match goal with |- context [if ?b then _ else _] => destruct b end; nb.
  - change (py "T0S") with [84; 48; 83]. change (py "P") with [80]. change (py "-P") with [45; 80]. destruct (0 <=? t)%Z; nb.
  - change (py "P") with [80]. change (py "-P") with [45; 80]. destruct (0 <=? t)%Z; nb.
Qed.
Lemma nb_int n : no_break (int_serialize n).
Proof. unfold int_serialize. destruct (n <? 0)%Z; [apply nb_cons; try discriminate|]; nb. Qed.
Lemma nb_text s : no_break (text_serialize s).
Proof. destruct (text_serialize_no_break s). intros c [<-|[<-|[]]]; assumption. Qed.
Lemma nb_binary b : Forall byte b -> no_break (binary_serialize b).
Proof.
  intros H c Hc I. apply binary_base64, base64_shape in H as (body & p & E & _ & HB & _). rewrite E in I.
  apply in_app_iff in I as [I|I]; [apply HB in I; cbn in Hc; destruct Hc as [<-|[<-|[]]]; vm_compute in I; intuition discriminate|].
  apply repeat_spec in I. cbn in Hc. subst c. intuition discriminate.
Qed.
Lemma nb_join l : Forall no_break l -> no_break (join_value_list l).
Proof.
  unfold join_value_list. induction 1 as [|s l H F IH]; [apply nb_nil|]. destruct l as [|s2 l]; [exact H|].
  change (join [c_comma] (s :: s2 :: l)) with (s ++ [c_comma] ++ join [c_comma] (s2 :: l)). apply nb_app; [exact H|]. apply nb_app; [|exact IH]. nb.
Qed.

(** ** The lines that are written *)
Section Out.
Variable X : ext.
(** Which zones may be written under which identifiers; what is wanted of parameters, of
    the parameters of persons, of texts, and of items. *)
Variable U : list N -> tz -> tz -> Prop.
Variable PP : zones -> xp -> Prop.
Variable GP : xp -> Prop.
Variable PV : list N -> Prop.
Variable OK : zones -> item -> Prop.

Definition step (zs zs' : zones) : Prop :=
  (forall id z, dict_get id zs = Some z -> dict_get id zs' = Some z) /\
  (forall id z', dict_get id zs' = Some z' -> dict_get id zs = Some z' \/ exists z, U id z z') /\
  (NoDup (keys zs) -> NoDup (keys zs')).
Lemma step_refl zs : step zs zs. Proof. split; auto. Qed.
Lemma step_trans a b c : step a b -> step b c -> step a c.
Proof.
  intros (A1 & A2 & A3) (B1 & B2 & B3). split; [auto|]. split; [|auto]. intros id z' H. apply B2 in H as [H|H]; [|auto]. auto.
Qed.

Definition LINE_NAMES : list (list N) :=
  filter (fun n => negb (existsb (str_eqb n) [py "VALARM"; py "VEVENT"; py "VTODO"; py "VTIMEZONE"]))
    (flat_map (fun c => flat_map a_names (class_fields c)) [CEvent; CTodo; CCalendar; CAudio; CDisplay; CEmail; CNone; CCustom]).
Record wanted : Prop := mk_wanted {
  PP_nil : forall zs, PP zs [];
  PP_mono : forall zs zs' p, step zs zs' -> PP zs p -> PP zs' p;
  PP_value : forall zs p t, t <> [] -> ~ In 13 t -> PP zs p -> PP zs (dict_set VALUE (raw [t]) p);
  PP_merge : forall zs p, PP zs p -> PP zs (dict_del MERGE p);
  PP_tzid : forall zs p id z z', U id z z' -> dict_get id zs <> None -> PP zs p -> PP zs (dict_set (py "TZID") (raw [id]) p);
  PP_person : forall zs p q, PP zs p -> GP q -> PP zs (dict_update p q);
  PV_plain : forall s, no_break s -> PV s;
  PV_join : forall l, Forall PV l -> PV (join_value_list l);
  PV_geo : forall a b, PV (x_ffmt X a) -> PV (x_ffmt X b) -> PV (x_ffmt X a ++ py ";" ++ x_ffmt X b);
  OK_line : forall zs n p v, In n LINE_NAMES -> PP zs p -> PV v -> OK zs (ILine (mk_line n p v));
  OK_mono : forall zs zs' it, step zs zs' -> OK zs it -> OK zs' it
}.
Hypothesis W : wanted.

Definition good_dt (d : datetime) : Prop := forall id z z', dt_uses X d id z z' -> U id z z'.
Definition good_val (v : val) : Prop :=
  match v with
  | VUrl u => PV (x_geturl X u)
  | VPerson _ e p => PV (email_str X e) /\ GP p
  | VGeo a b => PV (x_ffmt X a) /\ PV (x_ffmt X b)
  | VBytes b => PV (binary_serialize b)
  | VDt d => good_dt d
  | VSpan t => (forall b, ts_begin t = Some b -> good_dt b) /\ (forall e, ts_end t = Some e -> good_dt e)
  | _ => True
  end.
Definition good_attr (a : attr) : Prop :=
  match a with ANone => True | AOne v => good_val v | AMany l => Forall good_val l end.
Definition good_par (p : xpar) : Prop :=
  match p with XOne p => forall zs, PP zs p | XMany l => Forall (fun p => forall zs, PP zs p) l end.
Record good_comp {M} (GM : M -> Prop) (x : comp M) : Prop := mk_good {
  g_name : c_name x = NAME (c_cls x);
  g_action : forall s, action x = Ok s -> PV s;
  g_attrs : forall k a, dict_get k (c_attrs x) = Some a -> good_attr a;
  g_mem : forall k l m, dict_get k (c_mem x) = Some l -> In m l -> GM m;
  g_params : forall k p, dict_get k (c_params x) = Some p -> good_par p;
  g_extra : Forall (fun it => forall zs, OK zs it) (c_extra x)
}.

Lemma dt_out d p zs s p' zs' : good_dt d -> PP zs p -> dt_serialize X d p zs = Ok (s, p', zs') -> no_break s /\ PP zs' p' /\ step zs zs'.
Proof.
  intros HG HP H. unfold dt_serialize in H. unbind3 H. unfold serialize_dt in Ha. change (M_Comp.D X) with (x_zdb X) in *.
  destruct (dtz d) as [z|] eqn:HZ.
  - destruct (z_is_utc (x_zdb X) z) eqn:EU.
    + injection Ha as <- <- <-. cbn [dict_get] in H. injection H as <- <- <-. split; [|split; [exact HP|apply step_refl]].
      apply nb_app; [apply nb_fmt_datetime|unfold py; cbn; nb].
    + unbind2 Ha. injection Ha as <- <- <-. unfold write_zone in Ha0. unbind Ha0. destruct a as [[id t]|].
      * injection Ha0 as <- <-. change (dict_get (py "TZID") [(py "TZID", [id])]) with (Some [id]) in H. cbv iota in H. injection H as <- <- <-. split; [apply nb_fmt_datetime|].
        assert (HU : U id z t) by (apply HG; split; [exact HZ|split; [exact EU|exact Ha]]).
        assert (HS : step zs (match dict_get id zs with Some _ => zs | None => dict_set id t zs end)).
        { destruct (dict_get id zs) eqn:EG; [apply step_refl|]. split; [|split; [|apply keys_set]].
          - intros i y Hi. destruct (list_eq_dec N.eq_dec i id) as [->|NE]; [congruence|]. rewrite dict_get_set_other by congruence. exact Hi.
          - intros i y Hi. destruct (list_eq_dec N.eq_dec i id) as [->|NE]; [|rewrite dict_get_set_other in Hi by congruence; now left].
            rewrite dict_get_set_same in Hi. injection Hi as <-. right. eauto. }
        split; [|exact HS]. apply (PP_tzid W _ _ id z t HU).
        -- destruct (dict_get id zs) eqn:EG; [congruence|]. now rewrite dict_get_set_same.
        -- now apply (PP_mono W _ _ _ HS).
      * injection Ha0 as <- <-. cbn [dict_get] in H. injection H as <- <- <-. split; [apply nb_fmt_datetime|]. split; [exact HP|apply step_refl].
  - injection Ha as <- <- <-. cbn [dict_get] in H. injection H as <- <- <-. split; [apply nb_fmt_datetime|]. split; [exact HP|apply step_refl].
Qed.
Lemma val_out c v p zs s p' zs' : good_val v -> PP zs p -> vserialize X c v p zs = Ok (s, p', zs') -> PV s /\ PP zs' p' /\ step zs zs'.
Proof.
  intros HG HP H.
  assert (DT : forall d, v = VDt d -> dt_serialize X d p zs = Ok (s, p', zs') -> PV s /\ PP zs' p' /\ step zs zs').
  { intros d -> HD. destruct (dt_out d p zs s p' zs' HG HP HD) as (H1 & H2). split; [now apply (PV_plain W)|exact H2]. }
  destruct c, v; cbn [vserialize] in H; try discriminate; try (apply (DT _ eq_refl H)); injection H as <- <- <-.
  all: (split; [|split; [try exact HP|apply step_refl]]).
  all: try exact HG.
  all: try (apply (PV_plain W); first [apply nb_text|apply nb_duration|apply nb_int|destruct b; unfold py; cbn; nb]).
  all: cbn [good_val] in HG; try exact HG; try apply HG.
  all: try (apply (PP_person W); [exact HP|apply HG]).
  apply (PV_geo W); apply HG.
Qed.
Lemma find_out l : forall b v p zs c p', PP zs p -> find_conv b l v p = Ok (c, p') -> PP zs p'.
Proof.
  induction l as [|c0 l IH]; intros b v p zs c p' HP H; cbn [find_conv] in H; [discriminate|].
  destruct (isinst c0 v); [|eauto]. injection H as _ <-. destruct b; [exact HP|]. apply (PP_value W); [|destruct c0; vm_compute; intuition discriminate|exact HP].
  destruct c0; discriminate.
Qed.
Lemma single_par_out {M} key (x : comp M) p zs : (forall k q, dict_get k (c_params x) = Some q -> good_par q) -> single_params key x = Ok p -> PP zs p.
Proof.
  intros HG H. unfold single_params in H. destruct (dict_get key (c_params x)) as [[q|[|]]|] eqn:E; try discriminate; injection H as <-.
  - now apply (HG key (XOne q)).
  - apply (PP_nil W).
  - apply (PP_nil W).
Qed.
Definition out (zs zs' : zones) (its : list item) : Prop := step zs zs' /\ Forall (OK zs') its.
Lemma out_nil zs : out zs zs []. Proof. split; [apply step_refl|constructor]. Qed.
Lemma out_app a b c i1 i2 : out a b i1 -> out b c i2 -> out a c (i1 ++ i2).
Proof.
  intros [A1 A2] [B1 B2]. split; [eapply step_trans; eauto|]. apply Forall_app. split; [|exact B2].
  eapply Forall_impl; [|exact A2]. intros it. now apply (OK_mono W).
Qed.
Lemma values_out name convs : In name LINE_NAMES -> upper name = name -> forall vs cur acc mg zs its zs',
  Forall (fun vp => good_val (fst vp) /\ forall zs, PP zs (snd vp)) vs -> Forall PV acc ->
  serialize_values X name convs vs cur acc mg zs = Ok (its, zs') -> out zs zs' its.
Proof.
  intros HN HU. induction vs as [|[v p] vs IH]; intros cur acc mg zs its zs' HG HA H; cbn [serialize_values] in H.
  - destruct mg; [discriminate|]. injection H as <- <-. apply out_nil.
  - inversion HG as [|? ? [G1 G2] G3]; subst. cbn [fst snd] in *. unbind2 H. unbind3 H. unbind H.
    pose proof (find_out _ _ _ _ zs _ _ (PP_merge W zs p (G2 zs)) Ha) as P1. destruct (val_out _ _ _ _ _ _ _ G1 P1 Ha0) as (V1 & V2 & V3).
    destruct (match dict_get MERGE p with Some [t] => _ | _ => _ end).
    + apply IH in H; [|exact G3|apply Forall_app; split; [exact HA|now constructor]]. destruct H as [H1 H2]. split; [eapply step_trans; eauto|exact H2].
    + unbind2 H. injection H as <- <-. apply IH in Ha2; [|exact G3|constructor].
      apply (out_app zs c _ [_]); [|exact Ha2]. split; [exact V3|]. constructor; [|constructor]. unfold ContentLine. rewrite HU.
      apply (OK_line W); auto. apply (PV_join W). apply Forall_app. split; [exact HA|now constructor].
Qed.
Lemma combine_good vs (ps : list xp) : Forall good_val vs -> Forall (fun p => forall zs, PP zs p) ps ->
  Forall (fun vp => good_val (fst vp) /\ forall zs, PP zs (snd vp)) (combine vs ps).
Proof.
  intros HV. revert ps. induction HV as [|v vs H HV IH]; intros ps HP; cbn; [constructor|]. destruct HP as [|p ps H1 H2]; constructor; auto.
Qed.
Lemma span_out {M} a (x : comp M) zs its zs' : (forall k a, dict_get k (c_attrs x) = Some a -> good_attr a) ->
  (forall k q, dict_get k (c_params x) = Some q -> good_par q) -> serialize_span X a x zs = Ok (its, zs') -> out zs zs' its.
Proof.
  intros HG HP H. unfold serialize_span, get_attr in H. destruct (dict_get (a_attr a) (c_attrs x)) as [v|] eqn:EA; [|discriminate].
  apply HG in EA. destruct v as [|[]|]; try discriminate. destruct EA as [GB GE]. unbind2 H. unbind2 H. injection H as <- <-.
  assert (DATE : forall d p zs s p' zs', good_dt d -> PP zs p -> span_date X (is_all_day t) d p zs = Ok (s, p', zs') -> no_break s /\ PP zs' p' /\ step zs zs').
  { intros d p z s p' z' HD HPp E. unfold span_date in E. destruct (is_all_day t).
    - injection E as <- <- <-. split; [apply nb_fmt_date|]. split; [|apply step_refl]. apply (PP_value W); auto; [discriminate|]. vm_compute. intuition discriminate.
    - eapply dt_out; eauto. }
  assert (LN : forall n, In n [py "DTSTART"; py "DTEND"; py "DUE"; py "DURATION"] -> In n LINE_NAMES).
  { intros n. apply sub_names_spec. vm_compute. reflexivity. }
  eapply out_app.
  - destruct (ts_begin t) as [bb|]; [|injection Ha as <- <-; apply out_nil]. unbind Ha. unbind3 Ha. injection Ha as <- <-.
    destruct (DATE _ _ _ _ _ _ (GB _ eq_refl) (single_par_out _ _ _ zs HP Ha1) Ha2) as (D1 & D2 & D3). split; [exact D3|]. constructor; [|constructor].
    apply (OK_line W); [apply LN; cbn; tauto|exact D2|now apply (PV_plain W)].
  - unfold end_representation in Ha0. destruct (ts_dur t) as [du|].
    + unbind Ha0. unbind Ha0. match type of Ha0 with match ?o with _ => _ end = _ => destruct o; [|discriminate] end. injection Ha0 as <- <-. split; [apply step_refl|]. constructor; [|constructor].
      apply (OK_line W); [apply LN; cbn; tauto| |apply (PV_plain W), nb_duration]. eapply single_par_out; eauto.
    + destruct (ts_end t) as [e|] eqn:ET; [|injection Ha0 as <- <-; apply out_nil]. unbind Ha0. unbind Ha0.
      unfold eff_end in Ha2. rewrite ET in Ha2. injection Ha2 as <-. unbind3 Ha0. injection Ha0 as <- <-.
      destruct (DATE _ _ _ _ _ _ (GE _ eq_refl) (single_par_out _ _ _ b HP Ha1) Ha2) as (D1 & D2 & D3). split; [exact D3|]. constructor; [|constructor].
      apply (OK_line W); [apply LN; destruct (ts_kind t); cbn; tauto|exact D2|now apply (PV_plain W)].
Qed.
Lemma conv_out {M} (GM : M -> Prop) dump_m (HM : forall m zs it zs', GM m -> dump_m m zs = Ok (it, zs') -> out zs zs' [it])
  a (x : comp M) zs its zs' : good_comp GM x -> Forall (fun n => In n LINE_NAMES /\ upper n = n) (match a_kind a with KVal _ _ _ _ => a_names a | _ => [] end) ->
  (match a_kind a with KVal _ _ _ _ => a_names a <> [] | _ => True end) ->
  serialize_conv X M dump_m a x zs = Ok (its, zs') -> out zs zs' its.
Proof.
  intros HG HN HE H. unfold serialize_conv in H. destruct (a_kind a) as [convs multi d r|s|k| |].
  - destruct (a_names a) as [|n ns]; [congruence|]. inversion HN as [|? ? [N1 N2] _]; subst. destruct multi.
    + unfold serialize_multi, get_attr in H. destruct (dict_get (a_attr a) (c_attrs x)) as [v|] eqn:EA; [|discriminate].
      apply (g_attrs _ _ HG) in EA. destruct v as [| |vs]; try discriminate. cbn [good_attr] in EA.
      assert (E0 : serialize_values X n convs (map (fun v => (v, [])) vs) None [] false zs = Ok (its, zs') -> out zs zs' its).
      { apply (values_out n convs N1 N2); [|constructor]. apply Forall_map. eapply Forall_impl; [|exact EA]. intros v Hv. split; [exact Hv|]. intros z. apply (PP_nil W). }
      destruct (dict_get (a_key a) (c_params x)) as [[[|]|[|p ps]]|] eqn:EP; auto.
      * match type of H with (if ?b then _ else _) = _ => destruct b end; discriminate.
      * match type of H with (if ?b then _ else _) = _ => destruct b end; [|discriminate]. apply (values_out n convs N1 N2) in H; auto.
        apply combine_good; [exact EA|]. now apply (g_params _ _ HG) in EP.
    + unfold serialize_single, get_attr in H. destruct (dict_get (a_attr a) (c_attrs x)) as [v|] eqn:EA.
      2: { injection H as <- <-. apply out_nil. }
      apply (g_attrs _ _ HG) in EA. destruct v as [|v|]; [|  |destruct (single_params _ _); discriminate]. { injection H as <- <-. apply out_nil. }
      unbind H. unbind2 H. unbind3 H. injection H as <- <-. pose proof (single_par_out _ _ _ zs (g_params _ _ HG) Ha) as P1.
      pose proof (find_out _ _ _ _ zs _ _ P1 Ha0) as P2. destruct (val_out _ _ _ _ _ _ _ EA P2 Ha1) as (V1 & V2 & V3).
      split; [exact V3|]. constructor; [|constructor]. unfold ContentLine. rewrite N2. now apply (OK_line W).
  - apply (span_out a x); auto; apply HG.
  - assert (E0 : dump_list M dump_m (get_mem (a_attr a) x) zs = Ok (its, zs') -> out zs zs' its).
    { assert (HL : Forall GM (get_mem (a_attr a) x)).
      { apply Forall_forall. intros m Hm. unfold get_mem in Hm. destruct (dict_get (a_attr a) (c_mem x)) as [l|] eqn:EL; [|destruct Hm]. now apply (g_mem _ _ HG _ _ m) in EL. }
      clear H. revert zs its zs' HL. clear -W HM. generalize (get_mem (a_attr a) x) as l. induction l as [|m l IH]; intros zs its zs' HL H; cbn [dump_list] in H.
      - injection H as <- <-. apply out_nil.
      - inversion HL; subst. unbind2 H. unbind2 H. injection H as <- <-. apply (out_app zs b _ [_]); [now apply HM in Ha|]. now apply IH in Ha0. }
    destruct (dict_get (a_key a) (c_params x)) as [[[|]|[|]]|]; try discriminate; auto.
  - unfold serialize_action in H. unbind H. unbind H. injection H as <- <-. split; [apply step_refl|]. constructor; [|constructor].
    apply (OK_line W); [apply (sub_names_spec [py "ACTION"]); [reflexivity|now left]| |now apply (g_action _ _ HG)].
    eapply single_par_out; [|exact Ha0]. apply HG.
  - injection H as <- <-. apply out_nil.
Qed.
Definition named (a : aconv) : Prop := match a_kind a with KVal _ _ _ _ => a_names a <> [] /\ Forall (fun n => In n LINE_NAMES /\ upper n = n) (a_names a) | _ => True end.
Lemma convs_out {M} (GM : M -> Prop) dump_m (HM : forall m zs it zs', GM m -> dump_m m zs = Ok (it, zs') -> out zs zs' [it])
  (x : comp M) : good_comp GM x -> forall l, Forall named l -> forall zs its zs', serialize_convs X M dump_m l x zs = Ok (its, zs') -> out zs zs' its.
Proof.
  intros HG l. induction 1 as [|a l Ha F IH]; intros zs its zs' H; cbn [serialize_convs] in H.
  - injection H as <- <-. apply out_nil.
  - unbind2 H. unbind2 H. injection H as <- <-. eapply out_app; [|eapply IH; eassumption]. unfold named in Ha.
    eapply (conv_out GM dump_m HM a); [exact HG| | |exact Ha0]; destruct (a_kind a); auto; apply Ha.
Qed.
Definition named_b (a : aconv) : bool :=
  match a_kind a with KVal _ _ _ _ => match a_names a with [] => false | l => forallb (fun n => existsb (str_eqb n) LINE_NAMES && str_eqb (upper n) n) l end | _ => true end.
Lemma named_spec a : named_b a = true -> named a.
Proof.
  unfold named_b, named. destruct (a_kind a); auto. intros H. split; [intro E; rewrite E in H; discriminate|].
  destruct (a_names a) as [|n ns]; [discriminate|]. apply Forall_forall. intros m Hm. rewrite forallb_forall in H. apply H in Hm.
  apply andb_prop in Hm as [H1 H2]. split; [now apply existsb_str|now apply str_eqb_eq].
Qed.
Lemma converters_named c a : In a (converters c) -> named a.
Proof.
  intros H. apply named_spec. assert (E : forallb named_b (converters c) = true) by (destruct c; vm_compute; reflexivity).
  rewrite forallb_forall in E. now apply E.
Qed.
(** Containers made of such items. *)
Hypothesis CONT : forall zs c its, Forall (OK zs) its -> OK zs (ICont (NAME c) its).
Lemma comp_out {M} (GM : M -> Prop) dump_m (HM : forall m zs it zs', GM m -> dump_m m zs = Ok (it, zs') -> out zs zs' [it])
  (x : comp M) zs it zs' : good_comp GM x -> dump_comp X M dump_m x zs = Ok (it, zs') -> out zs zs' [it].
Proof.
  intros HG H. unfold dump_comp in H. unbind2 H. unbind H. injection H as <- <-. apply (convs_out GM dump_m HM x HG) in Ha as [H1 H2].
  2: { apply Forall_forall. apply converters_named. }
  split; [exact H1|]. constructor; [|constructor]. unfold Container in Ha0. rewrite (g_name _ _ HG) in Ha0.
  assert (E : upper (NAME (c_cls x)) = NAME (c_cls x) /\ NAME (c_cls x) <> []) by (destruct (c_cls x); split; (reflexivity || discriminate)).
  destruct E as [E1 E2]. rewrite E1 in Ha0. destruct (NAME (c_cls x)) eqn:EN; [congruence|]. injection Ha0 as <-. rewrite <- EN. apply CONT.
  apply Forall_app. split; [exact H2|]. eapply Forall_impl; [|apply (g_extra _ _ HG)]. intros i Hi. apply Hi.
Qed.
Definition good_alarm : alarm -> Prop := good_comp (fun _ => True).
Definition good_entry : entry -> Prop := good_comp good_alarm.
Lemma alarm_out m zs it zs' : good_alarm m -> dump_alarm X m zs = Ok (it, zs') -> out zs zs' [it].
Proof. apply comp_out. intros []. Qed.
Lemma entry_out x zs it zs' : good_entry x -> dump_entry X x zs = Ok (it, zs') -> out zs zs' [it].
Proof. apply comp_out. exact alarm_out. Qed.
End Out.

(** Fields that are no members are written as lines. *)
Definition is_line (it : item) : Prop := exists l, it = ILine l.
Lemma values_lines X name convs vs : forall cur acc mg zs its zs', serialize_values X name convs vs cur acc mg zs = Ok (its, zs') -> Forall is_line its.
Proof.
  induction vs as [|[v p] vs IH]; intros cur acc mg zs its zs' H; cbn [serialize_values] in H.
  - destruct mg; [discriminate|]. injection H as <- <-. constructor.
  - unbind2 H. unbind3 H. unbind H. match type of H with (if ?b then _ else _) = _ => destruct b end; [now apply IH in H|].
    unbind2 H. injection H as <- <-. constructor; [now eexists|]. now apply IH in Ha2.
Qed.
Lemma conv_lines X M dump_m a (x : comp M) zs its zs' : (match a_kind a with KMember _ => False | _ => True end) ->
  serialize_conv X M dump_m a x zs = Ok (its, zs') -> Forall is_line its.
Proof.
  intros HK H. unfold serialize_conv in H. destruct (a_kind a) as [convs multi d r|s|k| |]; [destruct multi| |destruct HK| |].
  - unfold serialize_multi in H. destruct (get_attr (a_attr a) x); try discriminate.
    destruct (dict_get (a_key a) (c_params x)) as [[[|]|[|]]|]; repeat match type of H with (if ?b then _ else _) = _ => destruct b end; try discriminate; now apply values_lines in H.
  - unfold serialize_single in H. destruct (get_attr (a_attr a) x); [injection H as <- <-; constructor| |destruct (single_params _ _); discriminate].
    unbind H. unbind2 H. unbind3 H. injection H as <- <-. repeat constructor. now eexists.
  - unfold serialize_span in H. destruct (get_attr (a_attr a) x) as [|[]|]; try discriminate. unbind2 H. unbind2 H. injection H as <- <-.
    apply Forall_app. split.
    + destruct (ts_begin t); [|injection Ha as <- <-; constructor]. unbind Ha. unbind3 Ha. injection Ha as <- <-. repeat constructor. now eexists.
    + destruct (end_representation t) as [[]|]; [| |injection Ha0 as <- <-; constructor]; unbind Ha0; unbind Ha0;
        match type of Ha0 with match ?o with _ => _ end = _ => destruct o; [|discriminate] end; [|unbind3 Ha0]; injection Ha0 as <- <-; repeat constructor; now eexists.
  - unfold serialize_action in H. unbind H. unbind H. injection H as <- <-. repeat constructor. now eexists.
  - injection H as <- <-. constructor.
Qed.
Lemma convs_lines X M dump_m (x : comp M) l : Forall (fun a => match a_kind a with KMember _ => False | _ => True end) l ->
  forall zs its zs', serialize_convs X M dump_m l x zs = Ok (its, zs') -> Forall is_line its.
Proof.
  induction 1 as [|a l Ha F IH]; intros zs its zs' H; cbn [serialize_convs] in H; [injection H as <- <-; constructor|].
  unbind2 H. unbind2 H. injection H as <- <-. apply Forall_app. split; [now apply conv_lines in Ha0|eauto].
Qed.
