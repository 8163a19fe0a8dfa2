(** * Proofs: reading the lines of a time span *)
From Verif Require Import M_Base M_Text M_Line M_Codec M_Cal M_Time M_Span M_Dt M_Tree M_Comp.
From Verif Require Import S_Text S_Codec S_Dt S_Comp S_Multi P_Base P_Codec P_Cal P_Dt P_Comp P_Cat P_Frame P_Whole P_Local P_Reorder P_ReadGen S_Read P_Value P_ReadVal.
From Coq Require Import Lia ZifyBool ZifyNat ZifyN.
Open Scope N_scope.

Section Span.
Variable X : ext.
Variable M : Type.
Variable zs : zones.
Local Notation lst := (lst M).

(** ** The value of a line *)
Lemma date_midnight F s ps d : F = FDate -> moment X zs (text_of F) s ps d -> (wall d - wall d mod US_DAY)%Z = wall d.
Proof.
  intros -> (_ & HT & HR & _). rewrite <- (wall_of_fields (wall d)). cbn [text_of] in HT.
  assert (exists k, wall_of (fields_of (wall d)) = (k * US_DAY)%Z) as (k & ->).
  { destruct HT; unfold wall_of, mk_wall; cbn [f_y f_m f_d f_H f_M f_S f_us]; change (((0 * 60 + 0) * 60 + 0) * US_SEC)%Z with 0%Z; rewrite !Z.add_0_r; eexists; reflexivity. }
  rewrite Z.mod_mul by easy. lia.
Qed.
Lemma time_sound l zs' p d rest zs1 : zeq X zs zs' -> span_value X l zs' = Ok (p, d, rest, zs1) -> time_value X zs l p d rest /\ zeq X zs zs1.
Proof.
  intros HZ H. unfold span_value in H. unfold time_value. change VALUE with (py "VALUE") in *.
  destruct (list_eq_dec _ _ [py "DATE-TIME"]) as [E|_]; [|destruct (list_eq_dec _ _ [py "DATE"]) as [E|_]; [|discriminate]].
  - unbind3 H. injection H as <- <- <- <-. apply (read_moment X FDatetime zs) in Ha as (HM & -> & Z1); [|exact HZ]. split; [|exact Z1]. split; [easy|].
    destruct (dict_get (py "VALUE") (cl_params l)) as [w|]; cbn [option_map]; [left|]; auto.
  - unbind3 H. injection H as <- <- <- <-. apply (read_moment X FDate zs) in Ha as (HM & -> & Z1); [|exact HZ]. split; [|exact Z1]. split; [easy|].
    destruct (dict_get (py "VALUE") (cl_params l)) as [w|]; cbn [option_map]; [|discriminate]. right. split; [exact E|]. split; [easy|].
    eexists. split; [exact HM|]. now rewrite (date_midnight FDate _ _ _ eq_refl HM).
Qed.
Lemma time_go l zs' p d rest : zeq X zs zs' -> time_value X zs l p d rest -> exists zs1, span_value X l zs' = Ok (p, d, rest, zs1) /\ zeq X zs zs1.
Proof.
  intros HZ (-> & H). unfold span_value. change VALUE with (py "VALUE") in *. destruct (dict_get (py "VALUE") (cl_params l)) as [w|]; cbn [option_map] in H.
  - destruct H as [(-> & -> & H)|(-> & -> & e & H & ->)].
    + destruct (list_eq_dec _ _ _) as [_|N]; [|congruence]. destruct (moment_read X FDatetime zs zs' _ _ _ HZ H) as (zs1 & -> & Z1). exists zs1. now split.
    + destruct (list_eq_dec _ _ [py "DATE-TIME"]) as [N|_]; [discriminate|]. destruct (list_eq_dec _ _ _) as [_|N]; [|congruence].
      destruct (moment_read X FDate zs zs' _ _ _ HZ H) as (zs1 & -> & Z1). exists zs1. cbn [bind]. now rewrite (date_midnight FDate _ _ _ eq_refl H).
  - destruct H as (-> & H). destruct (list_eq_dec _ _ _) as [_|N]; [|congruence]. destruct (moment_read X FDatetime zs zs' _ _ _ HZ H) as (zs1 & -> & Z1). exists zs1. now split.
Qed.
Lemma time_det l p d rest p' d' rest' : time_value X zs l p d rest -> time_value X zs l p' d' rest' -> p = p' /\ d = d' /\ rest = rest'.
Proof.
  intros H K. destruct (time_go l zs p d rest (zeq_refl X zs) H) as (z1 & E1 & _). destruct (time_go l zs p' d' rest' (zeq_refl X zs) K) as (z2 & E2 & _).
  rewrite E1 in E2. now injection E2 as <- <- <- _.
Qed.

(** ** Lists of lines *)
Lemma lines_In n its l : In l (lines n its) <-> In (ILine l) its /\ cl_name l = n.
Proof.
  unfold lines. rewrite in_flat_map. split.
  - intros ([l'|m k] & I & J); [|destruct J]. destruct (str_eqb (cl_name l') n) eqn:E; [|destruct J]. destruct J as [->|[]]. apply str_eqb_eq in E. auto.
  - intros [I <-]. exists (ILine l). split; [exact I|]. rewrite str_eqb_refl. now left.
Qed.
Lemma before_other m n pre it : item_name it <> m -> before m n pre -> before m n (pre ++ [it]).
Proof.
  intros HN H l1 l l2 E EM. destruct l2 as [|z l2' _] using rev_ind.
  - apply app_inj_tail in E as [_ ->]. now cbn in HN.
  - rewrite app_comm_cons, app_assoc in E. apply app_inj_tail in E as [E ->]. destruct (H l1 l l2' E EM) as (l' & I & EN). exists l'. split; [apply in_app_iff; auto|exact EN].
Qed.
Lemma before_last m n pre l : cl_name l = n -> n <> m -> before m n (pre ++ [ILine l]).
Proof.
  intros EN NE l1 l0 l2 E EM. destruct l2 as [|z l2' _] using rev_ind.
  - apply app_inj_tail in E as [_ E]. injection E as <-. congruence.
  - rewrite app_comm_cons, app_assoc in E. apply app_inj_tail in E as [E <-]. exists l. split; [apply in_app_iff; right; now left|exact EN].
Qed.
Lemma before_none m n its : lines m its = [] -> before m n its.
Proof. intros H l1 l l2 -> EM. exfalso. assert (In l (lines m (l1 ++ ILine l :: l2))) as I by (apply lines_In; split; [apply in_app_iff; right; now left|exact EM]). now rewrite H in I. Qed.
(** Not both before each other. *)
Lemma before_cycle m n its l : before m n its -> before n m its -> lines m its = [l] -> False.
Proof.
  intros H K E. assert (In l (lines m its)) as I by (rewrite E; now left). apply lines_In in I as [I EM]. apply in_split in I as (l1 & l2 & ->).
  destruct (H l1 l l2 eq_refl EM) as (x & J & EN). apply in_split in J as (l3 & l4 & ->).
  destruct (K (l1 ++ ILine l :: l3) x l4) as (y & L & EM2); [now rewrite <- app_assoc|exact EN|].
  rewrite lines_app in E. change (ILine l :: l3 ++ ILine x :: l4) with ([ILine l] ++ l3 ++ [ILine x] ++ l4) in E. rewrite !lines_app in E.
  rewrite <- EM in E at 2. rewrite lines_here in E. assert (In y (lines m l4)) as L2 by now apply lines_In.
  apply (f_equal (@length _)) in E. rewrite !app_length in E. cbn [length] in E. destruct (lines m l4); [easy|]. cbn [length] in E. lia.
Qed.

(** ** The state after some items *)
Definition span_part (its : list item) (s : lst) : Prop :=
  let sc := l_span s in
  (forall n, In n (sc_seen sc) <-> In n SPAN_NAMES /\ lines n its <> []) /\
  exists e1 e2,
    time_read X zs (py "DTSTART") (py "BEGIN") its (l_comp s) (sc_prec sc) (sc_begin sc) /\
    time_read X zs (py "DTEND") (py "END") its (l_comp s) (sc_prec sc) e1 /\
    time_read X zs (py "DUE") (py "DUE") its (l_comp s) (sc_prec sc) e2 /\
    length_read its (l_comp s) (sc_dur sc) /\
    (sc_begin sc = None -> e1 = None -> e2 = None -> sc_prec sc = None) /\
    match sc_end_name sc with
    | None => e1 = None /\ e2 = None /\ sc_end sc = None
    | Some n => n = py "end" /\ e1 <> None /\ sc_end sc = e1 /\ before (py "DUE") (py "DTEND") its \/
                n = py "due" /\ e2 <> None /\ sc_end sc = e2 /\ before (py "DTEND") (py "DUE") its
    end.
Lemma time_other n key pre it (x y : comp M) p o : item_name it <> n -> dict_get key (c_params x) = dict_get key (c_params y) ->
  time_read X zs n key pre x p o -> time_read X zs n key (pre ++ [it]) y p o.
Proof. intros HN E (ls & HL & H). exists ls. split; [now apply only_other|]. unfold params_are in *. now rewrite <- E. Qed.
(** The precision may still be chosen when there is no line yet. *)
Lemma time_prec n key its (x : comp M) p q o : (p = None \/ p = q) -> time_read X zs n key its x p o -> time_read X zs n key its x q o.
Proof.
  intros HP (ls & HL & H). exists ls. split; [exact HL|]. destruct ls as [|l [|]]; auto. destruct H as (r & d & rest & H1 & H2 & H3). exists r, d, rest.
  split; [exact H1|]. split; [|exact H3]. destruct HP; congruence.
Qed.
Lemma length_other pre it (x y : comp M) o : item_name it <> py "DURATION" -> dict_get (py "DURATION") (c_params x) = dict_get (py "DURATION") (c_params y) ->
  length_read pre x o -> length_read (pre ++ [it]) y o.
Proof. intros HN E (ls & HL & H). exists ls. split; [now apply only_other|]. unfold params_are in *. now rewrite <- E. Qed.
Lemma time_none n key its (x : comp M) p o : time_read X zs n key its x p o -> (lines n its = [] <-> o = None).
Proof.
  intros (ls & [-> _] & H). destruct (lines n its) as [|l [|]]; [easy| |contradiction]. destruct H as (r & d & rest & _ & _ & -> & _). easy.
Qed.
(** Adding the first line of a name. *)
Lemma time_first n key pre (x y : comp M) p q o l d rest : cl_name l = n -> lines n pre = [] -> time_read X zs n key pre x p o ->
  time_value X zs l q d rest -> dict_get key (c_params y) = match rest with [] => dict_get key (c_params x) | _ => Some (XOne rest) end ->
  time_read X zs n key (pre ++ [ILine l]) y (Some q) (Some d).
Proof.
  intros <- HE (ls & HL & H) HT HP. destruct HL as [-> HC]. rewrite HE in H. destruct H as [-> H]. exists [l]. split; [apply (only_here pre l []); split; auto|].
  exists q, d, rest. split; [exact HT|]. split; [easy|]. split; [easy|]. unfold params_are in *. rewrite HP. now destruct rest.
Qed.
Lemma seen_step its n m l : cl_name l = n -> In n SPAN_NAMES -> (lines m (its ++ [ILine l]) <> [] <-> n = m \/ lines m its <> []).
Proof.
  intros HN HS. rewrite lines_app. destruct (list_eq_dec N.eq_dec n m) as [E|E].
  - rewrite <- E, <- HN, lines_here. split; [auto|]. intros _ H. now apply app_eq_nil in H.
  - destruct (lines_other m (ILine l)) as [-> _]; [now cbn; congruence|]. rewrite app_nil_r. tauto.
Qed.
Lemma key_get n m rest (x : comp M) : In n SPAN_NAMES -> In m SPAN_NAMES -> dict_get (the_key m) (c_params (store_params (the_key n) rest x)) =
  if str_eqb n m then match rest with [] => dict_get (the_key m) (c_params x) | _ => Some (XOne rest) end else dict_get (the_key m) (c_params x).
Proof.
  intros HN HM. rewrite store_get. destruct (str_eqb n m) eqn:E.
  - apply str_eqb_eq in E as ->. now rewrite str_eqb_refl.
  - apply str_eqb_neq in E. assert (the_key m <> the_key n) as K by (apply key_inj; auto). apply str_eqb_neq in K. rewrite K. now destruct rest.
Qed.
Lemma span_frame a k its s t : a_kind a = KSpan k -> at_same M a s t -> span_part its s -> span_part its t.
Proof.
  intros K [A1 A2 A3 A4 A5 A6]. assert (l_span s = l_span t) as E by (apply A6; unfold is_span; now rewrite K).
  assert (P : forall key, In key [py "BEGIN"; py "END"; py "DUE"; py "DURATION"] -> dict_get key (c_params (l_comp s)) = dict_get key (c_params (l_comp t))).
  { intros key I. apply A3. unfold pkeys. now rewrite K. }
  unfold span_part. rewrite E. intros (H0 & e1 & e2 & H1 & H2 & H3 & H4 & H5). split; [exact H0|]. exists e1, e2.
  unfold time_read, length_read, params_are in *. rewrite <- !P by (cbn; tauto). auto.
Qed.
Lemma span_skip a k pre it s : a_kind a = KSpan k -> a_names a = SPAN_NAMES -> ~ named a it -> span_part pre s -> span_part (pre ++ [it]) s.
Proof.
  intros K AN HN (H0 & e1 & e2 & H1 & H2 & H3 & H4 & H5 & H6). unfold named in HN. rewrite AN in HN.
  assert (NE : forall n, In n SPAN_NAMES -> item_name it <> n) by (intros n I <-; contradiction). split.
  - intro n. rewrite H0. split; intros [I J]; (split; [exact I|]); destruct (lines_other n it (NE n I)) as [E _]; rewrite lines_app, E, app_nil_r in *; exact J.
  - exists e1, e2. repeat (split; [first [eapply time_other | eapply length_other]; eauto; apply NE; cbn; tauto|]). split; [exact H5|].
    destruct (sc_end_name (l_span s)) as [n|]; [|exact H6].
    destruct H6 as [(-> & A & B & C)|(-> & A & B & C)]; [left|right]; (split; [easy|]; split; [exact A|]; split; [exact B|]); apply before_other; auto; apply NE; cbn; tauto.
Qed.
Lemma span_step_part pre l s s' : In (cl_name l) SPAN_NAMES -> zeq X zs (l_zones s) -> span_part pre s -> populate_span X l s = Ok s' ->
  span_part (pre ++ [ILine l]) s' /\ zeq X zs (l_zones s').
Proof.
  intros HN HZ (H0 & e1 & e2 & H1 & H2 & H3 & H4 & H5 & H6) H. rewrite populate_span_step in H. apply bind_Ok in H as ([[[key q] sc1] zs1] & HS & H). injection H as <-.
  rewrite span_step_form in HS. destruct (existsb _ _) eqn:EX; [discriminate|]. assert (NS : lines (cl_name l) pre = []).
  { destruct (lines (cl_name l) pre) eqn:E; [easy|]. exfalso. apply Bool.not_true_iff_false in EX. apply EX, existsb_str, H0. split; [exact HN|congruence]. } clear EX.
  cbn [l_span l_zones l_comp].
  assert (SEEN : forall n, In n (sc_seen (l_span s) ++ [cl_name l]) <-> In n SPAN_NAMES /\ lines n (pre ++ [ILine l]) <> []).
  { intro n. rewrite (seen_step pre (cl_name l) n l eq_refl HN), in_app_iff, H0. cbn [In]. split; [intros [[A B]|[<-|[]]]; auto|]. intros [A [B|B]]; auto. }
  destruct (str_eqb (cl_name l) (py "DURATION")) eqn:ED.
  - apply str_eqb_eq in ED. unbind HS. injection HS as <- <- <- <-. split; [|exact HZ]. split; [exact SEEN|].
    pose proof (key_get (cl_name l)) as KG. rewrite ED in *. exists e1, e2. unfold put_dur. cbn [l_span l_comp sc_prec sc_begin sc_end sc_dur sc_end_name].
    split; [eapply time_other; [| |exact H1]; [cbn [item_name]; rewrite ED; discriminate|symmetry; apply (KG (py "DTSTART") (cl_params l) (l_comp s)); cbn; tauto]|].
    split; [eapply time_other; [| |exact H2]; [cbn [item_name]; rewrite ED; discriminate|symmetry; apply (KG (py "DTEND") (cl_params l) (l_comp s)); cbn; tauto]|].
    split; [eapply time_other; [| |exact H3]; [cbn [item_name]; rewrite ED; discriminate|symmetry; apply (KG (py "DUE") (cl_params l) (l_comp s)); cbn; tauto]|].
    split; [|split; [exact H5|]].
    + destruct H4 as (ls & [-> HC] & H4). rewrite NS in H4. destruct H4 as [_ H4]. exists [l]. split; [rewrite <- ED in *; apply (only_here pre l []); split; auto|].
      apply duration_parse_exact in Ha as (secs & A & -> & B). exists secs. repeat (split; [auto|]). unfold params_are in *.
      assert (In (py "DURATION") SPAN_NAMES) as ID by (cbn; tauto). pose proof (KG (py "DURATION") (cl_params l) (l_comp s) ID ID) as KD.
      rewrite str_eqb_refl in KD. change (the_key (py "DURATION")) with (py "DURATION") in *. rewrite ?ED. change (the_key (py "DURATION")) with (py "DURATION").
      etransitivity; [exact KD|]. now destruct (cl_params l).
    + destruct (sc_end_name (l_span s)) as [n|]; [|exact H6].
      destruct H6 as [(-> & A & B & C)|(-> & A & B & C)]; [left|right]; (split; [easy|]; split; [exact A|]; split; [exact B|]); apply before_other; auto; cbn [item_name]; rewrite ED; discriminate.
  - apply str_eqb_neq in ED. apply bind_Ok in HS as ([[[p d] rest] zs2] & HV & HS). apply (time_sound l _ p d rest zs2 HZ) in HV as [HV Z2].
    unbind HS. apply prec_fits_Ok in Ha as [_ PF]. injection HS as <- <- <- <-. split; [|exact Z2].
    assert (EP : prec_set (sc_prec (l_span s)) p = Some p) by (unfold prec_set; destruct (sc_prec (l_span s)) as [r|]; [f_equal; symmetry; now apply PF|easy]).
    assert (PP : sc_prec (l_span s) = None \/ sc_prec (l_span s) = Some p) by (destruct (sc_prec (l_span s)) as [r|]; [right; f_equal; symmetry; now apply PF|now left]).
    pose proof (fun m => key_get (cl_name l) m rest (l_comp s) HN) as KG.
    assert (T : forall m o, In m SPAN_NAMES -> m <> cl_name l -> time_read X zs m (the_key m) pre (l_comp s) (sc_prec (l_span s)) o ->
      time_read X zs m (the_key m) (pre ++ [ILine l]) (store_params (the_key (cl_name l)) rest (l_comp s)) (Some p) o).
    { intros m o HM NE HT. eapply time_other; [cbn; congruence| |eapply time_prec; [exact PP|exact HT]]. rewrite KG by exact HM.
      assert (str_eqb (cl_name l) m = false) as -> by (apply str_eqb_neq; congruence). easy. }
    assert (F : forall o, time_read X zs (cl_name l) (the_key (cl_name l)) pre (l_comp s) (sc_prec (l_span s)) o ->
      time_read X zs (cl_name l) (the_key (cl_name l)) (pre ++ [ILine l]) (store_params (the_key (cl_name l)) rest (l_comp s)) (Some p) (Some d)).
    { intros o HT. eapply time_first; [easy|exact NS|exact HT|exact HV|]. rewrite KG by exact HN. now rewrite str_eqb_refl. }
    assert (L : length_read (pre ++ [ILine l]) (store_params (the_key (cl_name l)) rest (l_comp s)) (sc_dur (l_span s))).
    { eapply length_other; [exact ED| |exact H4]. change (py "DURATION") with (the_key (py "DURATION")). rewrite KG by (cbn; tauto).
      assert (str_eqb (cl_name l) (py "DURATION") = false) as -> by (now apply str_eqb_neq). easy. }
    cbn [l_span l_comp]. unfold span_part. cbn [l_span l_comp]. split; [intro n; rewrite put_seen; apply SEEN|]. unfold put_span. rewrite EP.
    destruct HN as [HN|[HN|[HN|[HN|[]]]]]; rewrite <- HN in *; try (exfalso; now apply ED).
    + exists e1, e2. change (str_eqb (py "DTSTART") (py "DTSTART")) with true. cbn [sc_prec sc_begin sc_end sc_dur sc_end_name].
      split; [exact (F _ H1)|]. split; [apply (T (py "DTEND")); [cbn; tauto|easy|exact H2]|]. split; [apply (T (py "DUE")); [cbn; tauto|easy|exact H3]|].
      split; [exact L|]. split; [discriminate|]. destruct (sc_end_name (l_span s)) as [n|]; [|exact H6].
      destruct H6 as [(-> & A & B & C)|(-> & A & B & C)]; [left|right]; (split; [easy|]; split; [exact A|]; split; [exact B|]); apply before_other; auto; cbn; now rewrite <- HN.
    + exists (Some d), e2. change (str_eqb (py "DTEND") (py "DTSTART")) with false. change (str_eqb (py "DTEND") (py "DTEND")) with true. cbn [sc_prec sc_begin sc_end sc_dur sc_end_name].
      split; [apply (T (py "DTSTART")); [cbn; tauto|easy|exact H1]|]. split; [exact (F _ H2)|]. split; [apply (T (py "DUE")); [cbn; tauto|easy|exact H3]|].
      split; [exact L|]. split; [discriminate|]. left. split; [easy|]. split; [easy|]. split; [easy|]. apply before_last; [congruence|discriminate].
    + exists e1, (Some d). change (str_eqb (py "DUE") (py "DTSTART")) with false. change (str_eqb (py "DUE") (py "DTEND")) with false. cbn [sc_prec sc_begin sc_end sc_dur sc_end_name].
      split; [apply (T (py "DTSTART")); [cbn; tauto|easy|exact H1]|]. split; [apply (T (py "DTEND")); [cbn; tauto|easy|exact H2]|]. split; [exact (F _ H3)|].
      split; [exact L|]. split; [discriminate|]. right. split; [easy|]. split; [easy|]. split; [easy|]. apply before_last; [congruence|discriminate].
Qed.
Lemma span_new x n z : (forall k, dict_get k (c_params x) = None) -> span_part [] (mk_lst x n sc0 z : lst).
Proof.
  intro H. unfold span_part. cbn [l_span sc0 sc_seen sc_prec sc_begin sc_end sc_dur sc_end_name l_comp]. split; [intro m; cbn; tauto|]. exists None, None.
  assert (T : forall m key, time_read X zs m key [] x None None) by (intros m key; exists []; split; [apply only_nil|split; [easy|apply H]]).
  repeat (split; [apply T|]). split; [exists []; split; [apply only_nil|split; [easy|apply H]]|]. easy.
Qed.

(** ** At the end *)
Variable c : cls.
Hypothesis HE : is_entry c = true.
Definition span_kind : kind := match c with CTodo => KTodo | _ => KEvent end.
Lemma span_post a its s s' : a_kind a = KSpan span_kind -> a_attr a = py "timespan" -> span_part its s -> post_conv X M a s = Ok s' -> span_read X zs c its (l_comp s').
Proof.
  intros K AA (H0 & e1 & e2 & H1 & H2 & H3 & H4 & H5 & H6) H. unfold post_conv in H. rewrite K, AA in H. apply bind_Ok in H as (t & HM & H). apply bind_Ok in H as (u & HG & H).
  unfold make in HM. apply bind_Ok in HM as ([] & HV & HM). injection HM as HM.
  apply bind_Ok in H as (v & HS & H). injection H as <-. cbn [l_comp].
  assert (v = VSpan t) as ->.
  { subst t. unfold apply_set in HS. cbn [ts_kind] in HS. destruct span_kind; try discriminate; apply bind_Ok in HS as (? & _ & [= <-]); easy. }
  unfold span_read, time_read, length_read, params_are in *. cbn [set_attrs c_params c_attrs].
  assert (N1 : lines (py "DUE") its = [] <-> e2 = None) by (eapply time_none; exact H3).
  assert (N2 : lines (py "DTEND") its = [] <-> e1 = None) by (eapply time_none; exact H2).
  unfold span_kind in *. destruct c; try discriminate.
  - exists (sc_prec (l_span s)), (sc_begin (l_span s)), e1, e2, (sc_dur (l_span s)). do 4 (split; [assumption|]).
    destruct (sc_end_name (l_span s)) as [n|].
    + destruct H6 as [(-> & A & B & C)|(-> & _)]; [|discriminate HG]. split; [exact C|]. split; [intros _ E; contradiction|]. rewrite <- B. subst t. split; [exact HV|apply dict_get_set_same].
    + destruct H6 as (-> & -> & E). split; [now apply before_none, N1|]. split; [intros E1 _; now apply H5|]. rewrite E in *. subst t. split; [exact HV|apply dict_get_set_same].
  - exists (sc_prec (l_span s)), (sc_begin (l_span s)), e2, e1, (sc_dur (l_span s)). do 4 (split; [assumption|]).
    destruct (sc_end_name (l_span s)) as [n|].
    + destruct H6 as [(-> & _)|(-> & A & B & C)]; [discriminate HG|]. split; [exact C|]. split; [intros _ E; contradiction|]. rewrite <- B. subst t. split; [exact HV|apply dict_get_set_same].
    + destruct H6 as (-> & -> & E). split; [now apply before_none, N2|]. split; [intros E1 _; now apply H5|]. rewrite E in *. subst t. split; [exact HV|apply dict_get_set_same].
Qed.
Lemma span_read_frame a k its s t : a_kind a = KSpan k -> a_attr a = py "timespan" -> at_same M a s t -> span_read X zs c its (l_comp s) -> span_read X zs c its (l_comp t).
Proof.
  intros K AA [A1 A2 A3 A4 A5 A6]. rewrite AA in A2.
  assert (P : forall key, In key [py "BEGIN"; py "END"; py "DUE"; py "DURATION"] -> dict_get key (c_params (l_comp s)) = dict_get key (c_params (l_comp t))).
  { intros key I. apply A3. unfold pkeys. now rewrite K. }
  unfold span_read, time_read, length_read, params_are. destruct c; rewrite <- !P by (cbn; tauto); rewrite <- A2; auto.
Qed.

(** ** Success *)
Lemma time_read_det n key its (x y : comp M) p q o o' : time_read X zs n key its x p o -> time_read X zs n key its y q o' -> o = o' /\ (o <> None -> p = q).
Proof.
  intros (ls & [-> _] & H) (ls' & [-> _] & K). destruct (lines n its) as [|l [|]]; [|clear HE|contradiction].
  - destruct H as [-> _], K as [-> _]. now split.
  - destruct H as (p1 & d1 & r1 & T1 & -> & -> & _), K as (p2 & d2 & r2 & T2 & -> & -> & _). destruct (time_det _ _ _ _ _ _ _ T1 T2) as (-> & -> & _). now split.
Qed.
Lemma length_read_det its (x y : comp M) o o' : length_read its x o -> length_read its y o' -> o = o'.
Proof.
  intros (ls & [-> _] & H) (ls' & [-> _] & K). destruct (lines _ its) as [|l [|]]; [|clear HE|contradiction].
  - destruct H as [-> _], K as [-> _]. easy.
  - destruct H as (s1 & A1 & B1 & -> & _), K as (s2 & A2 & B2 & -> & _).
    assert (duration_parse (cl_value l) = Ok (s1 * 1000000)%Z) as E1 by (apply duration_parse_exact; eauto).
    assert (duration_parse (cl_value l) = Ok (s2 * 1000000)%Z) as E2 by (apply duration_parse_exact; eauto). congruence.
Qed.
(** The specification, with the names in a fixed order. *)
Definition span_all (its : list item) (x : comp M) : Prop :=
  exists p b e1 e2 d, time_read X zs (py "DTSTART") (py "BEGIN") its x p b /\ time_read X zs (py "DTEND") (py "END") its x p e1 /\
    time_read X zs (py "DUE") (py "DUE") its x p e2 /\ length_read its x d /\
    (b = None -> e1 = None -> e2 = None -> p = None) /\
    validate (x_env X) (mk_ts span_kind b (match span_kind with KTodo => e2 | _ => e1 end) d (match p with Some q => q | None => PNone end)) = Ok tt /\
    match span_kind with KTodo => before (py "DTEND") (py "DUE") its | _ => before (py "DUE") (py "DTEND") its end.
Lemma span_read_all its (x : comp M) : span_read X zs c its x -> span_all its x.
Proof.
  unfold span_read, span_all, span_kind. destruct c; try discriminate; intros (p & b & e & e' & d & H1 & H2 & H3 & H4 & H5 & H6 & H7 & _); exists p, b.
  - exists e, e', d. repeat (split; [assumption|]). split; [auto|]. now split.
  - exists e', e, d. repeat (split; [assumption|]). split; [auto|]. now split.
Qed.
Lemma line_middle n key pre l post (x : comp M) p o : time_read X zs n key (pre ++ ILine l :: post) x p o -> cl_name l = n ->
  lines n pre = [] /\ exists q d rest, time_value X zs l q d rest /\ p = Some q.
Proof.
  intros (ls & HL & H) HN. destruct (only_middle n pre (ILine l) post ls HL HN) as (l' & [= <-] & _ & -> & _).
  destruct (lines n pre) as [|y [|]].
  - cbn [app] in H. destruct (lines n post); [|contradiction]. split; [easy|]. destruct H as (q & d & rest & T & P & _). eauto.
  - cbn [app] in H. contradiction.
  - cbn [app] in H. contradiction.
Qed.
(** The precision in the state is that of the whole. *)
Lemma part_prec n key pre post (s : lst) (x : comp M) p q o o' : time_read X zs n key pre (l_comp s) (Some q) o -> o <> None ->
  time_read X zs n key (pre ++ post) x p o' -> p = Some q.
Proof.
  intros (ls & [-> _] & H) NE (ls' & [-> _] & K). rewrite lines_app in K. destruct (lines n pre) as [|l [|]]; [now destruct H| |contradiction].
  cbn [app] in K. destruct (lines n post); [|contradiction]. destruct H as (p1 & d1 & r1 & T1 & [= <-] & _), K as (p2 & d2 & r2 & T2 & -> & _).
  destruct (time_det _ _ _ _ _ _ _ T1 T2) as (-> & _). easy.
Qed.
Lemma span_go pre l post s (x : comp M) : In (cl_name l) SPAN_NAMES -> zeq X zs (l_zones s) -> span_part pre s ->
  span_read X zs c (pre ++ ILine l :: post) x -> exists s', populate_span X l s = Ok s'.
Proof.
  intros HN HZ (H0 & e1 & e2 & H1 & H2 & H3 & H4 & H5 & H6) HR. apply span_read_all in HR as (p & b & f1 & f2 & d & R1 & R2 & R3 & R4 & R5 & R6 & R7).
  rewrite populate_span_step, span_step_form.
  assert (K : lines (cl_name l) pre = [] -> existsb (str_eqb (cl_name l)) (sc_seen (l_span s)) = false).
  { intro E. apply Bool.not_true_iff_false. intro J. apply existsb_str, H0 in J as [_ J]. contradiction. }
  assert (G : forall q v rest, lines (cl_name l) pre = [] -> str_eqb (cl_name l) (py "DURATION") = false -> time_value X zs l q v rest -> p = Some q ->
    exists s', (do (key, q0, sc, zs0) <- (if existsb (str_eqb (cl_name l)) (sc_seen (l_span s)) then Err ValueError
      else if str_eqb (cl_name l) (py "DURATION") then
        do d <- duration_parse (cl_value l); Ok (the_key (cl_name l), cl_params l, put_dur (cl_name l) d (l_span s), l_zones s)
      else do (p, d, ps2, zs) <- span_value X l (l_zones s); do _ <- prec_fits (sc_prec (l_span s)) p;
        Ok (the_key (cl_name l), ps2, put_span (cl_name l) d p (l_span s), zs));
      Ok (mk_lst (store_params key q0 (l_comp s)) (l_count s) sc zs0)) = Ok s').
  { intros q v rest E ED HT HP. rewrite (K E), ED. destruct (time_go l (l_zones s) q v rest HZ HT) as (zs1 & HV & _). rewrite HV. cbn [bind].
    rewrite prec_fits_ok; [eexists; reflexivity|eapply span_value_prec; eauto|]. intros r Er. rewrite Er in *.
    assert (p = Some r); [|congruence].
    destruct (sc_begin (l_span s)) as [b0|] eqn:EB; [|destruct e1 as [b1|]; [|destruct e2 as [b2|]; [|now specialize (H5 eq_refl eq_refl eq_refl)]]].
    - eapply part_prec; [exact H1|discriminate|exact R1].
    - eapply part_prec; [exact H2|discriminate|exact R2].
    - eapply part_prec; [exact H3|discriminate|exact R3]. }
  destruct HN as [HN|[HN|[HN|[HN|[]]]]].
  - destruct (line_middle _ _ _ _ _ _ _ _ R1 (eq_sym HN)) as (E & q & v & rest & T & P). rewrite HN in E. apply (G q v rest); auto. now rewrite <- HN.
  - destruct (line_middle _ _ _ _ _ _ _ _ R2 (eq_sym HN)) as (E & q & v & rest & T & P). rewrite HN in E. apply (G q v rest); auto. now rewrite <- HN.
  - destruct (line_middle _ _ _ _ _ _ _ _ R3 (eq_sym HN)) as (E & q & v & rest & T & P). rewrite HN in E. apply (G q v rest); auto. now rewrite <- HN.
  - clear G. destruct R4 as (ls & HL & R4). destruct (only_middle _ pre (ILine l) post ls HL (eq_sym HN)) as (l' & [= <-] & _ & -> & _). rewrite HN in R4.
    destruct (lines (cl_name l) pre) as [|y [|]]; [|contradiction|contradiction]. rewrite (K eq_refl), <- HN. change (str_eqb (py "DURATION") (py "DURATION")) with true.
    cbn [app] in R4. destruct (lines (cl_name l) post); [|contradiction]. destruct R4 as (secs & A & B & _).
    assert (duration_parse (cl_value l) = Ok (secs * 1000000)%Z) as -> by (apply duration_parse_exact; eauto). cbn [bind]. eexists. reflexivity.
Qed.
Lemma span_post_go a its s (x : comp M) : a_kind a = KSpan span_kind -> span_part its s -> span_read X zs c its x -> exists s', post_conv X M a s = Ok s'.
Proof.
  intros K (H0 & e1 & e2 & H1 & H2 & H3 & H4 & H5 & H6) HR. apply span_read_all in HR as (p & b & f1 & f2 & d & R1 & R2 & R3 & R4 & R5 & R6 & R7).
  destruct (time_read_det _ _ _ _ _ _ _ _ _ H1 R1) as [<- P1]. destruct (time_read_det _ _ _ _ _ _ _ _ _ H2 R2) as [<- P2].
  destruct (time_read_det _ _ _ _ _ _ _ _ _ H3 R3) as [<- P3]. pose proof (length_read_det _ _ _ _ _ H4 R4) as <-.
  assert (sc_prec (l_span s) = p) as EP.
  { destruct (sc_begin (l_span s)); [now apply P1|]. destruct e1; [now apply P2|]. destruct e2; [now apply P3|]. rewrite R5, H5; easy. }
  unfold post_conv. rewrite K.
  assert (EE : sc_end (l_span s) = match span_kind with KTodo => e2 | _ => e1 end /\ match sc_end_name (l_span s) with Some n => guard (negb (str_eqb n (end_name span_kind))) ValueError | None => Ok tt end = Ok tt).
  { unfold span_kind in *. destruct c; try discriminate; destruct (sc_end_name (l_span s)) as [n|]; try (now destruct H6 as (-> & -> & ->));
      destruct H6 as [(-> & A & B & C)|(-> & A & B & C)]; try (now split); exfalso.
    - destruct (lines (py "DUE") its) as [|l [|]] eqn:EL; [now apply (time_none _ _ _ _ _ _ H3) in EL|eapply before_cycle; [exact R7|exact C|exact EL]|].
      destruct H3 as (ls & [-> _] & H3). now rewrite EL in H3.
    - destruct (lines (py "DTEND") its) as [|l [|]] eqn:EL; [now apply (time_none _ _ _ _ _ _ H2) in EL|eapply before_cycle; [exact R7|exact C|exact EL]|].
      destruct H2 as (ls & [-> _] & H2). now rewrite EL in H2. }
  destruct EE as [E1 E2]. unfold make. change (M_Comp.E X) with (x_env X). rewrite E1, EP, R6. cbn [bind]. rewrite E2. cbn [bind]. unfold apply_set. cbn [ts_kind]. change (M_Comp.E X) with (x_env X).
  rewrite R6. unfold span_kind. destruct c; try discriminate; cbn [bind]; eexists; reflexivity.
Qed.
End Span.
