(** * Proofs for C59: what was read is storable *)
From Verif Require Import M_Base M_Text M_Line M_Codec M_Cal M_Time M_Span M_Dt M_Tree M_Comp.
From Verif Require Import S_Text S_Codec S_Dt S_Line S_Fold S_Tree S_Comp S_Multi S_Store S_Ref S_Wire S_Read P_CodecX P_CodecX2 S_Again.
From Verif Require Import P_Base P_Cal P_Dt P_Codec P_Person P_Multi P_ReadSpan P_ReadVal P_Read.
From Coq Require Import Lia ZifyBool ZifyNat ZifyN.
Open Scope N_scope.

Lemma del_not_In {V} k (d : dict V) : NoDup (keys d) -> ~ In k (keys (dict_del k d)).
Proof. intros ND H. apply get_del_same with (k := k) in ND. apply dict_get_None in ND. contradiction. Qed.
Lemma del_incl {V} k j (d : dict V) : In j (keys (dict_del k d)) -> In j (keys d).
Proof. intro H. apply in_map_iff in H as ((j' & v) & <- & H). apply del_In in H. now apply (in_map fst) in H. Qed.

Section Again.
Variable X : ext.
Variable zs : zones.
Hypothesis HU : utc_env X.
Hypothesis HT : text_env X.

(** ** Values *)
Lemma moment_wall text s ps d : moment X zs text s ps d -> fold d = false /\ wall_ok (wall d) = true.
Proof.
  intros (_ & _ & RF & HF & _). split; [exact HF|]. assert (FV : fields_valid (fields_of (wall d))).
  { split; [apply real_date_spec, RF|]. apply valid_time_spec. pose proof (real_bounds _ RF). destruct RF as (_ & _ & US). lia. }
  rewrite <- (wall_of_fields (wall d)). now apply wall_of_ok.
Qed.
Lemma dt_storable d : fold d = false -> wall_ok (wall d) = true -> keepable_dt X d -> storable_dt X d.
Proof. intros H1 H2 (H3 & H4 & H5). unfold storable_dt. auto. Qed.
Lemma dur_storable secs : (TD_MIN <= secs * 1000000 <= TD_MAX)%Z -> storable_dur (secs * 1000000).
Proof. intro H. split; [exact H|]. now apply Z.mod_mul. Qed.

(** The parameters of a line, without VALUE. *)
Definition fine_ps (ps : xp) : Prop := NoDup (keys ps) /\ ~ In (py "VALUE") (keys ps).
Lemma den_storable t s ps v rest : fine_ps ps -> denotes X zs t s ps v rest -> keepable_val X v -> storable_val X t v.
Proof.
  intros (ND & NV) D K. destruct D as [s ps v H|s ps u H|s ps b H|s ps d H|s ps secs H1 H2|s ps n H|s ps b w H1 H2|s ps u H|s ps u H|a b ps lat lon H1 H2 H3]; cbn [keepable_val] in K.
  - constructor.
  - now constructor.
  - constructor. apply binary_exact in H. pose proof (binary_parse_total s) as B. now rewrite H in B.
  - constructor. apply moment_wall in H as [H1 H2]. now apply dt_storable.
  - constructor. now apply dur_storable.
  - constructor.
  - constructor.
  - now constructor.
  - now constructor.
  - destruct K as [K1 K2]. constructor; [exact K1|exact K2|]. apply (te_float X HT). now left.
Qed.
Definition absent (t : vconv) : list (list N) := py "VALUE" :: match t with Datetime => [py "TZID"] | _ => [] end.
Lemma den_rest t s ps v rest k : fine_ps ps -> denotes X zs t s ps v rest -> In k (absent t) -> ~ In k (keys rest).
Proof.
  intros (ND & NV) D I. destruct D; cbn [absent In] in I; try (now destruct I as [<-|[]]); try easy.
  destruct I as [<-|[<-|[]]].
  - intro I. now apply del_incl in I.
  - now apply del_not_In.
Qed.
Lemma den_person t s ps v rest : denotes X zs t s ps v rest -> is_person t -> rest = [].
Proof. intros D [-> | ->]; now inversion D. Qed.

(** What is kept of a value. *)
Definition rule_ok (r : rule) (ok : val -> Prop) : Prop :=
  match r with Plain => ok = any | Status => ok = status_ok | Utc => ok = utc_ok X | Upto hi => ok = range_ok hi end.
Lemma astimezone_utc text s ps d e : moment X zs text s ps d -> dt_astimezone (x_env X) d (Some (x_utc X)) = Ok e ->
  e = mk_dt (wall e) false (Some (x_utc X)) /\ wall_ok (wall e) = true.
Proof.
  intros M A. apply moment_wall in M as [M1 M2]. unfold dt_astimezone in A. destruct (negb (naive d) && same_tz (dtz d) (Some (x_utc X)))%bool eqn:S.
  - injection A as <-. apply Bool.andb_true_iff in S as [_ S]. split; [|exact M2]. destruct d as [w f [z|]]; cbn in *; [|discriminate].
    subst f. f_equal. f_equal. destruct z, (x_utc X); try discriminate; try reflexivity; f_equal; lia.
  - cbn zeta in A. destruct (wall_ok _) eqn:W1 in A; [|discriminate]. rewrite (ue_from X HU) in A. rewrite W1 in A. injection A as <-. now split.
Qed.
Lemma kept_storable r ok t s ps v rest w : rule_ok r ok -> fine_ps ps -> denotes X zs t s ps v rest -> kept X r v w -> keepable_val X w ->
  storable_val X t w /\ ok w.
Proof.
  intros R F D K KW. destruct r; cbn [rule_ok kept] in R, K; subst ok.
  - subst w. split; [now apply (den_storable t s ps v rest)|easy].
  - destruct K as (u & -> & -> & I). inversion D; subst. split; [constructor|]. destruct I as [<-|[<-|[<-|[]]]]; unfold status_ok; cbn; auto.
  - destruct K as (d & e & -> & -> & A). inversion D as [| | |s0 ps0 d0 M| | | | | |]; subst. destruct (astimezone_utc _ _ _ _ _ M A) as [E W]. split.
    + constructor. apply dt_storable; [now rewrite E|exact W|exact KW].
    + exists (wall e). now rewrite <- E.
  - destruct K as (n & -> & -> & I). inversion D; subst. split; [constructor|]. now exists n.
Qed.

(** ** Properties with one value *)
Section Comp.
Variable M : Type.
Variable c : cls.
Variable its : list item.
Variable x : comp M.
Hypothesis HL : forall l, In (ILine l) its -> NoDup (keys (cl_params l)).
Hypothesis KA : forall k a, dict_get k (c_attrs x) = Some a -> keepable_attr X a.
Hypothesis KN : forall k qs, dict_get k (c_params x) = Some (XMany qs) -> Forall note_last qs.

Lemma fine_line l : In (ILine l) its -> fine_ps (dict_del (py "VALUE") (cl_params l)).
Proof. intro I. apply HL in I. split; [now apply keys_del|now apply del_not_In]. Qed.
Lemma only_In n ls l : only_lines n its ls -> In l ls -> In (ILine l) its.
Proof. intros [-> _] I. now apply lines_In in I. Qed.
Lemma typed_types ts ps t : typed ts ps t -> In t (map snd ts).
Proof.
  unfold typed. destruct (dict_get _ ps) as [[|p [|q l]]|]; try easy.
  - intros (w & ts' & ->). now left.
  - intro I. now apply (in_map snd) in I.
  - intros (w & ts' & ->). now left.
Qed.
Lemma params_par key ps abs : params_are x key ps -> (forall k, In k abs -> ~ In k (keys ps)) -> storable_par x key abs.
Proof. unfold params_are, storable_par. intros -> H. destruct ps; [easy|]. now split. Qed.
Lemma params_none key : params_are x key [] -> no_par x key. Proof. easy. Qed.

(** What there is without a line: a storable value, or nothing if that is allowed. *)
Definition without (f : single) (tys : list vconv) (ok : val -> Prop) (opt : bool) : Prop :=
  In (g_name f) (required c) \/ initial X (g_attr f) = ANone /\ opt = true \/
  exists t v, initial X (g_attr f) = AOne v /\ In t tys /\ (keepable_val X v -> storable_val X t v) /\ ok v /\ ~ is_person t.
Lemma one_storable f tys ok opt : one_read X zs c f its x -> tys = map snd (g_types f) -> rule_ok (g_rule f) ok -> without f tys ok opt ->
  storable_field X x (g_attr f) (One tys ok opt).
Proof.
  intros (ls & OL & R) HY HR HW. destruct ls as [|l [|l' ls]]; [| |contradiction].
  - destruct R as (NR & GA & PA). destruct HW as [I|[[EI ->]|(t & v & EI & IT & SV & OK & NP)]]; [contradiction| |].
    + left. rewrite EI in GA. auto.
    + right. exists t, v. rewrite EI in GA. split; [exact GA|]. split; [exact IT|]. split; [apply SV, (KA _ _ GA)|]. split; [exact OK|].
      split; [now apply params_par with (ps := [])|]. intro P. contradiction.
  - destruct R as (t & v & w & rest & TY & D & KE & GA & PA). right. exists t, w.
    assert (IL : In (ILine l) its) by (apply (only_In _ _ _ OL); now left). pose proof (fine_line l IL) as F.
    destruct (kept_storable _ _ _ _ _ _ _ _ HR F D KE (KA _ _ GA)) as [SV OK].
    split; [exact GA|]. split; [rewrite HY; eapply typed_types; exact TY|]. split; [exact SV|]. split; [exact OK|]. split.
    + apply params_par with (ps := rest); [exact PA|]. intros k I. exact (den_rest _ _ _ _ _ _ F D I).
    + intro P. apply (den_person _ _ _ _ _ D) in P. now subst rest.
Qed.

(** ** Properties with several values *)
Definition MERGE := py "__merge_next".
Lemma set_new {V} k (v : V) d : ~ In k (keys d) -> dict_set k v d = d ++ [(k, v)].
Proof. induction d as [|[j w] d IH]; cbn; [easy|]. intro N. rewrite (proj2 (str_eqb_neq k j)) by (intros ->; tauto). now rewrite IH by tauto. Qed.
Lemma set_last {V} k (v w : V) d : ~ In k (keys d) -> dict_set k v (d ++ [(k, w)]) = d ++ [(k, v)].
Proof. induction d as [|[j u] d IH]; cbn; [now rewrite str_eqb_refl|]. intro N. rewrite (proj2 (str_eqb_neq k j)) by (intros ->; tauto). now rewrite IH by tauto. Qed.
(** Parameters that are [p] but for a note at the end. *)
Definition but_note (p ps : xp) : Prop := ps = p \/ exists w, ps = p ++ [(MERGE, w)].
Lemma note_but p ps w : ~ In MERGE (keys p) -> but_note p ps -> note_as w ps = p ++ [(MERGE, [PRaw w])].
Proof. intros N [-> | (u & ->)]; unfold note_as; [now apply set_new|now apply set_last]. Qed.
Definition unshared (t : vconv) : Prop := t = Text \/ t = Uri \/ t = Binary.
Lemma unshared_rest t s ps v rest : unshared t -> denotes X zs t s ps v rest -> rest = ps.
Proof. intros [-> |[-> | ->]] D; now inversion D. Qed.
Lemma values_marks t p : unshared t -> ~ In MERGE (keys p) -> forall ss ps vs qs, values_read X zs t ss ps vs qs -> but_note p ps -> qs = line_marks p (length vs) /\ vs <> [].
Proof.
  intros U N ss ps vs qs V. induction V as [s ps v rest D|s ss ps v rest vs qs D V IH]; intro B; (apply unshared_rest in D; [|exact U]); subst rest.
  - split; [|easy]. now rewrite (note_but p ps) by assumption.
  - rewrite (note_but p ps) in IH by assumption. destruct IH as [-> NE]; [right; eauto|]. split; [|easy].
    rewrite (note_but p ps) by assumption. destruct vs as [|v' vs]; [congruence|]. reflexivity.
Qed.
Lemma set_keys_in {V} k (v : V) d : In k (keys d) -> keys (dict_set k v d) = keys d.
Proof.
  induction d as [|[j u] d IH]; cbn; [easy|]. intro H. destruct (str_eqb k j) eqn:E1; cbn; [apply str_eqb_eq in E1; congruence|].
  apply str_eqb_neq in E1. f_equal. apply IH. destruct H as [H|H]; [congruence|exact H].
Qed.
Lemma note_split ps w : NoDup (keys ps) -> note_last (note_as w ps) -> exists p, ~ In MERGE (keys p) /\ but_note p ps.
Proof.
  intros ND (p & u & E). destruct (in_dec (list_eq_dec N.eq_dec) MERGE (keys ps)) as [I|I]; [|exists ps; split; [exact I|now left]].
  pose proof (set_keys_in MERGE [PRaw w] ps I) as K.
  unfold note_as in E. fold MERGE in E. rewrite E in K. unfold keys in K. rewrite map_app in K. cbn [map fst] in K.
  destruct (exists_last (l := ps)) as (p' & (k & v) & ->); [intros ->; contradiction|]. rewrite map_app in K. cbn [map fst] in K.
  apply app_inj_tail in K as [_ <-]. exists p'. unfold keys in ND. rewrite map_app in ND. cbn [map fst] in ND. apply NoDup_remove_2 in ND.
  rewrite app_nil_r in ND. split; [exact ND|]. right. now exists v.
Qed.
Lemma but_fine p ps : fine_ps ps -> but_note p ps -> NoDup (keys p) /\ ~ In (py "VALUE") (keys p).
Proof.
  intros [ND NV] [-> | (w & ->)]; [now split|]. unfold keys in *. rewrite map_app in *. cbn [map fst] in *. split.
  - apply NoDup_remove_1 in ND. now rewrite app_nil_r in ND.
  - intro I. apply NV. apply in_or_app. now left.
Qed.
Lemma values_first t ss ps vs qs : values_read X zs t ss ps vs qs -> unshared t -> exists w q, qs = note_as w ps :: q.
Proof. intros V U. destruct V as [s ps v rest D|s ss ps v rest vs qs D V]; (apply unshared_rest in D; [|exact U]); subst rest; eauto. Qed.
Lemma values_keep t ss ps vs qs : unshared t -> values_read X zs t ss ps vs qs -> Forall (fun v => keepable_val X v /\ own_line v) vs ->
  (t <> Text -> Forall (fun s => ~ In 44 s) ss) -> forall v, In v vs -> storable_val X t v /\ listable X t v.
Proof.
  intros U V. induction V as [s ps v rest D|s ss ps v rest vs qs D V IH]; intros K C.
  - intros v' [<-|[]]. inversion_clear K as [|? ? [K1 _] _]. assert (C' : t <> Text -> ~ In 44 s) by (intro NT; specialize (C NT); now inversion C). clear C.
    destruct D; try (now destruct U as [U|[U|U]]); cbn [keepable_val listable] in *; split; try constructor; try easy.
    + apply (te_url X HT) with (s := s); [assumption|now left|]. now apply C'.
    + apply binary_exact in H. pose proof (binary_parse_total s) as B. now rewrite H in B.
  - inversion_clear K as [|? ? K1 K2]. assert (C2 : t <> Text -> Forall (fun s => ~ In 44 s) ss) by (intro NT; specialize (C NT); now inversion C).
    assert (C' : t <> Text -> ~ In 44 s) by (intro NT; specialize (C NT); now inversion C).
    intros v' [<-|I]; [|now apply IH]. clear C C2 IH V K2. destruct K1 as [K1 _].
    destruct D; try (now destruct U as [U|[U|U]]); cbn [keepable_val listable] in *; split; try constructor; try easy.
    + apply (te_url X HT) with (s := s); [assumption|now left|]. now apply C'.
    + apply binary_exact in H. pose proof (binary_parse_total s) as B. now rewrite H in B.
Qed.
Lemma line_storable ts l vs qs : In (ILine l) its -> (forall t, In t (map snd ts) -> unshared t \/ t = Attendee) -> line_read X zs ts l vs qs ->
  Forall (fun v => keepable_val X v /\ own_line v) vs -> Forall note_last qs ->
  exists al, storable_line X (map snd ts) al /\ line_values al = vs /\ line_notes al = qs.
Proof.
  intros IL TS (t & ss & TY & CO & NC & V) K NL. pose proof (fine_line l IL) as F. pose proof (typed_types _ _ _ TY) as IT.
  destruct (TS t IT) as [U| ->].
  - destruct (values_first _ _ _ _ _ V U) as (w & q & ->). destruct (note_split _ w (proj1 F) (Forall_inv NL)) as (p & NP & B).
    destruct (values_marks t p U NP _ _ _ _ V B) as [E NE]. exists (t, p, vs). destruct (but_fine _ _ F B) as [ND NV]. split; [|split; [easy|]].
    + split; [exact IT|]. split; [exact NE|]. split; [now apply (values_keep t ss (dict_del (py "VALUE") (cl_params l)) vs (note_as w (dict_del (py "VALUE") (cl_params l)) :: q))|].
      split; [exact ND|]. split; [exact NV|]. split; [exact NP|]. intros [-> | ->]; now destruct U as [U|[U|U]].
    + unfold line_notes. cbn [fst snd]. now rewrite E.
  - inversion V as [s ps v rest D E1 E2 E3 E4|s ss' ps v rest vs' qs' D V' E1 E2 E3 E4]; subst.
    + inversion D as [| | | | | | | |s0 ps0 u HP E1 E2 E3 E4|]; subst. exists (Attendee, [], [VPerson RAttendee (EUrl u) (dict_del (py "VALUE") (cl_params l))]).
      split; [|now split]. inversion_clear K as [|? ? [K1 K2] _]. cbn [keepable_val own_line] in K1, K2. split; [exact IT|]. split; [easy|]. split.
      * intros v' [<-|[]]. split; [constructor; [exact K1|apply F|apply F]|]. cbn [listable]. apply (te_url X HT) with (s := s); [exact HP|now left|].
        specialize (NC ltac:(discriminate)). now inversion NC.
      * split; [constructor|]. split; [easy|]. split; [easy|]. intros _. now split.
    + exfalso. inversion D; subst. inversion_clear K as [|? ? _ K2]. inversion V' as [s2 ps2 v2 r2 D2 E1 E2 E3 E4|s2 ss2 ps2 v2 r2 vs2 qs2 D2 V2 E1 E2 E3 E4]; subst;
        inversion D2; subst; inversion_clear K2 as [|? ? [_ K3] _]; apply K3; now left.
Qed.
Lemma lines_storable ts ls vs qs : (forall l, In l ls -> In (ILine l) its) -> (forall t, In t (map snd ts) -> unshared t \/ t = Attendee) -> lines_read X zs ts ls vs qs ->
  Forall (fun v => keepable_val X v /\ own_line v) vs -> Forall note_last qs ->
  exists als, Forall (storable_line X (map snd ts)) als /\ flat_map line_values als = vs /\ flat_map line_notes als = qs.
Proof.
  intros IL TS L. induction L as [|l ls vs qs vs' qs' R L IH]; intros K NL; [exists []; now split|].
  apply Forall_app in K as [K1 K2]. apply Forall_app in NL as [N1 N2].
  destruct (line_storable ts l vs qs (IL l (or_introl eq_refl)) TS R K1 N1) as (al & A1 & A2 & A3).
  destruct IH as (als & B1 & B2 & B3); [intros l' I; apply IL; now right|exact K2|exact N2|].
  exists (al :: als). split; [now constructor|]. cbn [flat_map]. split; congruence.
Qed.
Lemma many_storable f : (forall t, In t (map snd (h_types f)) -> unshared t \/ t = Attendee) -> many_read X zs f its x ->
  storable_field X x (h_attr f) (Many (map snd (h_types f))).
Proof.
  intros TS (ls & vs & qs & OL & LR & GA & GP). pose proof (KA _ _ GA) as K. cbn [keepable_attr] in K.
  assert (NL : Forall note_last qs) by (destruct qs; [constructor|]; now apply (KN _ _ GP)).
  destruct (lines_storable _ _ _ _ (fun l => only_In _ _ l OL) TS LR K NL) as (als & A1 & <- & <-). exists als. split; [exact A1|]. split; [exact GA|]. left.
  rewrite GP. destruct als as [|al als]; [reflexivity|]. cbn [flat_map].
  assert (line_notes al <> []) as NE.
  { unfold line_notes, line_marks. destruct (repeat _ _); [easy|]. easy. }
  destruct (line_notes al); [congruence|]. reflexivity.
Qed.
End Comp.
End Again.
