(** * Proofs about time zone definitions made from zone objects *)
From Verif Require Import M_Base M_Text M_Line M_Codec M_Cal M_Time M_Span M_Dt M_Tree M_Comp M_Open M_Rrule M_Zone M_Vtz M_TzConv.
From Verif Require Import S_Text S_Codec S_Line S_Fold S_Dt S_Tree S_Comp S_Store S_Ref S_Wire S_Vtz S_TzConv.
From Verif Require Import P_Base P_Codec P_Dt P_Vtz P_VtzCal.
From Coq Require Import Lia ZifyBool ZifyNat ZifyN.
Open Scope Z_scope.

(** ** UTC *)
Lemma utc_name_iff s : utc_name s = true <-> called_utc s.
Proof.
  unfold utc_name, UTC_NAMES, called_utc. cbn [existsb]. rewrite !orb_true_iff, !str_eqb_eq. intuition discriminate.
Qed.
Lemma is_utc_iff t : is_utc t = true <-> means_utc t.
Proof.
  unfold is_utc. rewrite !orb_true_iff, utc_name_iff. split.
  - intros [[[H|H]|H]|H]; [| | |now apply mu_called].
    + destruct t; try discriminate H; cbn [eq_utc] in H.
      * apply Z.eqb_eq in H as ->. constructor.
      * constructor.
      * apply Z.eqb_eq in H as ->. constructor.
      * subst. constructor.
      * subst. constructor.
    + destruct t; try discriminate H. constructor.
    + destruct t; try discriminate H. apply mu_called. cbn [tz_str]. now apply utc_name_iff.
  - intros H. destruct H; try (now (left; left; left)). now right.
Qed.
Lemma is_utc_false t : is_utc t = false <-> ~ means_utc t.
Proof. rewrite <- is_utc_iff. destruct (is_utc t); intuition congruence. Qed.

(** ** Zones with one offset *)
Lemma fixed_from n off : fixed_at (Timezone_from_offset n off) off (Some n).
Proof. intros before h q w f. unfold Timezone_from_offset. cbn. destruct q; reflexivity. Qed.
Lemma fixed_utc : fixed_at UTC 0 (Some (py "UTC")).
Proof. exact (fixed_from _ _). Qed.

Lemma starts_with_iff p s : starts_with p s = true <-> exists r, s = p ++ r.
Proof.
  revert s. induction p as [|c p IH]; intros s; cbn [starts_with].
  - split; [intros _; now exists s|easy].
  - destruct s as [|d s]; [split; [easy|intros (r & [=])]|].
    rewrite andb_true_iff, N.eqb_eq, IH. split; [intros (-> & r & ->); now exists r|].
    intros (r & [= -> ->]). split; [easy|]. now exists r.
Qed.
Lemma ends_with_iff p s : ends_with p s = true <-> exists r, s = r ++ p.
Proof.
  unfold ends_with. rewrite starts_with_iff. split; intros (r & E).
  - exists (rev r). rewrite <- (rev_involutive s), E, rev_app_distr, rev_involutive. reflexivity.
  - exists (rev r). subst s. now rewrite rev_app_distr.
Qed.

Lemma supported_dec t : supported t \/ ~ supported t.
Proof. destruct t; cbn [supported]; try tauto. destruct (Z.eq_dec off 0); tauto. Qed.

Section Convert.
Variable X : ext.
Variable rule_parse : option Z -> str -> res rule.
Variable date_parse : str -> res Z.
Variable find_file : str -> option str.
Variable windows_to_olson : str -> option str.
Notation convert := (Timezone_from_tzinfo X rule_parse date_parse find_file windows_to_olson).
Notation from_tzid := (Timezone_from_tzid X rule_parse date_parse find_file windows_to_olson).
Notation all := (TIMEZONE_CONVERTERS X rule_parse date_parse find_file windows_to_olson).

Lemma convert_itself z : convert (TIcs z) = Ok (Some z).
Proof. reflexivity. Qed.
Definition is_ics (t : tzinfo) : bool := match t with TIcs _ => true | _ => false end.
Lemma convert_utc t : means_utc t -> is_ics t = false -> convert t = Ok (Some UTC).
Proof.
  intros H N. apply is_utc_iff in H. unfold Timezone_from_tzinfo, from_tzinfo. destruct t; try discriminate N; now rewrite H.
Qed.
Lemma convert_other t : ~ means_utc t -> is_ics t = false -> convert t = try_all all t.
Proof.
  intros H N. apply is_utc_false in H. unfold Timezone_from_tzinfo, from_tzinfo. destruct t; try discriminate N; now rewrite H.
Qed.
Lemma utc_dec t : means_utc t \/ ~ means_utc t.
Proof. rewrite <- is_utc_iff. destruct (is_utc t); [now left|right; easy]. Qed.

(** The result of an object with one offset *)
Lemma convert_fixed t off : own_offset t = Some off -> supported t -> ~ means_utc t ->
  exists n, own_name t = Some n /\ convert t = Ok (Some (Timezone_from_offset n off)).
Proof.
  intros O S U. rewrite (convert_other t U) by (destruct t; easy).
  destruct t; try discriminate O; try contradiction S; injection O as <-.
  - eexists. split; reflexivity.
  - exfalso. apply U. constructor.
  - cbn [supported] in S. subst. exfalso. apply U. constructor.
  - exfalso. apply U. apply mu_called. now left.
  - eexists. split; reflexivity.
  - eexists. split; reflexivity.
Qed.
Lemma convert_unsupported t off : own_offset t = Some off -> ~ supported t -> ~ means_utc t -> convert t = Err ValueError.
Proof.
  intros O S U. rewrite (convert_other t U) by (destruct t; easy).
  destruct t; try discriminate O; try (exfalso; apply S; exact I); reflexivity.
Qed.
Lemma honest_utc t off : own_offset t = Some off -> honest t -> means_utc t -> off = 0.
Proof.
  intros O H U. destruct U; try (injection O as <-; reflexivity); try discriminate O. apply (H _ O). now left.
Qed.
Lemma own_no_ics t off : own_offset t = Some off -> is_ics t = false.
Proof. now destruct t. Qed.

Theorem convert_offset t off z : own_offset t = Some off -> honest t -> convert t = Ok (Some z) ->
  exists n, fixed_at z off (Some n) /\ t_id z = n.
Proof.
  intros O H E. destruct (utc_dec t) as [U|U].
  - rewrite (convert_utc t U (own_no_ics t off O)) in E. injection E as <-.
    rewrite (honest_utc t off O H U). exists (py "UTC"). split; [exact fixed_utc|reflexivity].
  - destruct (supported_dec t) as [S|S].
    + destruct (convert_fixed t off O S U) as (n & _ & E'). rewrite E' in E. injection E as <-.
      exists n. split; [apply fixed_from|reflexivity].
    + rewrite (convert_unsupported t off O S U) in E. discriminate E.
Qed.
Theorem convert_name t off z : own_offset t = Some off -> convert t = Ok (Some z) -> ~ means_utc t ->
  own_name t = Some (t_id z).
Proof.
  intros O E U. destruct (supported_dec t) as [S|S].
  - destruct (convert_fixed t off O S U) as (n & N & E'). rewrite E' in E. injection E as <-. exact N.
  - rewrite (convert_unsupported t off O S U) in E. discriminate E.
Qed.
Theorem convert_supported t off : own_offset t = Some off -> supported t \/ means_utc t -> exists z, convert t = Ok (Some z).
Proof.
  intros O H. destruct (utc_dec t) as [U|U].
  - exists UTC. exact (convert_utc t U (own_no_ics t off O)).
  - destruct H as [S|H]; [|easy]. destruct (convert_fixed t off O S U) as (n & _ & E). eauto.
Qed.

(** The zone of the computer, zones with a name *)
Lemma local_file n : (exists p, n = p ++ py "localtime") \/ (forall p, n <> p ++ py "localtime").
Proof.
  destruct (ends_with (py "localtime") n) eqn:E.
  - left. apply ends_with_iff in E as (p & ->). eauto.
  - right. intros p ->. apply Bool.not_true_iff_false in E. apply E, ends_with_iff. eauto.
Qed.
Lemma rmap_none {A B} (r : res A) (f : A -> B) : (forall a, r <> Ok a) -> forall b, rmap f r <> Ok b.
Proof. destruct r; cbn [rmap]; [intros H; now destruct (H a)|easy]. Qed.
Lemma try_named n fs : try_all ((fun _ => rmap RZone (from_tzid n)) :: fs) (TUtilWin [] []) = rmap Some (from_tzid n).
Proof. cbn [try_all]. now destruct (from_tzid n). Qed.
Theorem convert_named t n : named t n -> ~ means_utc t -> convert t = rmap Some (from_tzid n).
Proof.
  intros N U. rewrite (convert_other t U) by (now destruct N).
  destruct N as [n text H|n text H L|n text].
  - unfold TIMEZONE_CONVERTERS. cbn [try_all from_builtin]. destruct n as [|c n]; [easy|]. now destruct (from_tzid (c :: n)).
  - unfold TIMEZONE_CONVERTERS. cbn [try_all from_builtin from_dateutil bind]. destruct n as [|c n]; [easy|].
    destruct (ends_with (py "localtime") (c :: n)) eqn:E; [|now destruct (from_tzid (c :: n))].
    apply ends_with_iff in E as (p & E). now destruct (L p).
  - unfold TIMEZONE_CONVERTERS. cbn [try_all from_builtin from_dateutil bind]. now destruct (from_tzid n).
Qed.
Theorem convert_local t : convert t = Ok None <-> stands_for_local t /\ ~ means_utc t.
Proof.
  split.
  - intros E. destruct (is_ics t) eqn:I; [destruct t; discriminate|].
    destruct (utc_dec t) as [U|U]; [rewrite (convert_utc t U I) in E; discriminate E|]. split; [|exact U].
    assert (forall n, named t n -> False) as NN.
    { intros n N. rewrite (convert_named t n N U) in E. now destruct (from_tzid n). }
    rewrite (convert_other t U I) in E. unfold TIMEZONE_CONVERTERS in E.
    destruct t; try discriminate E; try (now constructor).
    + destruct key as [[|c k]|]; try discriminate E. exfalso. apply (NN (c :: k)). now constructor.
    + destruct file as [[|c k]|]; try discriminate E. destruct (local_file (c :: k)) as [(p & ->)|L]; [constructor|].
      exfalso. apply (NN (c :: k)). now constructor.
    + exfalso. apply (NN name). constructor.
  - intros (L & U). rewrite (convert_other t U) by (now destruct L).
    destruct L as [p text|text|b text|text]; try reflexivity.
    unfold TIMEZONE_CONVERTERS. cbn [try_all from_builtin from_dateutil bind].
    assert (ends_with (py "localtime") (p ++ py "localtime") = true) as E by (apply ends_with_iff; now exists p).
    destruct (p ++ py "localtime") as [|c k] eqn:F; [now destruct p|]. rewrite E. reflexivity.
Qed.
Theorem convert_error t e : convert t = Err e -> e = ValueError \/ exists n, named t n /\ from_tzid n = Err e.
Proof.
  intros E. destruct (is_ics t) eqn:I; [destruct t; discriminate|].
  destruct (utc_dec t) as [U|U]; [rewrite (convert_utc t U I) in E; discriminate E|].
  assert ((exists n, named t n) \/ forall n, ~ named t n) as [(n & N)|NN].
  { destruct t; try (right; intros n N; inversion N; fail).
    - destruct key as [[|c k]|]; [right; intros n N; now inversion N| |right; intros n N; inversion N].
      left. exists (c :: k). now constructor.
    - destruct file as [[|c k]|]; [right; intros n N; now inversion N| |right; intros n N; inversion N].
      destruct (local_file (c :: k)) as [(p & L)|L]; [|left; exists (c :: k); now constructor].
      right. intros n N. inversion N; subst. match goal with H : forall p, _ <> _ |- _ => exact (H p L) end.
    - left. exists name. constructor. }
  - right. exists n. split; [exact N|]. rewrite (convert_named t n N U) in E. destruct (from_tzid n); [discriminate E|]. now injection E as ->.
  - left. rewrite (convert_other t U I) in E. unfold TIMEZONE_CONVERTERS in E.
    destruct t; try discriminate E; try (now injection E as <-).
    + destruct key as [[|c k]|]; try (now injection E as <-). exfalso. apply (NN (c :: k)). now constructor.
    + destruct file as [[|c k]|]; try (now injection E as <-). destruct (local_file (c :: k)) as [(p & F)|L].
      * cbn [try_all from_builtin from_dateutil bind] in E.
        assert (ends_with (py "localtime") (c :: k) = true) as F' by (apply ends_with_iff; now exists p).
        rewrite F' in E. discriminate E.
      * exfalso. apply (NN (c :: k)). now constructor.
    + exfalso. apply (NN name). constructor.
Qed.

(** What is in the data base *)
Lemma tz_file_iff n txt : tz_file find_file windows_to_olson n = Some txt <-> file_for find_file windows_to_olson n txt.
Proof.
  unfold tz_file. split.
  - destruct (find_file n) as [f|] eqn:E; [intros [= ->]; now left|].
    destruct (windows_to_olson n) as [o|] eqn:F; [|easy]. intros G. now right with o.
  - intros [-> | o -> -> E]; [reflexivity|exact E].
Qed.
Theorem from_tzid_iff n z : from_tzid n = Ok z <->
  exists txt its, file_for find_file windows_to_olson n txt /\ holds_zone txt its /\
    load_zone X rule_parse date_parse (py "VTIMEZONE") its = Ok z.
Proof.
  unfold Timezone_from_tzid. split.
  - destruct (tz_file find_file windows_to_olson n) as [txt|] eqn:E; [|easy]. apply tz_file_iff in E. intros H.
    destruct (string_to_containers txt) as [[|c [|c' l]] [e|]] eqn:F; cbn [one bind] in H; try discriminate H.
    destruct c as [l|c [|a [|b [|d [|d' r]]]]]; try discriminate H.
    + destruct d as [l|v its]; [destruct (str_eqb (cl_name l) (py "VTIMEZONE")); discriminate H|].
      destruct (str_eqb v (py "VTIMEZONE")) eqn:G; [|discriminate H]. apply str_eqb_eq in G. subst v.
      exists txt, its. split; [exact E|]. split; [|exact H]. exists c, a, b. exact F.
    + destruct d; discriminate H.
  - intros (txt & its & E & (c & a & b & F) & H). apply tz_file_iff in E. rewrite E, F. cbn [one bind].
    rewrite str_eqb_refl. exact H.
Qed.
Theorem from_tzid_unknown n : (forall txt, ~ file_for find_file windows_to_olson n txt) -> from_tzid n = Err ValueError.
Proof.
  intros H. unfold Timezone_from_tzid. destruct (tz_file find_file windows_to_olson n) as [txt|] eqn:E; [|reflexivity].
  apply tz_file_iff in E. now destruct (H txt).
Qed.

(** The context *)
Theorem run_same ts c : run X rule_parse date_parse find_file windows_to_olson ts c = map convert ts.
Proof.
  revert c. induction ts as [|t ts IH]; intros c; [reflexivity|]. cbn [run map].
  assert (fst (from_tzinfo X rule_parse date_parse find_file windows_to_olson t c) = convert t) as E.
  { unfold Timezone_from_tzinfo, from_tzinfo. destruct t; try reflexivity; destruct (is_utc _); reflexivity. }
  destruct (from_tzinfo X rule_parse date_parse find_file windows_to_olson t c) as [r c']. cbn [fst] in E. now rewrite E, IH.
Qed.

(** Definitions of the data base *)
Variable PREFIX : str.
Lemma builtin_iff z : is_builtin PREFIX z = true <-> called_utc (t_id z) \/ exists r, t_id z = PREFIX ++ r.
Proof.
  unfold is_builtin. rewrite orb_true_iff, is_utc_iff, starts_with_iff. split; (intros [H|H]; [left|now right]).
  - remember (TIcs z) as t eqn:T. destruct H; try discriminate T. now subst t.
  - now apply mu_called.
Qed.
Theorem to_builtin_same z : called_utc (t_id z) \/ (exists r, t_id z = PREFIX ++ r) ->
  to_builtin X rule_parse date_parse find_file windows_to_olson PREFIX z = Ok z.
Proof. intros H. apply builtin_iff in H. unfold to_builtin. now rewrite H. Qed.
Theorem to_builtin_other z : ~ (called_utc (t_id z) \/ exists r, t_id z = PREFIX ++ r) ->
  to_builtin X rule_parse date_parse find_file windows_to_olson PREFIX z = from_tzid (t_id z).
Proof.
  intros H. unfold to_builtin. destruct (is_builtin PREFIX z) eqn:E; [|reflexivity]. apply builtin_iff in E. now destruct H.
Qed.
Theorem to_builtin_twice z z' : (forall n y, from_tzid n = Ok y -> exists r, t_id y = PREFIX ++ r) ->
  to_builtin X rule_parse date_parse find_file windows_to_olson PREFIX z = Ok z' ->
  to_builtin X rule_parse date_parse find_file windows_to_olson PREFIX z' = Ok z'.
Proof.
  intros H E. unfold to_builtin in E. destruct (is_builtin PREFIX z) eqn:B.
  - injection E as <-. unfold to_builtin. now rewrite B.
  - apply to_builtin_same. right. exact (H _ _ E).
Qed.
End Convert.
