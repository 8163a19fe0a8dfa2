(** * Proofs for C74: values taken for points in time and lengths of time *)
From Verif Require Import M_Base M_Codec M_Cal M_Time M_Span M_Event S_Assign P_Base P_Span.
From Coq Require Import Lia ZifyBool ZifyNat ZifyN.
Open Scope Z_scope.

(** ** Arguments *)
Lemma passes_tuple ps l i k x : NoDup ps -> nth_error ps i = Some k -> (passes ps (VTuple l) k x <-> nth_error l i = Some x).
Proof.
  intros ND Hi. split.
  - intros (j & Hj & Hx). assert (j = i); [|now subst].
    apply (proj1 (NoDup_nth_error ps) ND); [apply nth_error_Some; congruence|congruence].
  - intros Hx. now exists i.
Qed.
Lemma passes_dict ps d i k x : nth_error ps i = Some k -> (passes ps (VDict d) k x <-> dict_get k d = Some x).
Proof. intros Hi. cbn [passes]. apply nth_error_In in Hi. tauto. Qed.
Lemma passes_in ps v k x : passes ps v k x -> In k ps.
Proof. destruct v; cbn [passes]; try easy. intros (i & H & _). now apply nth_error_In in H. Qed.
Lemma passes_one ps v k x y : NoDup ps -> passes ps v k x -> passes ps v k y -> x = y.
Proof.
  intros ND H1 H2. destruct v; cbn [passes] in *; try easy; [|destruct H1, H2; congruence].
  destruct H1 as (i & I1 & I2), H2 as (j & J1 & J2). assert (i = j); [|subst; congruence].
  apply (proj1 (NoDup_nth_error ps) ND); [apply nth_error_Some; congruence|congruence].
Qed.
Lemma number_one ps v k n m : NoDup ps -> number_of ps v k n -> number_of ps v k m -> n = m.
Proof.
  intros ND [H1|[H1 ->]] [H2|[H2 ->]]; try easy; [|now apply H2 in H1|now apply H1 in H2].
  pose proof (passes_one _ _ _ _ _ ND H1 H2). congruence.
Qed.
Lemma nodup_dec (l : list (list N)) : (fix nd l := match l with [] => true | x :: l' => negb (existsb (str_eqb x) l') && nd l' end) l = true -> NoDup l.
Proof.
  induction l as [|x l IH]; intros H; [constructor|]. apply andb_true_iff in H as [H1 H2]. constructor; [|now apply IH].
  intros I. apply negb_true_iff in H1. assert (existsb (str_eqb x) l = true); [|congruence].
  apply existsb_exists. exists x. split; [exact I|apply str_eqb_refl].
Qed.
Lemma dt_params_nodup v : NoDup (dt_params v).
Proof. destruct v; apply nodup_dec; reflexivity. Qed.
Lemma td_params_nodup : NoDup td_params.
Proof. apply nodup_dec. reflexivity. Qed.

(** ** datetime *)
Lemma bad_one v k e e' : bad_arg v k e -> bad_arg v k e' -> e = e'.
Proof.
  pose proof (dt_params_nodup v) as ND. intros [H1 H2|x H1 H2|n H1 H2] [H3 H4|y H3 H4|m H3 H4]; try easy.
  - now apply H2 in H3.
  - pose proof (passes_one _ _ _ _ _ ND H1 H3). now apply H2 in H.
  - now apply H4 in H1.
  - pose proof (passes_one _ _ _ _ _ ND H1 H3). symmetry in H. now apply H4 in H.
Qed.
Lemma dt_made_one v r r' : dt_made v r -> dt_made v r' -> r = r'.
Proof.
  pose proof (dt_params_nodup v) as ND.
  assert (GB : forall pre k post e, dt_ints = pre ++ k :: post -> bad_arg v k e -> ~ Forall (good_arg v) dt_ints).
  { intros pre k post e HD HB HF. rewrite HD in HF. apply Forall_app in HF as [_ HF]. inversion_clear HF. now apply (H e). }
  assert (NN : forall y m d hh mi ss us fo y' m' d' hh' mi' ss' us' fo', dt_numbers v y m d hh mi ss us fo ->
    dt_numbers v y' m' d' hh' mi' ss' us' fo' -> (y, m, d, hh, mi, ss, us, fo) = (y', m', d', hh', mi', ss', us', fo')).
  { intros * [] []. repeat f_equal; eapply number_one; eassumption. }
  intros H H'. destruct H as [S1|pre k post e S1 D1 F1 B1|S1 F1 X1|y m d hh mi ss us fo S1 F1 X1 N1 C1|y m d hh mi ss us fo S1 F1 X1 N1 C1 Z1|y m d hh mi ss us fo z S1 F1 X1 N1 C1 Z1];
  destruct H' as [S2|pre' k' post' e' S2 D2 F2 B2|S2 F2 X2|y' m' d' hh' mi' ss' us' fo' S2 F2 X2 N2 C2|y' m' d' hh' mi' ss' us' fo' S2 F2 X2 N2 C2 Z2|y' m' d' hh' mi' ss' us' fo' z' S2 F2 X2 N2 C2 Z2];
  try reflexivity; try (exfalso; lia); try (exfalso; eapply GB; eassumption); try (exfalso; tauto);
  try (specialize (NN _ _ _ _ _ _ _ _ _ _ _ _ _ _ _ _ N1 N2); injection NN as <- <- <- <- <- <- <- <-);
  try (exfalso; tauto); try (exfalso; eapply Z1; eassumption); try (exfalso; eapply Z2; eassumption).
  - f_equal. assert (L : length pre = length pre' \/ (length pre < length pre' \/ length pre' < length pre)%nat) by lia.
    rewrite D1 in D2. destruct L as [L|[L|L]].
    + assert (K : k = k'). { assert (E : nth_error (pre ++ k :: post) (length pre) = nth_error (pre' ++ k' :: post') (length pre)) by now rewrite D2.
        rewrite L in E at 2. rewrite !nth_error_app2, !Nat.sub_diag in E by lia. now injection E. }
      subst k'. now apply (bad_one v k).
    + exfalso. assert (I : In k pre'). { assert (E : nth_error (pre ++ k :: post) (length pre) = nth_error (pre' ++ k' :: post') (length pre)) by now rewrite D2.
        rewrite nth_error_app2, Nat.sub_diag, nth_error_app1 in E by lia. symmetry in E. now apply nth_error_In in E. }
      rewrite Forall_forall in F2. now apply (F2 k I e).
    + exfalso. assert (I : In k' pre). { assert (E : nth_error (pre ++ k :: post) (length pre') = nth_error (pre' ++ k' :: post') (length pre')) by now rewrite D2.
        rewrite (nth_error_app2 pre'), Nat.sub_diag, nth_error_app1 in E by lia. now apply nth_error_In in E. }
      rewrite Forall_forall in F1. now apply (F1 k' I e').
  - f_equal. f_equal. destruct z as [z|], z' as [z'|]; cbn [zone_of] in *; try easy.
    + pose proof (passes_one _ _ _ _ _ ND Z1 Z2). congruence.
    + now apply Z2 in Z1.
    + now apply Z1 in Z2.
Qed.

(** One conversion. *)
Definition conv (req : bool) (a : option val) : res Z := if req then c_req a else c_opt a.
Lemma conv_cases v k req a : (forall x, dt_passes v k x <-> a = Some x) -> (In k [py "year"; py "month"; py "day"] <-> req = true) ->
  match conv req a with
  | Ok n => good_arg v k /\ number_of (dt_params v) v k n
  | Err e => bad_arg v k e
  end.
Proof.
  intros HA HR. assert (T : forall x, a = Some x -> (forall n, x <> VInt n) -> bad_arg v k TypeError).
  { intros x -> H. apply (BA_type v k x); [now apply HA|exact H]. }
  destruct a as [x|].
  - destruct x; try (destruct req; cbn; refine (T _ eq_refl _); discriminate).
    assert (P : dt_passes v k (VInt n)) by now apply HA.
    unfold conv, c_req, c_opt, c_int. destruct ((-2147483648 <=? n) && (n <=? 2147483647)) eqn:R.
    + assert (G : good_arg v k /\ number_of (dt_params v) v k n).
      { split; [|now left]. intros e [_ B|x B1 B2|m B1 B2].
        - now apply B in P.
        - pose proof (passes_one _ _ _ _ _ (dt_params_nodup v) P B1). symmetry in H. now apply B2 in H.
        - pose proof (passes_one _ _ _ _ _ (dt_params_nodup v) P B1). injection H as <-. apply B2. change (2 ^ 31) with 2147483648. lia. }
      now destruct req.
    + assert (G : bad_arg v k OverflowError). { apply (BA_range v k n P). change (2 ^ 31) with 2147483648. lia. }
      now destruct req.
  - assert (P : forall x, ~ dt_passes v k x) by (intros x H; apply HA in H; discriminate).
    destruct req; cbn.
    + now apply BA_missing; [apply HR|].
    + split; [|now right]. intros e [B _|x B _|m B _]; [apply HR in B; discriminate|now apply P in B|now apply P in B].
Qed.

Lemma dt_new_made v a bad : (size v <= 9)%nat ->
  (forall i k, nth_error (dt_positions ++ [py "fold"]) i = Some k -> forall x, dt_passes v k x <-> a i = Some x) ->
  (surplus (dt_params v) 8 v <-> bad = true) ->
  dt_made v (datetime_new a bad).
Proof.
  intros HS HA HB. unfold datetime_new.
  pose proof (conv_cases v (py "year") true (a 0%nat) (HA 0%nat _ eq_refl) ltac:(cbn; tauto)) as C0.
  pose proof (conv_cases v (py "month") true (a 1%nat) (HA 1%nat _ eq_refl) ltac:(cbn; tauto)) as C1.
  pose proof (conv_cases v (py "day") true (a 2%nat) (HA 2%nat _ eq_refl) ltac:(cbn; tauto)) as C2.
  assert (NI : forall k, existsb (str_eqb k) [py "year"; py "month"; py "day"] = false -> (In k [py "year"; py "month"; py "day"] <-> false = true)).
  { intros k H. split; [|discriminate]. intros I. rewrite <- H. apply existsb_exists. exists k. split; [exact I|apply str_eqb_refl]. }
  pose proof (conv_cases v (py "hour") false (a 3%nat) (HA 3%nat _ eq_refl) (NI (py "hour") eq_refl)) as C3.
  pose proof (conv_cases v (py "minute") false (a 4%nat) (HA 4%nat _ eq_refl) (NI (py "minute") eq_refl)) as C4.
  pose proof (conv_cases v (py "second") false (a 5%nat) (HA 5%nat _ eq_refl) (NI (py "second") eq_refl)) as C5.
  pose proof (conv_cases v (py "microsecond") false (a 6%nat) (HA 6%nat _ eq_refl) (NI (py "microsecond") eq_refl)) as C6.
  pose proof (conv_cases v (py "fold") false (a 8%nat) (HA 8%nat _ eq_refl) (NI (py "fold") eq_refl)) as C8.
  unfold conv in *.
  destruct (c_req (a 0%nat)) as [y|e]; cbn [bind]; [destruct C0 as [G0 N0]|now apply (DM_bad v [] (py "year") (skipn 1 dt_ints))].
  destruct (c_req (a 1%nat)) as [m|e]; cbn [bind]; [destruct C1 as [G1 N1]|apply (DM_bad v (firstn 1 dt_ints) (py "month") (skipn 2 dt_ints)); [easy|reflexivity|repeat constructor; assumption|easy]].
  destruct (c_req (a 2%nat)) as [d|e]; cbn [bind]; [destruct C2 as [G2 N2]|apply (DM_bad v (firstn 2 dt_ints) (py "day") (skipn 3 dt_ints)); [easy|reflexivity|repeat constructor; assumption|easy]].
  destruct (c_opt (a 3%nat)) as [hh|e]; cbn [bind]; [destruct C3 as [G3 N3]|apply (DM_bad v (firstn 3 dt_ints) (py "hour") (skipn 4 dt_ints)); [easy|reflexivity|repeat constructor; assumption|easy]].
  destruct (c_opt (a 4%nat)) as [mi|e]; cbn [bind]; [destruct C4 as [G4 N4]|apply (DM_bad v (firstn 4 dt_ints) (py "minute") (skipn 5 dt_ints)); [easy|reflexivity|repeat constructor; assumption|easy]].
  destruct (c_opt (a 5%nat)) as [ss|e]; cbn [bind]; [destruct C5 as [G5 N5]|apply (DM_bad v (firstn 5 dt_ints) (py "second") (skipn 6 dt_ints)); [easy|reflexivity|repeat constructor; assumption|easy]].
  destruct (c_opt (a 6%nat)) as [us|e]; cbn [bind]; [destruct C6 as [G6 N6]|apply (DM_bad v (firstn 6 dt_ints) (py "microsecond") (skipn 7 dt_ints)); [easy|reflexivity|repeat constructor; assumption|easy]].
  destruct (c_opt (a 8%nat)) as [fo|e]; cbn [bind]; [destruct C8 as [G8 N8]|apply (DM_bad v (firstn 7 dt_ints) (py "fold") []); [easy|reflexivity|repeat constructor; assumption|easy]].
  assert (GA : Forall (good_arg v) dt_ints) by (repeat constructor; assumption).
  destruct bad; cbn [guard bind]; [apply DM_surplus; [easy|easy|now apply HB]|].
  assert (NX : ~ surplus (dt_params v) 8 v) by (intros X; apply HB in X; discriminate).
  assert (NU : dt_numbers v y m d hh mi ss us fo) by (constructor; assumption).
  destruct (valid_date y m d && valid_time hh mi ss us && (0 <=? fo) && (fo <=? 1)) eqn:EV; cbn [negb guard bind].
  - assert (OC : on_calendar y m d hh mi ss us fo).
    { unfold on_calendar, valid_date, valid_time in *. change (10 ^ 6) with 1000000. lia. }
    pose proof (HA 7%nat _ eq_refl) as H7.
    assert (NZ : forall x, a 7%nat = Some x -> x <> VNone -> (forall z, x <> VTz z) -> dt_made v (Err TypeError)).
    { intros x HX X1 X2. apply (DM_zone v y m d hh mi ss us fo); try assumption. apply H7 in HX. intros [z|] HZ; cbn [zone_of] in HZ.
      - pose proof (passes_one _ _ _ _ _ (dt_params_nodup v) HX HZ). now apply X2 in H.
      - now apply HZ in HX. }
    destruct (a 7%nat) as [x|].
    + destruct x; cbn [bind]; try (apply (NZ _ eq_refl); discriminate).
      * apply (DM_ok v y m d hh mi ss us fo None); try assumption. intros x HX. apply H7 in HX. congruence.
      * apply (DM_ok v y m d hh mi ss us fo (Some z)); try assumption. cbn [zone_of]. now apply H7.
    + cbn [bind]. apply (DM_ok v y m d hh mi ss us fo None); try assumption. intros x HX. apply H7 in HX. discriminate.
  - apply (DM_off v y m d hh mi ss us fo); try assumption. unfold on_calendar, valid_date, valid_time in *. change (10 ^ 6) with 1000000. lia.
Qed.

Lemma unnamed_spec ps d : unnamed ps d = true <-> exists k, In k (keys d) /\ ~ In k ps.
Proof.
  unfold unnamed. rewrite negb_true_iff. split.
  - intros H. assert (HE : existsb (fun k => negb (existsb (str_eqb k) ps)) (keys d) = true).
    { induction (keys d) as [|k l IH]; [discriminate|]. cbn [forallb existsb] in *. destruct (existsb (str_eqb k) ps); [|reflexivity]. now apply IH. }
    apply existsb_exists in HE as (k & I & HK). exists k. split; [exact I|]. intros I2. apply negb_true_iff in HK.
    assert (existsb (str_eqb k) ps = true); [|congruence]. apply existsb_exists. exists k. split; [exact I2|apply str_eqb_refl].
  - intros (k & I & NI). destruct (forallb _ _) eqn:EF; [|reflexivity]. rewrite forallb_forall in EF. specialize (EF k I).
    apply existsb_exists in EF as (k2 & I2 & HK). apply str_eqb_eq in HK as ->. now apply NI in I2.
Qed.

Lemma dt_tuple_made l : dt_made (VTuple l) (datetime_of_tuple l).
Proof.
  unfold datetime_of_tuple. destruct (Nat.ltb 9 (length l)) eqn:EL; [apply DM_many; cbn; lia|]. apply dt_new_made; [cbn; lia| |cbn [surplus dt_params]; lia].
  intros i k Hi x. unfold dt_passes. cbn [dt_params]. destruct (Nat.ltb i 8) eqn:E8.
  - assert (Hk : nth_error dt_positions i = Some k). { rewrite nth_error_app1 in Hi; [exact Hi|cbn; lia]. }
    apply passes_tuple; [exact (dt_params_nodup (VTuple l))|exact Hk].
  - split; [|discriminate]. assert (i = 8%nat). { assert (L : (i < 9)%nat) by (apply (nth_error_Some (dt_positions ++ [py "fold"])); congruence). lia. }
    subst i. injection Hi as <-. intros H. apply passes_in in H. cbn in H. intuition discriminate.
Qed.
Lemma dt_dict_made d : dt_made (VDict d) (datetime_of_dict d).
Proof.
  unfold datetime_of_dict. destruct (Nat.ltb 9 (length d)) eqn:EL; [apply DM_many; cbn; lia|]. apply dt_new_made; [cbn [size]; lia| |].
  - intros i k Hi x. unfold dt_passes, by_name. change DATETIME_ARGS with (dt_positions ++ [py "fold"]). rewrite Hi. now apply (passes_dict _ _ i).
  - cbn [surplus]. change DATETIME_ARGS with (dt_params (VDict d)). symmetry. apply unnamed_spec.
Qed.

Lemma dt_meant_exists v : dt_meant v (ensure_datetime v).
Proof.
  destruct v; cbn [ensure_datetime]; try (apply DT_other; easy); try constructor.
  - pose proof (dt_tuple_made l) as H. destruct (datetime_of_tuple l); cbn [rmap bind]; now constructor.
  - pose proof (dt_dict_made l) as H. destruct (datetime_of_dict l); cbn [rmap bind]; now constructor.
Qed.
Lemma dt_meant_one v r r' : dt_meant v r -> dt_meant v r' -> r = r'.
Proof.
  intros H H'. destruct H as [|d|w|v d C M|v e C M|v C N1 N2 N3]; inversion H' as [|d'|w'|v' d' C' M'|v' e' C' M'|v' C' N1' N2' N3']; subst; try easy;
  try (pose proof (dt_made_one _ _ _ M M') as Q; try congruence); exfalso; try (now apply N2 with d'); try (now apply N3 with w'); try (now apply N2' with d); try (now apply N3' with w); now apply N1.
Qed.
Lemma dt_meant_iff v r : ensure_datetime v = r <-> dt_meant v r.
Proof. split; [intros <-; apply dt_meant_exists|intros H; now apply (dt_meant_one v); [apply dt_meant_exists|]]. Qed.

(** ** timedelta *)
Lemma td_made_one v r r' : td_made v r -> td_made v r' -> r = r'.
Proof.
  pose proof td_params_nodup as ND.
  assert (TY : forall k x d s us ms mi hh w, passes td_params v k x -> (forall n, x <> VInt n) ->
      number_of td_params v (py "days") d -> number_of td_params v (py "seconds") s ->
      number_of td_params v (py "microseconds") us -> number_of td_params v (py "milliseconds") ms ->
      number_of td_params v (py "minutes") mi -> number_of td_params v (py "hours") hh ->
      number_of td_params v (py "weeks") w -> False).
  { intros k x d s us ms mi hh w P X N1 N2 N3 N4 N5 N6 N7. pose proof (passes_in _ _ _ _ P) as I.
    assert (Q : forall n, number_of td_params v k n -> False).
    { intros n [P'|[P' _]]; [pose proof (passes_one _ _ _ _ _ ND P P') as E; now apply X in E|now apply P' in P]. }
    destruct I as [<-|[<-|[<-|[<-|[<-|[<-|[<-|[]]]]]]]]; eauto. }
  intros [S1|k x P1 X1|d s us ms mi hh w T NS N1 N2 N3 N4 N5 N6 N7 ->] [S2|k' x' P2 X2|d' s' us' ms' mi' hh' w' T' NS' N1' N2' N3' N4' N5' N6' N7' ->]; try easy;
  try (exfalso; eapply TY; eassumption).
  rewrite (number_one _ _ _ _ _ ND N1 N1'), (number_one _ _ _ _ _ ND N2 N2'), (number_one _ _ _ _ _ ND N3 N3'), (number_one _ _ _ _ _ ND N4 N4'),
    (number_one _ _ _ _ _ ND N5 N5'), (number_one _ _ _ _ _ ND N6 N6'), (number_one _ _ _ _ _ ND N7 N7'). reflexivity.
Qed.
Lemma td_arg_cases v k a u : (forall x, passes td_params v k x <-> a = Some x) ->
  match td_arg a u with
  | Ok n => exists m, n = m * u /\ number_of td_params v k m
  | Err e => e = TypeError /\ exists x, passes td_params v k x /\ forall n, x <> VInt n
  end.
Proof.
  intros HA. destruct a as [x|]; cbn [td_arg].
  - assert (P : passes td_params v k x) by now apply HA. destruct x; try (split; [reflexivity|]; eexists; split; [exact P|discriminate]).
    exists n. split; [reflexivity|now left].
  - exists 0. split; [reflexivity|]. right. split; [|reflexivity]. intros x H. apply HA in H. discriminate.
Qed.
Lemma td_new_made v a bad : (forall i k, nth_error td_params i = Some k -> forall x, passes td_params v k x <-> a i = Some x) ->
  (surplus td_params 7 v <-> bad = true) -> td_made v (timedelta_new a bad).
Proof.
  intros HA HB. unfold timedelta_new. destruct bad; cbn [guard bind]; [now apply TM_surplus, HB|].
  assert (NX : ~ surplus td_params 7 v) by (intros X; apply HB in X; discriminate).
  pose proof (td_arg_cases v _ _ US_DAY (HA 0%nat _ eq_refl)) as C0. destruct (td_arg (a 0%nat) _) as [d|e]; cbn [bind]; [destruct C0 as (d' & -> & N0)|destruct C0 as (-> & x & P & Q); now apply (TM_type v _ x P)].
  pose proof (td_arg_cases v _ _ US_SEC (HA 1%nat _ eq_refl)) as C1. destruct (td_arg (a 1%nat) _) as [s|e]; cbn [bind]; [destruct C1 as (s' & -> & N1)|destruct C1 as (-> & x & P & Q); now apply (TM_type v _ x P)].
  pose proof (td_arg_cases v _ _ 1 (HA 2%nat _ eq_refl)) as C2. destruct (td_arg (a 2%nat) _) as [us|e]; cbn [bind]; [destruct C2 as (us' & -> & N2)|destruct C2 as (-> & x & P & Q); now apply (TM_type v _ x P)].
  pose proof (td_arg_cases v _ _ 1000 (HA 3%nat _ eq_refl)) as C3. destruct (td_arg (a 3%nat) _) as [ms|e]; cbn [bind]; [destruct C3 as (ms' & -> & N3)|destruct C3 as (-> & x & P & Q); now apply (TM_type v _ x P)].
  pose proof (td_arg_cases v _ _ (60 * US_SEC) (HA 4%nat _ eq_refl)) as C4. destruct (td_arg (a 4%nat) _) as [mi|e]; cbn [bind]; [destruct C4 as (mi' & -> & N4)|destruct C4 as (-> & x & P & Q); now apply (TM_type v _ x P)].
  pose proof (td_arg_cases v _ _ (3600 * US_SEC) (HA 5%nat _ eq_refl)) as C5. destruct (td_arg (a 5%nat) _) as [hh|e]; cbn [bind]; [destruct C5 as (hh' & -> & N5)|destruct C5 as (-> & x & P & Q); now apply (TM_type v _ x P)].
  pose proof (td_arg_cases v _ _ (7 * US_DAY) (HA 6%nat _ eq_refl)) as C6. destruct (td_arg (a 6%nat) _) as [w|e]; cbn [bind]; [destruct C6 as (w' & -> & N6)|destruct C6 as (-> & x & P & Q); now apply (TM_type v _ x P)].
  unfold timedelta. apply (TM_sum v d' s' us' ms' mi' hh' w'); try assumption.
  change US_DAY with 86400000000. change US_SEC with 1000000. change (10 ^ 6) with 1000000. lia.
Qed.
Lemma td_meant_exists v : td_meant v (ensure_timedelta v).
Proof.
  destruct v; cbn [ensure_timedelta]; try (apply TD_other; easy); try constructor.
  - assert (H : td_made (VTuple l) (timedelta_of_tuple l)).
    { apply td_new_made; [|cbn [surplus]; lia]. intros i k Hi x. apply passes_tuple; [exact td_params_nodup|exact Hi]. }
    destruct (timedelta_of_tuple l); cbn [rmap bind]; now constructor.
  - assert (H : td_made (VDict l) (timedelta_of_dict l)).
    { apply td_new_made; [|symmetry; apply unnamed_spec]. intros i k Hi x. unfold by_name. change TIMEDELTA_ARGS with td_params. rewrite Hi. now apply (passes_dict _ _ i). }
    destruct (timedelta_of_dict l); cbn [rmap bind]; now constructor.
Qed.
Lemma td_meant_one v r r' : td_meant v r -> td_meant v r' -> r = r'.
Proof.
  intros H H'. destruct H as [|d|v d C M|v e C M|v C N1 N2]; inversion H' as [|d'|v' d' C' M'|v' e' C' M'|v' C' N1' N2']; subst; try easy;
  try (pose proof (td_made_one _ _ _ M M') as Q; try congruence); exfalso; try (now apply N2 with d'); try (now apply N2' with d); now apply N1.
Qed.
Lemma td_meant_iff v r : ensure_timedelta v = r <-> td_meant v r.
Proof. split; [intros <-; apply td_meant_exists|intros H; now apply (td_meant_one v); [apply td_meant_exists|]]. Qed.
