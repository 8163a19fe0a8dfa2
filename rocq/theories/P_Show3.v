(** * Proofs: the texts of spans and entries (C64), whole texts *)
From Verif Require Import M_Base M_Codec M_Cal M_Time M_Span M_Dt M_Cmp M_Show.
From Verif Require Import S_Codec S_Dt S_Show.
From Verif Require Import P_Base P_Cal P_Codec P_Dt P_Show P_Show2.
From Coq Require Import Lia ZifyBool ZifyNat ZifyN.
Open Scope Z_scope.

Section Show.
Variable E : env.
Definition b_str (t : timespan) : list N := match ts_begin t with None => [] | Some b => py " begin: " ++ stamp_str E t b end.
Definition end_lit (t : timespan) : list N :=
  (match end_representation t with Some REnd => py " fixed" | _ => [] end) ++ match ts_kind t with KTodo => py " due: " | _ => py " end: " end.
Definition e_str (t : timespan) (e : option datetime) : list N := match e with None => [] | Some e => end_lit t ++ stamp_str E t e end.
Definition d_str (t : timespan) (d : option Z) : list N :=
  match d, end_representation t with
  | Some d, Some RDuration => py " fixed duration: " ++ td_str d
  | Some d, Some REnd => py " duration: " ++ td_str d
  | _, _ => []
  end.
Definition tail_str (t : timespan) (e : option datetime) (d : option Z) : list N := b_str t ++ e_str t e ++ d_str t d.

Lemma join_cons x l : join_spaces (x :: l) = x ++ flat_map (fun y => 32%N :: y) l.
Proof. revert x. induction l as [|y l IH]; intro x; [cbn; now rewrite app_nil_r|]. cbn [join_spaces flat_map app]. cbn [join_spaces] in IH. now rewrite IH. Qed.
Lemma segments_form t p s : str_segments E t = Ok (p, s) <-> exists e d, eff_end E t = Ok e /\ eff_duration E t = Ok d /\
  p = (if is_all_day t then [py "all-day"] else if is_floating t then [py "floating"] else []) /\
  s = (match ts_begin t with Some b => [py "begin:"; stamp_str E t b] | None => [] end) ++
      (match e with Some e => (match end_representation t with Some REnd => [py "fixed"] | _ => [] end) ++ [end_name (ts_kind t) ++ py ":"; stamp_str E t e] | None => [] end) ++
      (match d, end_representation t with Some d, Some r => (match r with RDuration => [py "fixed"] | REnd => [] end) ++ [py "duration:"; td_str d] | _, _ => [] end).
Proof.
  unfold str_segments. destruct (eff_end E t) as [e|x]; cbn [bind].
  - destruct (eff_duration E t) as [d|x]; cbn [bind]; split.
    + intro H. injection H as <- <-. exists e, d. now repeat split.
    + intros (e' & d' & HE & HD & -> & ->). injection HE as <-. injection HD as <-. reflexivity.
    + discriminate.
    + intros (e' & d' & _ & HD & _). discriminate.
  - split; [discriminate|]. intros (e' & d' & HE & _). discriminate.
Qed.
Lemma text_form t name p s : (exists n ns, name = n :: ns) -> forall e d,
  p = (if is_all_day t then [py "all-day"] else if is_floating t then [py "floating"] else []) ->
  s = (match ts_begin t with Some b => [py "begin:"; stamp_str E t b] | None => [] end) ++
      (match e with Some e => (match end_representation t with Some REnd => [py "fixed"] | _ => [] end) ++ [end_name (ts_kind t) ++ py ":"; stamp_str E t e] | None => [] end) ++
      (match d, end_representation t with Some d, Some r => (match r with RDuration => [py "fixed"] | REnd => [] end) ++ [py "duration:"; td_str d] | _, _ => [] end) ->
  py "<" ++ join_spaces (p ++ name ++ s) ++ py ">" = py "<" ++ head_of t ++ join_spaces name ++ tail_str t e d ++ py ">".
Proof.
  intros (n & ns & ->) e d -> HS. f_equal.
  assert (T : flat_map (fun y => 32%N :: y) s = tail_str t e d).
  { rewrite HS, !flat_map_app. unfold tail_str. f_equal; [|f_equal].
    - unfold b_str. destruct (ts_begin t); [|reflexivity]. cbn [flat_map]. rewrite app_nil_r. reflexivity.
    - unfold e_str, end_lit. destruct e as [e|]; [|reflexivity]. rewrite flat_map_app. cbn [flat_map]. rewrite app_nil_r, <- !app_assoc. f_equal; [destruct (end_representation t) as [[]|]; reflexivity|]. destruct (ts_kind t); reflexivity.
    - unfold d_str. destruct d as [d|]; [|reflexivity]. destruct (end_representation t) as [[]|]; [| |reflexivity]; cbn [app flat_map]; rewrite app_nil_r; reflexivity. }
  unfold head_of. destruct (is_all_day t); [|destruct (is_floating t)].
  - cbn [app]. rewrite join_cons. rewrite app_comm_cons, flat_map_app, T. cbn [flat_map]. rewrite join_cons, <- !app_assoc. reflexivity.
  - cbn [app]. rewrite join_cons. rewrite app_comm_cons, flat_map_app, T. cbn [flat_map]. rewrite join_cons, <- !app_assoc. reflexivity.
  - cbn [app]. rewrite !join_cons, flat_map_app, T, <- !app_assoc. reflexivity.
Qed.
Lemma span_form t s : span_str E t = Ok s <-> exists e d, eff_end E t = Ok e /\ eff_duration E t = Ok d /\
  s = py "<" ++ head_of t ++ span_class (ts_kind t) ++ tail_str t e d ++ py ">".
Proof.
  unfold span_str. split.
  - intro H. destruct (str_segments E t) as [[p sg]|] eqn:ES; [|discriminate]. apply segments_form in ES as (e & d & HE & HD & HP & HS). injection H as <-. exists e, d. split; [exact HE|]. split; [exact HD|].
    exact (text_form t [span_class (ts_kind t)] p sg (ex_intro _ _ (ex_intro _ _ eq_refl)) e d HP HS).
  - intros (e & d & HE & HD & ->). destruct (str_segments E t) as [[p sg]|x] eqn:ES.
    + apply segments_form in ES as (e' & d' & HE' & HD' & HP & HS). rewrite HE in HE'. rewrite HD in HD'. injection HE' as <-. injection HD' as <-. cbn [bind]. f_equal.
      exact (text_form t [span_class (ts_kind t)] p sg (ex_intro _ _ (ex_intro _ _ eq_refl)) e d HP HS).
    + exfalso. unfold str_segments in ES. rewrite HE, HD in ES. discriminate.
Qed.
Definition name_str (x : entry) : list N := entry_class (ts_kind (en_span x)) ++ match en_name x with [] => [] | n => py " '" ++ n ++ py "'" end.
Lemma entry_form x s : entry_str E x = Ok s <-> exists e d, eff_end E (en_span x) = Ok e /\ eff_duration E (en_span x) = Ok d /\
  s = py "<" ++ head_of (en_span x) ++ name_str x ++ tail_str (en_span x) e d ++ py ">".
Proof.
  unfold entry_str. cbv zeta. set (nm := entry_class (ts_kind (en_span x)) :: _).
  assert (NM : join_spaces nm = name_str x) by (unfold nm, name_str, en_name; destruct (en_summary x) as [[|c s0]|]; [cbn; now rewrite app_nil_r|reflexivity|cbn; now rewrite app_nil_r]).
  assert (NE : exists n ns, nm = n :: ns) by (unfold nm; eauto). clearbody nm. set (t := en_span x) in *. split.
  - intro H. destruct (str_segments E t) as [[p sg]|] eqn:ES; [|discriminate]. apply segments_form in ES as (e & d & HE & HD & HP & HS). injection H as <-. exists e, d. split; [exact HE|]. split; [exact HD|].
    rewrite <- NM. exact (text_form t nm p sg NE e d HP HS).
  - intros (e & d & HE & HD & ->). destruct (str_segments E t) as [[p sg]|y] eqn:ES.
    + apply segments_form in ES as (e' & d' & HE' & HD' & HP & HS). rewrite HE in HE'. rewrite HD in HD'. injection HE' as <-. injection HD' as <-. cbn [bind]. f_equal.
      rewrite <- NM. exact (text_form t nm p sg NE e d HP HS).
    + exfalso. unfold str_segments in ES. rewrite HE, HD in ES. discriminate.
Qed.

(** ** The texts say what they should *)
Lemma end_python t e : python_times E t -> eff_end E t = Ok (Some e) -> python_time E e.
Proof.
  intros W H. unfold eff_end in H. destruct (ts_end t) as [e'|] eqn:ET; [injection H as <-; apply W; now right|]. destruct (ts_begin t) as [b|] eqn:EB; [|discriminate].
  destruct (eff_duration E t) as [[d|]|]; try discriminate. cbn [bind] in H. unfold dt_add in H. destruct (wall_ok (wall b + d)) eqn:EW; [|discriminate]. injection H as <-. split; [exact EW|]. exact (proj2 (W b (or_introl EB))).
Qed.
Lemma end_ok t e : python_times E t -> eff_end E t = Ok (Some e) -> wall_ok (wall e) = true.
Proof. intros P H. exact (proj1 (end_python t e P H)). Qed.
Lemma stamp_is_shown t d : python_time E d -> stamp_shown E (is_all_day t) (stamp_str E t d) d.
Proof. intro P. unfold stamp_shown, stamp_str. destruct (is_all_day t); [apply date_is_shown, (proj1 P)|now apply dt_is_shown]. Qed.
Lemma tail_is_shown t e d : python_times E t -> eff_end E t = Ok e -> eff_duration E t = Ok d -> tail_shown E (tail_str t e d) t.
Proof.
  intros P HE HD. exists (b_str t), (e_str t e), (d_str t d). rewrite HE, HD. split; [|split; [|split; [|reflexivity]]].
  - unfold b_str. destruct (ts_begin t) as [b|] eqn:EB; [|reflexivity]. eexists. split; [|reflexivity]. apply stamp_is_shown, P. now left.
  - destruct e as [e|]; [|reflexivity]. exists (stamp_str E t e). split; [now apply stamp_is_shown, (end_python t)|].
    unfold e_str, end_lit, end_representation. rewrite <- app_assoc. destruct (ts_dur t), (ts_end t); reflexivity.
  - unfold d_str, end_representation. destruct (ts_dur t) as [x|] eqn:EX.
    + rewrite andb_false_r. destruct d as [d|]; [|reflexivity]. eexists. split; [apply td_is_shown|reflexivity].
    + destruct (ts_end t); cbn [is_none negb andb]; [|now destruct d]. destruct d as [d|]; [|reflexivity]. eexists. split; [apply td_is_shown|reflexivity].
Qed.
Theorem span_says t s : python_times E t -> span_str E t = Ok s -> span_shown E s t.
Proof.
  intros P H. apply span_form in H as (e & d & HE & HD & ->). exists (tail_str t e d). split; [now apply tail_is_shown|]. reflexivity.
Qed.
Theorem entry_says x s : python_times E (en_span x) -> entry_str E x = Ok s -> entry_shown E s x.
Proof.
  intros P H. apply entry_form in H as (e & d & HE & HD & ->). exists (tail_str (en_span x) e d). split; [now apply tail_is_shown|]. unfold name_str. rewrite <- !app_assoc. destruct (ts_kind (en_span x)); reflexivity.
Qed.

(** ** Equal texts *)
Lemma stamp_inj t t' a b x y : is_all_day t = is_all_day t' -> wall_ok (wall a) = true -> wall_ok (wall b) = true -> stops x -> stops y ->
  stamp_str E t a ++ x = stamp_str E t' b ++ y -> view E t a = view E t' b /\ x = y.
Proof.
  intros AD WA WB X Y H. unfold stamp_str in H. unfold view. rewrite <- AD in *. destruct (is_all_day t).
  - apply date_str_inj in H as [H1 H2]; try assumption. now rewrite H1.
  - apply dt_str_inj in H as (H1 & H2 & H3); try assumption. now rewrite H1, H2.
Qed.
Lemma stamp_same t t' a b : is_all_day t = is_all_day t' -> view E t a = view E t' b -> stamp_str E t a = stamp_str E t' b.
Proof.
  intros AD H. unfold view in H. unfold stamp_str. rewrite <- AD in *. destruct (is_all_day t); injection H as H.
  - unfold date_str, fields_of. unfold US_DAY, US_SEC. change (86400 * 1000000) with 86400000000. rewrite H. destruct (ord2ymd _) as [[y m] d]. reflexivity.
  - unfold dt_str. now rewrite H, H0.
Qed.
Lemma d_stops t d : stops (d_str t d ++ py ">").
Proof. unfold d_str. destruct d as [d|]; [|eexists; now right]. destruct (end_representation t) as [[]|]; eexists; (now left) || (now right). Qed.
Lemma e_stops t e d : stops (e_str t e ++ d_str t d ++ py ">").
Proof.
  unfold e_str, end_lit. destruct e as [e|]; [|apply d_stops]. destruct (end_representation t) as [[]|], (ts_kind t); eexists; left; reflexivity.
Qed.
Lemma tail_stops t e d : stops (tail_str t e d ++ py ">").
Proof. unfold tail_str. rewrite <- !app_assoc. unfold b_str. destruct (ts_begin t); [eexists; left; reflexivity|apply e_stops]. Qed.

Definition d_view (t : timespan) (d : option Z) : option (option end_repr * Z) :=
  match d, end_representation t with Some d, Some r => Some (Some r, d) | _, _ => None end.
Lemma lit_clash a x (y : list N) : prefix a y = false -> prefix y a = false -> a ++ x = y -> False.
Proof. intros A B H. rewrite <- (app_nil_r y) in H. exact (clash a y x [] A B H). Qed.
Ltac clash_any H := first [clash_in H | apply lit_clash in H; [exact H|reflexivity|reflexivity] | symmetry in H; apply lit_clash in H; [exact H|reflexivity|reflexivity]].
Lemma d_inj t t' d d' : d_str t d ++ py ">" = d_str t' d' ++ py ">" -> d_view t d = d_view t' d'.
Proof.
  unfold d_str, d_view. intro H. assert (SE : stops (py ">")) by (eexists; right; reflexivity).
  destruct d as [d|]; [destruct (end_representation t) as [[]|]|]; (destruct d' as [d'|]; [destruct (end_representation t') as [[]|]|]); try reflexivity; rewrite <- ?app_assoc in H;
    cbn [app] in H; try (exfalso; clash_any H); apply app_inv_head in H; apply td_str_inj in H as [-> _]; try assumption; reflexivity.
Qed.
Lemma tail_inj t t' e e' d d' : ts_kind t = ts_kind t' -> is_all_day t = is_all_day t' -> python_times E t -> python_times E t' ->
  eff_end E t = Ok e -> eff_end E t' = Ok e' -> tail_str t e d ++ py ">" = tail_str t' e' d' ++ py ">" ->
  option_map (view E t) (ts_begin t) = option_map (view E t') (ts_begin t') /\ option_map (view E t) e = option_map (view E t') e' /\
  (e <> None -> (end_representation t = Some REnd <-> end_representation t' = Some REnd)) /\ d_view t d = d_view t' d'.
Proof.
  intros HK HA P P' HE HE' H. unfold tail_str in H. rewrite <- !app_assoc in H.
  assert (B : option_map (view E t) (ts_begin t) = option_map (view E t') (ts_begin t') /\ e_str t e ++ d_str t d ++ py ">" = e_str t' e' ++ d_str t' d' ++ py ">").
  { unfold b_str in H. destruct (ts_begin t) as [b|] eqn:EB, (ts_begin t') as [b'|] eqn:EB'; cbn [option_map].
    - rewrite <- !app_assoc in H. apply app_inv_head in H. apply (stamp_inj t t') in H as [-> H]; try assumption; try apply e_stops; [now split|apply (P b); now left|apply (P' b'); now left].
    - exfalso. cbn [app] in H. rewrite <- app_assoc in H. unfold e_str, end_lit, d_str in H. destruct e' as [e'|]; [destruct (end_representation t') as [[]|], (ts_kind t')|destruct d' as [d'|]; [destruct (end_representation t') as [[]|]|]]; rewrite <- ?app_assoc in H; cbn [app] in H; clash_any H.
    - exfalso. cbn [app] in H. rewrite <- app_assoc in H. unfold e_str, end_lit, d_str in H. symmetry in H. destruct e as [e|]; [destruct (end_representation t) as [[]|], (ts_kind t)|destruct d as [d|]; [destruct (end_representation t) as [[]|]|]]; rewrite <- ?app_assoc in H; cbn [app] in H; clash_any H.
    - split; [reflexivity|exact H]. }
  destruct B as [HB H']. split; [exact HB|]. clear H HB. rename H' into H.
  assert (C : option_map (view E t) e = option_map (view E t') e' /\ (e <> None -> (end_representation t = Some REnd <-> end_representation t' = Some REnd)) /\ d_str t d ++ py ">" = d_str t' d' ++ py ">").
  { unfold e_str in H. destruct e as [e|], e' as [e'|]; cbn [option_map].
    - rewrite <- !app_assoc in H. assert (L : end_lit t = end_lit t' /\ (end_representation t = Some REnd <-> end_representation t' = Some REnd)).
      { unfold end_lit in *. rewrite <- HK in *. destruct (end_representation t) as [[]|], (end_representation t') as [[]|]; (split; [try reflexivity|try (split; congruence)]); exfalso; destruct (ts_kind t); rewrite <- ?app_assoc in H; cbn [app] in H; clash_any H. }
      destruct L as [L LR]. rewrite L in H. apply app_inv_head in H. apply (stamp_inj t t') in H as [-> H]; try assumption; try apply d_stops; [now split|exact (end_ok t e P HE)|exact (end_ok t' e' P' HE')].
    - exfalso. unfold end_lit, d_str in H. destruct (end_representation t) as [[]|], (ts_kind t), d' as [d'|]; try destruct (end_representation t') as [[]|]; rewrite <- ?app_assoc in H; cbn [app] in H; clash_any H.
    - exfalso. symmetry in H. unfold end_lit, d_str in H. destruct (end_representation t') as [[]|], (ts_kind t'), d as [d|]; try destruct (end_representation t) as [[]|]; rewrite <- ?app_assoc in H; cbn [app] in H; clash_any H.
    - split; [reflexivity|]. split; [now intros []|exact H]. }
  destruct C as (C1 & C2 & C3). split; [exact C1|]. split; [exact C2|]. now apply d_inj.
Qed.

(** The end representation and the length follow from the text. *)
Lemma repr_same t t' e e' d d' : eff_end E t = Ok e -> eff_end E t' = Ok e' -> eff_duration E t = Ok d -> eff_duration E t' = Ok d' ->
  option_map (view E t) e = option_map (view E t') e' -> (e <> None -> (end_representation t = Some REnd <-> end_representation t' = Some REnd)) -> d_view t d = d_view t' d' ->
  end_representation t = end_representation t' /\ (end_representation t <> None -> d = d').
Proof.
  intros HE HE' HD HD' EV ER DV.
  assert (RE : forall u f, eff_end E u = Ok f -> end_representation u = Some REnd -> f <> None).
  { intros u f HF HR. unfold end_representation in HR. unfold eff_end in HF. destruct (ts_dur u); [discriminate|]. destruct (ts_end u); [|discriminate]. injection HF as <-. discriminate. }
  assert (RD : forall u f, eff_duration E u = Ok f -> end_representation u = Some RDuration -> exists z, f = Some z).
  { intros u f HF HR. unfold end_representation in HR. unfold eff_duration in HF. destruct (ts_dur u); [injection HF as <-; eauto|]. destruct (ts_end u); discriminate. }
  assert (EQ : end_representation t = end_representation t').
  { destruct (end_representation t) as [[]|] eqn:R, (end_representation t') as [[]|] eqn:R'; try reflexivity; exfalso.
    - destruct (RD _ _ HD R) as (z & ->). unfold d_view in DV. rewrite R, R' in DV. destruct d'; discriminate.
    - destruct (RD _ _ HD R) as (z & ->). unfold d_view in DV. rewrite R, R' in DV. destruct d'; discriminate.
    - destruct (ER (RE _ _ HE R)) as [H _]. discriminate (H eq_refl).
    - destruct (ER (RE _ _ HE R)) as [H _]. discriminate (H eq_refl).
    - destruct (RD _ _ HD' R') as (z & ->). unfold d_view in DV. rewrite R, R' in DV. destruct d; discriminate.
    - assert (NE : e <> None) by (pose proof (RE _ _ HE' R') as NE'; destruct e, e'; (discriminate || congruence)). destruct (ER NE) as [_ H]. discriminate (H eq_refl). }
  split; [exact EQ|]. intro NR. unfold d_view in DV. rewrite <- EQ in DV. destruct (end_representation t); [|easy]. destruct d, d'; congruence.
Qed.
Ltac heads H := first [clash_any H | apply app_inv_head in H; clash_any H].
Lemma span_head t t' x y : py "<" ++ head_of t ++ span_class (ts_kind t) ++ x = py "<" ++ head_of t' ++ span_class (ts_kind t') ++ y ->
  ts_kind t = ts_kind t' /\ is_all_day t = is_all_day t' /\ (is_all_day t = false -> is_floating t = is_floating t') /\ x = y.
Proof.
  intro H. apply app_inv_head in H. unfold head_of in H.
  destruct (is_all_day t), (is_all_day t'), (is_floating t), (is_floating t'), (ts_kind t), (ts_kind t'); cbn [app] in H;
    first [exfalso; heads H | split; [reflexivity|split; [reflexivity|split; [easy|]]]; repeat apply app_inv_head in H; exact H].
Qed.
Lemma entry_head t t' x y : py "<" ++ head_of t ++ entry_class (ts_kind t) ++ x = py "<" ++ head_of t' ++ entry_class (ts_kind t') ++ y ->
  ts_kind t = ts_kind t' /\ is_all_day t = is_all_day t' /\ (is_all_day t = false -> is_floating t = is_floating t') /\ x = y.
Proof.
  intro H. apply app_inv_head in H. unfold head_of in H.
  destruct (is_all_day t), (is_all_day t'), (is_floating t), (is_floating t'), (ts_kind t), (ts_kind t'); cbn [app] in H;
    first [exfalso; heads H | split; [reflexivity|split; [reflexivity|split; [easy|]]]; repeat apply app_inv_head in H; exact H].
Qed.
Lemma tails_same t t' e e' d d' : same_view E t t' -> eff_end E t = Ok e -> eff_end E t' = Ok e' -> eff_duration E t = Ok d -> eff_duration E t' = Ok d' -> tail_str t e d = tail_str t' e' d'.
Proof.
  intros (HK & HA & HF & HB & HV & HR & HL) HE HE' HD HD'. unfold tail_str. f_equal; [|f_equal].
  - unfold b_str. destruct (ts_begin t) as [b|], (ts_begin t') as [b'|]; try discriminate; [|reflexivity]. injection HB as HB. f_equal. now apply stamp_same.
  - rewrite HE, HE' in HV. injection HV as HV. unfold e_str. destruct e as [e|], e' as [e'|]; try discriminate; [|reflexivity]. injection HV as HV. f_equal; [unfold end_lit; now rewrite HR, HK|now apply stamp_same].
  - unfold d_str. rewrite <- HR. destruct (end_representation t) as [r|] eqn:R; [|destruct d, d'; reflexivity]. specialize (HL ltac:(discriminate)). rewrite HD, HD' in HL. injection HL as <-. reflexivity.
Qed.
Lemma heads_same t t' : same_view E t t' -> head_of t = head_of t'.
Proof. intros (HK & HA & HF & _). unfold head_of. rewrite <- HA. destruct (is_all_day t); [reflexivity|]. now rewrite (HF eq_refl). Qed.
Lemma same_ok t t' e d : same_view E t t' -> eff_end E t = Ok e -> eff_duration E t = Ok d -> exists e' d', eff_end E t' = Ok e' /\ eff_duration E t' = Ok d'.
Proof.
  intros (HK & HA & HF & HB & HV & HR & HL) HE HD. rewrite HE in HV. destruct (eff_end E t') as [e'|x] eqn:HE'; [|discriminate]. exists e'.
  destruct (end_representation t) as [r|] eqn:R; [specialize (HL ltac:(discriminate)); rewrite HD in HL; exists d; now split|].
  symmetry in HR. unfold end_representation in HR. unfold eff_duration. destruct (ts_dur t'); [discriminate|]. destruct (ts_end t'); [discriminate|]. destruct (ts_kind t'); eexists; (split; [reflexivity|reflexivity]).
Qed.
Theorem span_tells t t' s : python_times E t -> python_times E t' -> span_str E t = Ok s -> (span_str E t' = Ok s <-> same_view E t t').
Proof.
  intros P P' H. apply span_form in H as (e & d & HE & HD & ->). split.
  - intro H'. apply span_form in H' as (e' & d' & HE' & HD' & H). apply span_head in H as (HK & HA & HF & H).
    destruct (tail_inj t t' e e' d d' HK HA P P' HE HE' H) as (HB & HV & HR & HDV). destruct (repr_same t t' e e' d d' HE HE' HD HD' HV HR HDV) as [R L].
    split; [exact HK|]. split; [exact HA|]. split; [exact HF|]. split; [exact HB|]. split; [rewrite HE, HE'; cbn [rmap]; now rewrite HV|]. split; [exact R|]. intro NR. rewrite HD, HD'. now rewrite (L NR).
  - intro S. destruct (same_ok t t' e d S HE HD) as (e' & d' & HE' & HD'). apply span_form. exists e', d'. split; [exact HE'|]. split; [exact HD'|].
    rewrite (heads_same t t' S), (proj1 S), (tails_same t t' e e' d d' S HE HE' HD HD'). reflexivity.
Qed.

(** ** Entries: no text of a span has a quotation mark *)
Definition noq (s : list N) : Prop := ~ In 39%N s.
Lemma noq_app a b : noq a -> noq b -> noq (a ++ b).
Proof. unfold noq. intros A B H. apply in_app_or in H as [H|H]; auto. Qed.
Lemma noq_digits s : forallb is_digit s = true -> noq s.
Proof. intros H I. rewrite forallb_forall in H. apply H in I. discriminate. Qed.
Lemma noq_b s : forallb (fun c => negb (N.eqb c 39)) s = true -> noq s.
Proof. intros H I. rewrite forallb_forall in H. apply H in I. discriminate. Qed.
Ltac noq_tac := repeat lazymatch goal with
  | |- noq (_ ++ _) => apply noq_app
  | |- noq (pad _ _) => apply noq_digits, pad_digits
  | |- noq (dec _) => apply noq_digits, dec_digits
  | |- noq (py _) => apply noq_b; reflexivity
  | |- noq [] => intros []
  end.
Lemma noq_frac u : noq (frac_str u). Proof. unfold frac_str. destruct (u =? 0); noq_tac. Qed.
Lemma noq_offset o : noq (offset_str o).
Proof. unfold offset_str, z2. cbv zeta. destruct (o <? 0), (Z.abs o mod (60 * US_SEC) =? 0); noq_tac; apply noq_frac. Qed.
Lemma noq_stamp t d : noq (stamp_str E t d).
Proof.
  unfold stamp_str. destruct (is_all_day t); unfold date_str, dt_str, z2; cbv zeta; noq_tac; [apply noq_frac|]. destruct (utcoffset E d); [apply noq_offset|noq_tac].
Qed.
Lemma noq_td d : noq (td_str d).
Proof.
  unfold td_str, z2, zdec, int_serialize. cbv zeta. destruct (d / US_DAY =? 0), (d / US_DAY <? 0), (Z.abs (d / US_DAY) =? 1); noq_tac; try apply noq_frac.
  all: try (intros [I|I]; [discriminate|revert I]; apply noq_digits, dec_digits).
Qed.
Lemma noq_tail t e d : noq (tail_str t e d ++ py ">").
Proof.
  unfold tail_str, b_str, e_str, end_lit, d_str. repeat apply noq_app.
  - destruct (ts_begin t); noq_tac. apply noq_stamp.
  - destruct e; noq_tac; [destruct (end_representation t) as [[]|]; noq_tac|destruct (ts_kind t); noq_tac|apply noq_stamp].
  - destruct d; [destruct (end_representation t) as [[]|]|]; noq_tac; apply noq_td.
  - noq_tac.
Qed.
Lemma quote_inj n : forall m x y, noq x -> noq y -> n ++ 39%N :: x = m ++ 39%N :: y -> n = m /\ x = y.
Proof.
  induction n as [|c n IH]; intros [|c' m] x y X Y H; cbn [app] in H.
  - injection H as ->. now split.
  - exfalso. injection H as <- ->. apply X. apply in_or_app. right. now left.
  - exfalso. injection H as -> <-. apply Y. apply in_or_app. right. now left.
  - injection H as <- H. destruct (IH m x y X Y H) as [-> ->]. now split.
Qed.
Lemma no_quote_first t e d x : py " '" ++ x = tail_str t e d ++ py ">" -> False.
Proof.
  intro H. unfold tail_str, b_str, e_str, end_lit, d_str in H. rewrite <- !app_assoc in H. destruct (ts_begin t); [rewrite <- ?app_assoc in H; clash_any H|]. cbn [app] in H.
  destruct e as [e|]; [destruct (end_representation t) as [[]|], (ts_kind t); rewrite <- ?app_assoc in H; cbn [app] in H; clash_any H|]. cbn [app] in H.
  destruct d; [destruct (end_representation t) as [[]|]|]; rewrite <- ?app_assoc in H; cbn [app] in H; clash_any H.
Qed.
Theorem entry_tells x y s : python_times E (en_span x) -> python_times E (en_span y) -> entry_str E x = Ok s ->
  (entry_str E y = Ok s <-> same_view E (en_span x) (en_span y) /\ en_name x = en_name y).
Proof.
  intros P P' H. apply entry_form in H as (e & d & HE & HD & ->). split.
  - intro H'. apply entry_form in H' as (e' & d' & HE' & HD' & H). unfold name_str in H. rewrite <- !app_assoc in H. apply entry_head in H as (HK & HA & HF & H).
    set (t := en_span x) in *. set (t' := en_span y) in *.
    assert (N : en_name x = en_name y /\ tail_str t e d ++ py ">" = tail_str t' e' d' ++ py ">").
    { destruct (en_name x) as [|c n], (en_name y) as [|c' n']; cbn [app] in H.
      - now split.
      - exfalso. symmetry in H. rewrite <- ?app_assoc in H. exact (no_quote_first _ _ _ _ H).
      - exfalso. rewrite <- ?app_assoc in H. exact (no_quote_first _ _ _ _ H).
      - rewrite <- !app_assoc in H. apply app_inv_head in H. change (c :: n ++ py "'") with ((c :: n) ++ py "'") in H. change (c' :: n' ++ py "'") with ((c' :: n') ++ py "'") in H. rewrite <- !(app_assoc _ (py "'")) in H.
        apply quote_inj in H; [exact H|apply noq_tail|apply noq_tail]. }
    destruct N as [N H']. split; [|exact N]. clear H. rename H' into H.
    destruct (tail_inj t t' e e' d d' HK HA P P' HE HE' H) as (HB & HV & HR & HDV). destruct (repr_same t t' e e' d d' HE HE' HD HD' HV HR HDV) as [R L].
    split; [exact HK|]. split; [exact HA|]. split; [exact HF|]. split; [exact HB|]. split; [rewrite HE, HE'; cbn [rmap]; now rewrite HV|]. split; [exact R|]. intro NR. rewrite HD, HD'. now rewrite (L NR).
  - intros [S N]. destruct (same_ok _ _ e d S HE HD) as (e' & d' & HE' & HD'). apply entry_form. exists e', d'. split; [exact HE'|]. split; [exact HD'|].
    unfold name_str. rewrite (heads_same _ _ S), (proj1 S), N, (tails_same _ _ e e' d d' S HE HE' HD HD'). reflexivity.
Qed.
End Show.
