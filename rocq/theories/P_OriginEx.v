(** * Examples for C63 *)
From Verif Require Import M_Base M_Text M_Line M_Codec M_Cal M_Time M_Span M_Dt M_Fold M_Tree M_Comp M_Open M_Serial M_Rrule M_Vtz.
From Verif Require Import S_Text S_Codec S_Dt S_Line S_Fold S_Tree S_Comp S_Store S_Ref S_Wire S_Toy S_Vtz S_Again S_ZoneAgain S_Origin.
From Verif Require Import P_Base P_StoreEx P_CalendarEx P_VtzEx P_Again4 P_AgainEx P_ZoneAgain P_ZoneAgainEx P_Origin.
Open Scope N_scope.

(** A database that knows a zone of identifier Z3 also by the name W3; definitions of Z3
    with an offset of two hours are another zone. *)
Definition oz_zdb : zone_db :=
  mk_zdb (z_is_utc toy_zdb) (fun z => match z with TzObj 13 => Ok (Some (py "Z3", TzObj 13)) | _ => z_from_tzinfo toy_zdb z end) (z_from_tzid toy_zdb) (z_gettz toy_zdb) (z_utc toy_zdb).
Definition oz_plain : ext :=
  mk_ext (x_env toy) oz_zdb (x_utc toy) (x_urlparse toy) (x_geturl toy) (x_float toy) (x_ffmt toy) (x_uid toy) (x_now toy) (x_tz_load toy) (x_tz_dump toy).
Definition oz_lines (to : list N) : list (list N) := [
  py "BEGIN:VTIMEZONE"; py "TZID:Z3"; py "BEGIN:STANDARD"; py "DTSTART:19960331T020000"; py "RRULE:FREQ=YEARLY;BYMONTH=3;BYDAY=-1SU";
  py "TZOFFSETFROM:+0100"; to; py "END:STANDARD"; py "END:VTIMEZONE"].
Definition oz_sub (to : list N) : list item := match fst (string_to_containers (flat_map nl (oz_lines to))) with [ICont _ its] => its | _ => [] end.
Definition oz_subA : list item := Eval vm_compute in oz_sub (py "TZOFFSETTO:+0200").
Definition oz_subB : list item := Eval vm_compute in oz_sub (py "TZOFFSETTO:+0100").
Definition oz_A : timezone := Eval vm_compute in match load_zone oz_plain vx_rule vx_date (py "VTIMEZONE") oz_subA with Ok z => z | Err _ => vx_zone end.
Definition oz_B : timezone := Eval vm_compute in match load_zone oz_plain vx_rule vx_date (py "VTIMEZONE") oz_subB with Ok z => z | Err _ => vx_zone end.
Definition oz_zone_of (z : tz) : timezone := match z with TzObj 13 => oz_A | TzObj 3 => oz_B | _ => vx_fixed z end.
Definition oz_tz_of (t : timezone) : tz :=
  if str_eqb (t_id t) (py "Z3") && match t_obs t with o :: _ => Z.eqb (o_to o) (2 * vx_hour) | [] => false end then TzObj 13 else toy_zone (t_id t).
Definition oz : ext :=
  mk_ext (x_env toy) oz_zdb (x_utc toy) (x_urlparse toy) (x_geturl toy) (x_float toy) (x_ffmt toy) (x_uid toy) (x_now toy)
    (fun its => rmap (fun t => (t_id t, oz_tz_of t)) (load_zone oz_plain vx_rule vx_date (py "VTIMEZONE") its)) (fun z => dump_zone oz_plain (oz_zone_of z)).
Lemma oz_utc : utc_env oz.
Proof. destruct toy_utc as [H1 H2 H3 H4]. constructor; [exact H1|exact H2|exact H3|exact H4]. Qed.
Lemma oz_text : text_env oz.
Proof. destruct toy_text_env as [H1 H2 H3]. constructor; [exact H1|exact H2|exact H3]. Qed.
Lemma oz_defined : defined_by oz vx_rule vx_date oz_zone_of oz_tz_of.
Proof. split; reflexivity. Qed.
Lemma oz_same t t' : zone_kept t t' -> oz_tz_of t' = oz_tz_of t.
Proof.
  intros [B _]. unfold oz_tz_of. rewrite (bz_id _ _ B). destruct (bz_obs _ _ B) as [|o o' os os' H _]; [reflexivity|]. now rewrite (bo_to _ _ H).
Qed.
Lemma oz_keep z : In z [oz_A; oz_B] -> keepable_zone oz z.
Proof.
  intros I. assert (I' : z = oz_A \/ z = oz_B) by (destruct I as [<-|[<-|[]]]; auto). clear I. constructor.
  - destruct I' as [-> | ->]; (constructor; [|constructor]; constructor; [vm_compute; reflexivity|vm_compute; reflexivity| | | |]).
    1,5: repeat (apply Forall_cons; [vm_compute; intuition discriminate|]); apply Forall_nil.
    1,4: repeat (apply Forall_cons; [vm_compute; intuition discriminate|]); apply Forall_nil.
    1,3: intros r r' [<-|[]] [<-|[]]; reflexivity.
    1,2: intros r d [<-|[]] [= <-]; vm_compute; intuition discriminate.
  - intros u E. destruct I' as [-> | ->]; discriminate E.
  - intros u E. destruct I' as [-> | ->]; discriminate E.
Qed.
Ltac start_of I items := cbn [items In] in I; repeat destruct I as [I|I]; try discriminate I; try contradiction; injection I as <- <-; eexists; split; [now left|reflexivity].
Lemma oz_keptA : kept_def oz vx_rule vx_date oz_zone_of oz_tz_of oz_subA oz_A.
Proof.
  split; [vm_compute; reflexivity|]. split; [intros n sub l I _ _ _; start_of I oz_subA|]. split; [apply oz_keep; now left|]. constructor; [vm_compute; reflexivity|vm_compute; reflexivity|exact (oz_same oz_A)].
Qed.
Lemma oz_keptB : kept_def oz vx_rule vx_date oz_zone_of oz_tz_of oz_subB oz_B.
Proof.
  split; [vm_compute; reflexivity|]. split; [intros n sub l I _ _ _; start_of I oz_subB|]. split; [apply oz_keep; right; now left|]. constructor; [vm_compute; reflexivity|vm_compute; reflexivity|exact (oz_same oz_B)].
Qed.

(** The identifiers that are mentioned. *)
Fixpoint item_ids (it : item) : list (list N) :=
  match it with
  | ILine l => match dict_get (py "TZID") (cl_params l) with Some [p] => [pval_str p] | _ => [] end
  | ICont _ sub => flat_map item_ids sub
  end.
Lemma mentions_ids id its : mentions id its -> In id (flat_map item_ids its).
Proof.
  induction 1 as [its l p I G <-|its n sub I M IH]; apply in_flat_map.
  - exists (ILine l). split; [exact I|]. cbn [item_ids]. rewrite G. now left.
  - exists (ICont n sub). split; [exact I|exact IH].
Qed.

(** ** Three calendars *)
Definition oz_event (uid id : list N) : list (list N) := [
  py "BEGIN:VEVENT"; py "UID:" ++ uid; py "DTSTAMP:20200101T000000Z"; py "DTSTART;TZID=" ++ id ++ py ":20200102T030405"; py "END:VEVENT"].
Definition oz_cal (l : list (list N)) : list N := flat_map nl ([py "BEGIN:VCALENDAR"; py "PRODID:me"; py "VERSION:2.0"] ++ l ++ [py "END:VCALENDAR"]).
Definition oz_items (txt : list N) : list item := match fst (string_to_containers txt) with [ICont _ its] => its | _ => [] end.
Definition oz_read (txt : list N) : calendar := match read_calendar oz (FromStr txt) with Ok c => c | Err _ => new_comp toy entry CCalendar end.
(** It defines its zone; it uses a known zone; it does both. *)
Definition own_text : list N := oz_cal (oz_event (py "u") (py "Z3") ++ oz_lines (py "TZOFFSETTO:+0200")).
Definition known_text : list N := oz_cal (oz_event (py "u") (py "W3")).
Definition both_text : list N := oz_cal (oz_event (py "u") (py "Z3") ++ oz_lines (py "TZOFFSETTO:+0200") ++ oz_event (py "v") (py "W3")).
Definition own_items : list item := Eval vm_compute in oz_items own_text.
Definition known_items : list item := Eval vm_compute in oz_items known_text.
Definition both_items : list item := Eval vm_compute in oz_items both_text.
Definition own_cal : calendar := Eval vm_compute in oz_read own_text.
Definition known_cal : calendar := Eval vm_compute in oz_read known_text.
Definition both_cal : calendar := Eval vm_compute in oz_read both_text.
Lemma own_read : string_to_containers own_text = ([ICont (py "VCALENDAR") own_items], None) /\ read_calendar oz (FromStr own_text) = Ok own_cal.
Proof. split; vm_compute; reflexivity. Qed.
Lemma known_read : string_to_containers known_text = ([ICont (py "VCALENDAR") known_items], None) /\ read_calendar oz (FromStr known_text) = Ok known_cal.
Proof. split; vm_compute; reflexivity. Qed.
Lemma both_read : string_to_containers both_text = ([ICont (py "VCALENDAR") both_items], None) /\ read_calendar oz (FromStr both_text) = Ok both_cal.
Proof. split; vm_compute; reflexivity. Qed.
Lemma defs_A its : (forall sub, In (ICont (py "VTIMEZONE") sub) its -> sub = oz_subA) -> kept_defs oz vx_rule vx_date oz_zone_of oz_tz_of its.
Proof. intros H sub t I L. rewrite (H sub I) in *. destruct oz_keptA as (L' & H1 & H2 & H3). rewrite L in L'. injection L' as ->. split; [exact H1|]. split; [exact H2|exact H3]. Qed.
Ltac only_A I items := cbn [items In] in I; repeat destruct I as [I|I]; try discriminate I; try contradiction; injection I as <-; reflexivity.
Lemma own_defs : kept_defs oz vx_rule vx_date oz_zone_of oz_tz_of own_items.
Proof. apply defs_A. intros sub I. only_A I own_items. Qed.
Lemma known_defs : kept_defs oz vx_rule vx_date oz_zone_of oz_tz_of known_items.
Proof. apply defs_A. intros sub I. cbn [known_items In] in I. repeat destruct I as [I|I]; try discriminate I; contradiction. Qed.
Lemma both_defs : kept_defs oz vx_rule vx_date oz_zone_of oz_tz_of both_items.
Proof. apply defs_A. intros sub I. only_A I both_items. Qed.
Lemma own_closed : closed oz vx_rule vx_date own_items.
Proof.
  intros id M _. apply mentions_ids in M. replace (flat_map item_ids own_items) with [py "Z3"] in M by (vm_compute; reflexivity). destruct M as [<-|[]].
  exists oz_subA, oz_A. split; [cbn [own_items In]; tauto|]. split; vm_compute; reflexivity.
Qed.
Lemma subB_wf : wf_item ok_line (ICont (py "VTIMEZONE") oz_subB).
Proof.
  assert (E : string_to_containers (flat_map nl (oz_lines (py "TZOFFSETTO:+0100"))) = ([ICont (py "VTIMEZONE") oz_subB], None)) by (vm_compute; reflexivity).
  unfold string_to_containers in E. eapply lines_wf; [exact E|now left].
Qed.
Lemma known_B its : incl (flat_map item_ids its) [py "W3"; py "Z3"] -> (In (py "Z3") (flat_map item_ids its) -> exists z, defines oz its (py "Z3") z) ->
  kept_known oz vx_rule vx_date oz_zone_of oz_tz_of its.
Proof.
  intros H D id z M _ U K. right. exists oz_subB, oz_B. split; [exact subB_wf|]. split; [exact oz_keptB|]. apply mentions_ids in M. pose proof (H id M) as [<-|[<-|[]]].
  - split; [|vm_compute; intuition discriminate]. destruct K as [K|[K _]]; [injection K as <-; vm_compute; reflexivity|discriminate K].
  - exfalso. destruct (D M) as (z' & l1 & sub & l2 & -> & L & _). apply (U sub z'); [apply in_or_app; right; now left|exact L].
Qed.
Lemma known_known : kept_known oz vx_rule vx_date oz_zone_of oz_tz_of known_items.
Proof.
  apply known_B.
  - intros id I. replace (flat_map item_ids known_items) with [py "W3"] in I by (vm_compute; reflexivity). destruct I as [<-|[]]. now left.
  - intro I. replace (flat_map item_ids known_items) with [py "W3"] in I by (vm_compute; reflexivity). destruct I as [I|[]]. discriminate I.
Qed.
Lemma both_known : kept_known oz vx_rule vx_date oz_zone_of oz_tz_of both_items.
Proof.
  apply known_B.
  - intros id I. replace (flat_map item_ids both_items) with [py "Z3"; py "W3"] in I by (vm_compute; reflexivity). destruct I as [<-|[<-|[]]]; cbn [In]; auto.
  - intros _. exists (TzObj 13). unfold defines. exists (firstn 3 both_items), oz_subA, (skipn 4 both_items). split; [reflexivity|]. split; [vm_compute; reflexivity|].
    intros sub z I. cbn [both_items firstn In] in I. repeat destruct I as [I|I]; try discriminate I; contradiction.
Qed.
Lemma own_keep : keepable_calendar oz own_cal.
Proof.
  constructor; [discriminate|keep_attrs|keep_notes|reflexivity|discriminate|]. intros k l m H Hm. apply dict_get_In in H. each H; subst l; [destruct Hm as [<-|[]]|contradiction].
  constructor; [discriminate|keep_attrs|keep_notes|reflexivity|reflexivity|]. intros k1 l n H Hn. apply dict_get_In in H. each H; subst l. contradiction.
Qed.
Lemma known_keep : keepable_calendar oz known_cal.
Proof.
  constructor; [discriminate|keep_attrs|keep_notes|reflexivity|discriminate|]. intros k l m H Hm. apply dict_get_In in H. each H; subst l; [destruct Hm as [<-|[]]|contradiction].
  constructor; [discriminate|keep_attrs|keep_notes|reflexivity|reflexivity|]. intros k1 l n H Hn. apply dict_get_In in H. each H; subst l. contradiction.
Qed.
Lemma both_keep : keepable_calendar oz both_cal.
Proof.
  constructor; [discriminate|keep_attrs|keep_notes|reflexivity|discriminate|]. intros k l m H Hm. apply dict_get_In in H. each H; subst l; [destruct Hm as [<-|[<-|[]]]|contradiction];
  (constructor; [discriminate|keep_attrs|keep_notes|reflexivity|reflexivity|]; intros k1 l n H Hn; apply dict_get_In in H; each H; subst l; contradiction).
Qed.
Lemma known_distinct : distinct_zones oz known_cal.
Proof.
  assert (H : forall id z z', calendar_uses oz known_cal id z z' -> z' = TzObj 3).
  { intros id z z' U. apply calendar_uses_date in U as (d & D & U1 & U2 & U3). destruct D as [(k & a & G & J)|(k & l & m & G & J & D)]; apply dict_get_In in G.
    - each G; subst a; cbn in J; contradiction.
    - each G; subst l; [|contradiction]. destruct J as [<-|[]]. destruct D as [(k1 & a & G & J)|(k1 & l & m & G & J & _)]; apply dict_get_In in G.
      + each G; subst a; cbn in J; try contradiction; (destruct J as [<-|[]]); cbn in U1; injection U1 as <-; vm_compute in U2; try discriminate U2; vm_compute in U3; now injection U3.
      + each G; subst l; contradiction. }
  intros id z1 z1' z2 z2' U1 U2. apply H in U1, U2. congruence.
Qed.
Definition zone_at (i : nat) (c : calendar) : option tz :=
  match nth_error (get_mem (py "events") c) i with
  | Some e => match get_attr (py "timespan") e with AOne (VSpan t) => match ts_begin t with Some d => dtz d | None => None end | _ => None end
  | None => None
  end.
Definition both_out : list N := Eval vm_compute in match calendar_serialize oz true id_split (Some 75%nat) both_cal with Ok t => t | Err _ => [] end.
Definition both_back : calendar := Eval vm_compute in oz_read both_out.
Lemma both_changed : calendar_serialize oz true id_split (Some 75%nat) both_cal = Ok both_out /\ read_calendar oz (FromStr both_out) = Ok both_back /\
  zone_at 1 both_cal = Some (TzObj 3) /\ zone_at 1 both_back = Some (TzObj 13) /\ ~ equal_calendar oz both_cal both_back.
Proof.
  split; [vm_compute; reflexivity|]. split; [vm_compute; reflexivity|]. split; [reflexivity|]. split; [reflexivity|]. intro H. pose proof (eq_mem _ _ _ _ H (py "events")) as E. cbn in E.
  inversion E as [|? ? ? ? _ E2]; subst. inversion E2 as [|? ? ? ? E3 _]; subst. pose proof (eq_attrs _ _ _ _ E3 (py "timespan")) as A. cbn in A. destruct A as (_ & A & _). cbn in A. destruct A as (_ & _ & [A|[A _]]); discriminate A.
Qed.
