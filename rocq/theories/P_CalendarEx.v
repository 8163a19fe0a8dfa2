(** * Examples of storable calendars *)
From Verif Require Import M_Base M_Text M_Line M_Codec M_Cal M_Time M_Span M_Dt M_Tree M_Comp.
From Verif Require Import S_Text S_Codec S_Line S_Fold S_Dt S_Tree S_Comp S_Store S_Ref S_Wire S_Toy P_Base P_Text P_Codec P_Comp P_Field P_StoreEx P_Calendar.
From Coq Require Import Lia.
Open Scope N_scope.

Definition ex_calendar : calendar :=
  mk_comp CCalendar
    [(py "version", AOne (VStr (py "2.0"))); (py "prodid", AOne (VStr (py "me"))); (py "scale", ANone); (py "method", ANone)]
    [(py "events", [ex_event]); (py "todos", [ex_todo])] (py "VCALENDAR") [ILine (mk_line (py "X-D") [] (py "3"))]
    [(py "VERSION", XOne [(py "X-P", [PRaw (py "p")])])].
Lemma ex_calendar_storable : storable_calendar toy ex_calendar.
Proof.
  split; [reflexivity|]. split.
  - reflexivity.
  - intros a s H. each H; injection H as <- <-.
    + some_attr Text (VStr (py "2.0")); [constructor|exact I|par_ok].
    + some_attr Text (VStr (py "me")); [constructor|exact I].
    + no_attr.
    + no_attr.
    + discriminate.
    + discriminate.
  - attrs_ok.
  - mems_ok.
  - intros a l m H Hm. cbn [ex_calendar c_mem dict_get] in H. destruct (str_eqb a (py "events")) eqn:E; [|destruct (str_eqb a (py "todos")) eqn:E2; [|discriminate]]; injection H as <-;
      destruct Hm as [<-|[]]; (split; [|reflexivity]); [exact ex_event_storable|exact ex_todo_storable].
  - pars_ok.
  - repeat constructor. vm_compute. intuition discriminate.
Qed.

(** The zones of the toy environment. *)
Lemma toy_plain n : text_serialize (90 :: dec n) = 90 :: dec n.
Proof.
  assert (H : forall s, forallb is_digit s = true -> text_serialize s = s).
  { induction s as [|c s IH]; intro HD; [reflexivity|]. cbn in HD. apply andb_prop in HD as [H1 H2]. apply is_digit_spec in H1.
    change (escape_text_char c ++ text_serialize s = c :: s). rewrite (IH H2). unfold escape_text_char, c_lf, c_cr, c_semi, c_comma, c_bslash.
    repeat match goal with |- context [?x =? ?y] => destruct (N.eqb_spec x y); [exfalso; lia|] end. reflexivity. }
  change (escape_text_char 90 ++ text_serialize (dec n) = 90 :: dec n). rewrite H by apply dec_digits. reflexivity.
Qed.
Lemma toy_writer : zone_writer toy.
Proof.
  intros id z z' t H1 H2. assert (E : id = toy_id z /\ z' = z) by (change (Ok (Some (toy_id z, z)) = Ok (Some (id, z'))) in H1; now injection H1 as <- <-).
  destruct E as [-> ->]. injection H2 as <-. split; [now eexists|].
  assert (P : text_serialize (toy_id z) = toy_id z) by (destruct z; [apply toy_plain|reflexivity|reflexivity]). intro i. split.
  - intros (its & p & E & I). injection E as <-. destruct I as [I|[]]. injection I as <- E. rewrite <- P in E. now apply text_serialize_inj in E.
  - intros ->. eexists. exists []. split; [reflexivity|]. left. now rewrite P.
Qed.

(** The zones used. *)
Lemma toy_use d id n z z' : dtz d = Some (TzObj n) -> dt_uses toy d id z z' -> z_is_utc (x_zdb toy) (TzObj n) = false /\ id = 90 :: dec n /\ z = TzObj n /\ z' = TzObj n.
Proof.
  intros HD (H1 & H2 & H3). rewrite HD in H1. injection H1 as <-. change (Ok (Some (90 :: dec n, TzObj n)) = Ok (Some (id, z'))) in H3. injection H3 as <- <-. auto.
Qed.
Lemma ex_event_use id z z' : entry_uses toy ex_event id z z' -> id = 90 :: dec 1 /\ z = TzObj 1 /\ z' = TzObj 1.
Proof.
  intros [(k & a & d & H & Hd & HU)|(k & l & m & H & Hm & HU)].
  - apply dict_get_In in H. each H; subst a; cbn in Hd; repeat (destruct Hd as [Hd|Hd]); try contradiction; subst d;
      (eapply toy_use in HU as (HF & HU); [|reflexivity]); first [exact HU|discriminate HF].
  - apply dict_get_In in H. each H; subst l. destruct Hm as [<-|[]]. now apply ex_alarm_zones in HU.
Qed.
Lemma ex_todo_use id z z' : ~ entry_uses toy ex_todo id z z'.
Proof.
  intros [(k & a & d & H & Hd & HU)|(k & l & m & H & Hm & HU)].
  - apply dict_get_In in H. each H; subst a; cbn in Hd; repeat (destruct Hd as [Hd|Hd]); try contradiction; subst d;
      first [destruct HU as (HU & _); discriminate HU|(eapply toy_use in HU as (HF & _); [|reflexivity]); discriminate HF].
  - apply dict_get_In in H. each H; subst l. destruct Hm.
Qed.
Lemma ex_calendar_use id z z' : calendar_uses toy ex_calendar id z z' -> id = 90 :: dec 1 /\ z = TzObj 1 /\ z' = TzObj 1.
Proof.
  intros [(k & a & d & H & Hd & HU)|(k & l & m & H & Hm & HU)].
  - apply dict_get_In in H. each H; subst a; cbn in Hd; contradiction.
  - apply dict_get_In in H. each H; subst l; destruct Hm as [<-|[]]; [now apply ex_event_use|now apply ex_todo_use in HU].
Qed.
Ltac nob := intros ?c ?Hc ?Hin; vm_compute in Hc, Hin; intuition (subst; discriminate).
Lemma ok_simple n ps v : wf_line (mk_line n ps v) -> foldable (mk_line n ps v) -> n <> py "BEGIN" -> n <> py "END" -> ok_line (mk_line n ps v).
Proof. intros H1 H2 H3 H4. split; [exact H1|]. split; [exact H2|]. now split. Qed.
Ltac line_ok := apply ok_simple; [split; [nob|split; [reflexivity|split; [repeat constructor; cbn; tauto|intros ?k ?vs ?Hk; each Hk; injection Hk as <- <-; (split; [nob|split; [discriminate|split; [intros ?v [<-|[]] ?Hin; vm_compute in Hin; intuition discriminate|discriminate]]])]]]
  |split; [nob|split; [intros (?c & ?t & ?E & [?HB|?HB]); rewrite HB in E; discriminate|split; [nob|intros ?k ?vs ?Hk; each Hk; injection Hk as <- <-; nob]]]|discriminate|discriminate].
Lemma ex_zones_stored : zones_stored toy ex_calendar.
Proof.
  split.
  - intros id z z' HU. apply ex_calendar_use in HU as (-> & -> & ->). eexists. split; [reflexivity|]. split.
    + cbn [wf_item]. split; [discriminate|]. split; [reflexivity|]. split; [nob|]. split; [line_ok|exact I].
    + intros sub' HE. inversion HE as [|? it ? r H1 H2]; subst. inversion H2; subst. apply item_eq_line in H1 as (l & -> & _ & HV & _).
      cbn in HV. cbn. rewrite <- HV. reflexivity.
  - intros id z1 z1' z2 z2' H1 H2. apply ex_calendar_use in H1 as (_ & _ & ->), H2 as (_ & _ & ->). reflexivity.
Qed.
Ltac wpar := split; [repeat constructor; cbn; intuition discriminate|intros ?k ?vs ?Hk; each Hk; injection Hk as <- <-; (split; [nob|split; [nob|split; [discriminate|split; [intros ?v [<-|[]] ?Hin; vm_compute in Hin; intuition discriminate|discriminate]]]])].
Ltac wattrs := intros ?k ?a ?H; apply dict_get_In in H; each H; subst; cbn; auto.
Lemma ex_alarm_wire : wire toy (fun _ => True) ex_alarm.
Proof.
  split.
  - reflexivity.
  - discriminate.
  - wattrs.
  - intros k l m H. discriminate.
  - intros k p H. apply dict_get_In in H. each H; subst. wpar.
  - constructor; [line_ok|constructor].
Qed.
Lemma ex_event_wire : wire toy (wire_alarm toy) ex_event.
Proof.
  split.
  - reflexivity.
  - discriminate.
  - wattrs; try (split; [nob|wpar]); try nob; try (split; nob). repeat constructor.
  - intros k l m H Hm. apply dict_get_In in H. each H; subst l. destruct Hm as [<-|[]]. exact ex_alarm_wire.
  - intros k p H. apply dict_get_In in H. each H; subst; cbn; try wpar. repeat (constructor; [wpar|]). constructor.
  - constructor; [line_ok|]. constructor; [|constructor]. cbn. split; [discriminate|]. split; [reflexivity|]. split; [nob|exact I].
Qed.
Lemma ex_todo_wire : wire toy (wire_alarm toy) ex_todo.
Proof.
  split.
  - reflexivity.
  - discriminate.
  - wattrs.
  - intros k l m H Hm. apply dict_get_In in H. each H; subst l. destruct Hm.
  - intros k p H. apply dict_get_In in H. each H; subst; cbn; wpar.
  - constructor.
Qed.
Lemma ex_wire_id : wire_id (90 :: dec 1).
Proof. split; [discriminate|]. vm_compute. intuition discriminate. Qed.
Lemma ex_event_wire_entry : wire_entry toy ex_event.
Proof. split; [exact ex_event_wire|]. intros id z z' HU. apply ex_event_use in HU as (-> & _). exact ex_wire_id. Qed.
Lemma ex_calendar_wire : wire_calendar toy ex_calendar.
Proof.
  split; [split|].
  - reflexivity.
  - discriminate.
  - wattrs.
  - intros k l m H Hm. apply dict_get_In in H. each H; subst l; destruct Hm as [<-|[]]; [exact ex_event_wire|exact ex_todo_wire].
  - intros k p H. apply dict_get_In in H. each H; subst; cbn; wpar.
  - constructor; [line_ok|constructor].
  - intros id z z' HU. apply ex_calendar_use in HU as (-> & _). exact ex_wire_id.
Qed.
Lemma ex_alarm_clean : clean_alarm ex_alarm.
Proof. split; [reflexivity|wattrs|intros k l m H; discriminate| |repeat constructor]. intros k p H. apply dict_get_In in H. each H; subst; reflexivity. Qed.
Lemma ex_calendar_clean : clean_calendar ex_calendar.
Proof.
  split; [reflexivity|]. split; [split|].
  - reflexivity.
  - wattrs.
  - intros k l m H Hm. apply dict_get_In in H. each H; subst l; destruct Hm as [<-|[]].
    + split; [cbn; tauto|]. split; [reflexivity|wattrs; [reflexivity|repeat constructor]| | |repeat constructor].
      * intros k1 l m H Hm. apply dict_get_In in H. each H; subst l. destruct Hm as [<-|[]]. exact ex_alarm_clean.
      * intros k1 p H. apply dict_get_In in H. each H; subst; cbn; try reflexivity. repeat constructor.
    + split; [cbn; tauto|]. split; [reflexivity|wattrs| | |constructor].
      * intros k1 l m H Hm. apply dict_get_In in H. each H; subst l. destruct Hm.
      * intros k1 p H. apply dict_get_In in H. each H; subst; reflexivity.
  - intros k p H. apply dict_get_In in H. each H; subst; reflexivity.
  - repeat constructor.
  - constructor; [|constructor]. intros [s E]. discriminate.
Qed.
Lemma ex_calendar_annotated : (forall k l m, dict_get k (c_mem ex_calendar) = Some l -> In m l -> annotated m /\
    forall k' l' n, dict_get k' (c_mem m) = Some l' -> In n l' -> annotated n) /\ annotated ex_calendar.
Proof.
  assert (E : forall M (x : comp M), forallb (fun a => match dict_get a (c_attrs x) with Some (AMany (_ :: _)) => match dict_get (upper a) (c_params x) with Some _ => true | None => false end | _ => true end) NOTE_ATTRS = true -> annotated x).
  { intros M x H a v vs Ha Hv. rewrite forallb_forall in H. apply H in Ha. rewrite Hv in Ha. destruct (dict_get (upper a) (c_params x)); discriminate. }
  split; [|apply E; vm_compute; reflexivity]. intros k l m H Hm. apply dict_get_In in H. each H; subst l; destruct Hm as [<-|[]]; (split; [apply E; vm_compute; reflexivity|]);
    intros k' l' n H Hn; apply dict_get_In in H; each H; subst l'; [|destruct Hn]. destruct Hn as [<-|[]]. apply E. vm_compute. reflexivity.
Qed.
