(** * Examples of storable alarms, events and todos *)
From Verif Require Import M_Base M_Text M_Line M_Codec M_Cal M_Time M_Span M_Dt M_Tree M_Comp.
From Verif Require Import S_Codec S_Dt S_Tree S_Comp S_Store S_Toy P_Base P_Comp.
From Coq Require Import Lia.
Open Scope N_scope.

Lemma toy_utc : utc_env toy.
Proof.
  split; try reflexivity. intros z w f H. destruct z as [[|n]|n|]; try discriminate; reflexivity.
Qed.
Definition ex_at (h : Z) (z : option tz) : datetime := mk_dt (mk_wall 2020 1 1 h 0 0 0) false z.
Definition ex_alarm : alarm :=
  mk_comp CDisplay
    [(py "trigger", AOne (VTd (- 600 * US_SEC)%Z)); (py "repeat", AOne (VInt 3)); (py "duration", ANone); (py "description", AOne (VStr (py "Soon; soon")))]
    [] (py "VALARM") [ILine (mk_line (py "X-A") [] (py "1"))] [(py "ACTION", XOne [(py "X-P", [PRaw (py "p")])])].
Ltac each H := cbn in H; repeat (destruct H as [H|H]); try contradiction.
Lemma key_of {V} k (d : dict V) : dict_get k d <> None -> In k (keys d).
Proof. intro H. destruct (in_dec (list_eq_dec N.eq_dec) k (keys d)) as [I|I]; [exact I|]. now apply dict_get_None in I. Qed.
Ltac somewhere := first [left; reflexivity|right; somewhere].
Ltac no_attr := left; split; [vm_compute; reflexivity|split; vm_compute; reflexivity].
Ltac some_attr t v := right; exists t, v; split; [vm_compute; reflexivity|split; [cbn; tauto|split; [|split; [|split; [try exact I|intros [E|E]; first [discriminate E|vm_compute; reflexivity]]]]]].
Ltac par_ok := split; [discriminate|intros k Hk; cbn in Hk; repeat (destruct Hk as [<-|Hk]); try contradiction; vm_compute; intuition discriminate].
Ltac attrs_ok := intros a H; apply key_of in H; each H; rewrite <- H; eexists; (split; [somewhere|discriminate]).
Ltac mems_ok := intros a H; apply key_of in H; each H; rewrite <- H; somewhere.
Ltac pars_ok := intros a H; apply key_of in H; each H; rewrite <- H; vm_compute; tauto.

Lemma ex_alarm_storable : storable_alarm toy ex_alarm.
Proof.
  split; [vm_compute; tauto|]. split; [split|].
  - reflexivity.
  - intros a s H. each H; injection H as <- <-.
    + some_attr Duration (VTd (- 600 * US_SEC)%Z); [|exact I]. constructor. split; [split; vm_compute; discriminate|reflexivity].
    + some_attr Int (VInt 3); [constructor|exact I].
    + no_attr.
    + some_attr Text (VStr (py "Soon; soon")); [constructor|exact I].
  - attrs_ok.
  - mems_ok.
  - intros a l [].
  - pars_ok.
  - repeat constructor. vm_compute. intuition discriminate.
  - vm_compute. split; [discriminate|easy].
Qed.

Definition ex_line : aline := (Text, [(py "LANGUAGE", [PRaw (py "en")])], [VStr (py "a,b"); VStr (py "c")]).
Definition ex_event : entry :=
  mk_comp CEvent
    [(py "timespan", AOne (VSpan (mk_ts KEvent (Some (ex_at 9 (Some (TzObj 1)))) (Some (ex_at 10 (Some (TzObj 1)))) None PSecond)));
     (py "summary", AOne (VStr (py "Meeting"))); (py "uid", AOne (VStr (py "u1"))); (py "description", ANone); (py "location", ANone);
     (py "url", AOne (VUrl [py "http://a/"])); (py "status", AOne (VStr (py "CONFIRMED"))); (py "created", AOne (VDt (ex_at 8 (Some (TzObj 0)))));
     (py "last_modified", ANone); (py "dtstamp", AOne (VDt (ex_at 8 (Some (TzObj 0))))); (py "attach", AMany []);
     (py "classification", ANone); (py "transparent", AOne (VBool true));
     (py "organizer", AOne (VPerson ROrganizer (EUrl [py "mailto:a@b"]) [(py "CN", [PRaw (py "A")])]));
     (py "geo", AOne (VGeo 1 2)); (py "attendees", AMany []); (py "categories", AMany (flat_map line_values [ex_line]))]
    [(py "alarms", [ex_alarm])] (py "VEVENT") [ILine (mk_line (py "X-B") [(py "Q", [PRaw (py "1")])] (py "2")); ICont (py "X-C") []]
    [(py "BEGIN", XOne [(py "X-P", [PRaw (py "p")])]); (py "SUMMARY", XOne [(py "LANGUAGE", [PRaw (py "en")])]); (py "CATEGORIES", XMany (flat_map line_notes [ex_line]))].
Lemma ex_at_storable h z : (0 <= h <= 23)%Z -> storable_dt toy (ex_at h z).
Proof.
  intro H. assert (HH : (h = 0 \/ h = 1 \/ h = 2 \/ h = 3 \/ h = 4 \/ h = 5 \/ h = 6 \/ h = 7 \/ h = 8 \/ h = 9 \/ h = 10 \/ h = 11 \/ h = 12 \/ h = 13 \/
    h = 14 \/ h = 15 \/ h = 16 \/ h = 17 \/ h = 18 \/ h = 19 \/ h = 20 \/ h = 21 \/ h = 22 \/ h = 23)%Z) by lia.
  split; [reflexivity|]. split; [|split; [|split]].
  - repeat (destruct HH as [-> |HH]; [vm_compute; reflexivity|]). subst. vm_compute. reflexivity.
  - repeat (destruct HH as [-> |HH]; [vm_compute; reflexivity|]). subst. vm_compute. reflexivity.
  - repeat (destruct HH as [-> |HH]; [vm_compute; discriminate|]). subst. vm_compute. discriminate.
  - cbn [ex_at dtz]. destruct z as [z|]; [|exact I]. destruct (z_is_utc (x_zdb toy) z) eqn:E; [now left|right].
    exists (toy_id z), z. split; [|destruct z; discriminate]. split; [reflexivity|]. split; [exact E|reflexivity].
Qed.
Lemma ex_event_storable : storable_entry toy ex_event.
Proof.
  split.
  - reflexivity.
  - intros a s H. each H; injection H as <- <-.
    + exists (mk_ts KEvent (Some (ex_at 9 (Some (TzObj 1)))) (Some (ex_at 10 (Some (TzObj 1)))) None PSecond).
      split; [reflexivity|]. split; [reflexivity|]. split.
      { split; [vm_compute; reflexivity|]. cbn [ts_begin ts_end ts_dur ts_prec]. split; [|split; [|split; [easy|now right]]];
          intros ? [= <-]; apply ex_at_storable; lia. }
      cbn [ts_begin ts_end ts_dur]. split; [par_ok|]. repeat (split; [easy|]). easy.
    + some_attr Text (VStr (py "Meeting")); [constructor|exact I|par_ok].
    + some_attr Text (VStr (py "u1")); [constructor|exact I].
    + no_attr.
    + no_attr.
    + some_attr Uri (VUrl [py "http://a/"]); [constructor; reflexivity|exact I].
    + some_attr Text (VStr (py "CONFIRMED")); [constructor|cbn; tauto].
    + some_attr Datetime (VDt (ex_at 8 (Some (TzObj 0)))); [constructor; apply ex_at_storable; lia|eexists; reflexivity].
    + no_attr.
    + some_attr Datetime (VDt (ex_at 8 (Some (TzObj 0)))); [constructor; apply ex_at_storable; lia|eexists; reflexivity].
    + discriminate.
    + exists []. split; [constructor|]. split; [reflexivity|]. now left.
    + no_attr.
    + some_attr Bool (VBool true); [constructor|exact I].
    + some_attr Organizer (VPerson ROrganizer (EUrl [py "mailto:a@b"]) [(py "CN", [PRaw (py "A")])]); [|exact I].
      constructor; [reflexivity|repeat constructor; easy|vm_compute; intuition discriminate].
    + some_attr Geo (VGeo 1 2); [|exact I]. constructor; [reflexivity|reflexivity|vm_compute; intuition discriminate].
    + exists []. split; [constructor|]. split; [reflexivity|]. now left.
    + exists [ex_line]. split; [|split; [reflexivity|now left]]. constructor; [|constructor]. cbn [storable_line ex_line].
      split; [now left|]. split; [discriminate|]. split; [intros v [<-|[<-|[]]]; (split; [constructor|exact I])|].
      split; [repeat constructor; easy|]. split; [vm_compute; intuition discriminate|]. split; [vm_compute; intuition discriminate|]. intros [E|E]; discriminate.
  - attrs_ok.
  - mems_ok.
  - intros a l m H Hm. cbn [ex_event c_mem dict_get] in H. destruct (str_eqb a (py "alarms")); [|discriminate]. injection H as <-.
    destruct Hm as [<-|[]]. exact ex_alarm_storable.
  - pars_ok.
  - repeat constructor; vm_compute; intuition discriminate.
Qed.
Lemma ex_event_annotated : annotated ex_event.
Proof. intros a v vs [<-|[<-|[<-|[]]]] E; vm_compute in E |- *; discriminate. Qed.
Lemma toy_resolves d id n z z' : dtz d = Some (TzObj n) -> dt_uses toy d id z z' -> resolves toy [] id z.
Proof.
  intros HD (H1 & H2 & H3). rewrite HD in H1. injection H1 as <-. change (Ok (Some (90 :: dec n, TzObj n)) = Ok (Some (id, z'))) in H3. injection H3 as <- <-.
  right. split; [reflexivity|]. left. change (Ok (TzObj (undec (dec n))) = Ok (TzObj n)). now rewrite undec_dec.
Qed.
Lemma dict_get_In {V} k (d : dict V) v : dict_get k d = Some v -> In v (map snd d).
Proof. induction d as [|[a b] d IH]; cbn; [easy|]. destruct (str_eqb k a); [intros [= <-]; now left|auto]. Qed.
Ltac no_dt := match goal with H : In _ _ |- _ => cbn in H; contradiction end.
Lemma ex_alarm_zones id z z' : ~ alarm_uses toy ex_alarm id z z'.
Proof.
  intros [(k & a & d & H & Hd & HU)|(k & l & m & H & _)]; [|discriminate]. apply dict_get_In in H. each H; subst a; cbn in Hd; contradiction.
Qed.
Lemma ex_event_zones id z z' : entry_uses toy ex_event id z z' -> resolves toy [] id z.
Proof.
  intros [(k & a & d & H & Hd & HU)|(k & l & m & H & Hm & HU)].
  - apply dict_get_In in H. each H; subst a; cbn in Hd; repeat (destruct Hd as [Hd|Hd]); try contradiction; subst d;
      (eapply toy_resolves; [|exact HU]); reflexivity.
  - apply dict_get_In in H. each H; subst l. destruct Hm as [<-|[]]. now apply ex_alarm_zones in HU.
Qed.

Definition ex_todo : entry :=
  mk_comp CTodo
    [(py "timespan", AOne (VSpan (mk_ts KTodo (Some (ex_at 0 None)) (Some (mk_dt (mk_wall 2020 1 3 0 0 0 0) false None)) None PDay)));
     (py "summary", ANone); (py "uid", AOne (VStr (py "u2"))); (py "description", ANone); (py "location", ANone); (py "url", ANone);
     (py "status", ANone); (py "created", ANone); (py "last_modified", ANone); (py "dtstamp", AOne (VDt (ex_at 8 (Some (TzObj 0)))));
     (py "attach", AMany []); (py "percent", AOne (VInt 50)); (py "priority", ANone); (py "completed", AOne (VDt (ex_at 9 None)))]
    [(py "alarms", [])] (py "VTODO") [] [(py "DUE", XOne [(py "X-P", [PRaw (py "p")])])].
Lemma ex_day_storable : storable_dt toy (mk_dt (mk_wall 2020 1 3 0 0 0 0) false None).
Proof. split; [reflexivity|]. split; [vm_compute; reflexivity|]. split; [vm_compute; reflexivity|]. split; [vm_compute; discriminate|exact I]. Qed.
Lemma ex_todo_storable : storable_entry toy ex_todo.
Proof.
  split.
  - reflexivity.
  - intros a s H. each H; injection H as <- <-.
    + exists (mk_ts KTodo (Some (ex_at 0 None)) (Some (mk_dt (mk_wall 2020 1 3 0 0 0 0) false None)) None PDay).
      split; [reflexivity|]. split; [reflexivity|]. split.
      { split; [vm_compute; reflexivity|]. cbn [ts_begin ts_end ts_dur ts_prec]. split; [|split; [|split; [easy|now left]]].
        - intros ? [= <-]. apply ex_at_storable. lia.
        - intros ? [= <-]. apply ex_day_storable. }
      cbn [ts_begin ts_end ts_dur]. split; [exact I|]. split; [easy|]. split; [exact I|]. split; [easy|]. split; [par_ok|easy].
    + no_attr.
    + some_attr Text (VStr (py "u2")); [constructor|exact I].
    + no_attr. + no_attr. + no_attr. + no_attr. + no_attr. + no_attr.
    + some_attr Datetime (VDt (ex_at 8 (Some (TzObj 0)))); [constructor; apply ex_at_storable; lia|eexists; reflexivity].
    + discriminate.
    + exists []. split; [constructor|]. split; [reflexivity|]. now left.
    + some_attr Int (VInt 50); [constructor|]. exists 50%Z. split; [easy|lia].
    + no_attr.
    + some_attr Datetime (VDt (ex_at 9 None)); [constructor; apply ex_at_storable; lia|exact I].
  - attrs_ok.
  - mems_ok.
  - intros a l m H Hm. cbn [ex_todo c_mem dict_get] in H. destruct (str_eqb a (py "alarms")); [|discriminate]. injection H as <-. easy.
  - pars_ok.
  - constructor.
Qed.
Lemma ex_todo_zones id z z' : entry_uses toy ex_todo id z z' -> resolves toy [] id z.
Proof.
  intros [(k & a & d & H & Hd & HU)|(k & l & m & H & Hm & HU)].
  - apply dict_get_In in H. each H; subst a; cbn in Hd; repeat (destruct Hd as [Hd|Hd]); try contradiction; subst d;
      first [(eapply toy_resolves; [|exact HU]); reflexivity|destruct HU as (HU & _); discriminate HU].
  - apply dict_get_In in H. each H; subst l. destruct Hm.
Qed.
