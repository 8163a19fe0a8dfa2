(** * A second line for the same attribute of a time zone or observance *)
From Verif Require Import M_Base M_Text M_Line M_Codec M_Cal M_Time M_Span M_Dt M_Tree M_Comp M_Rrule M_Zone M_Vtz M_Fold.
From Verif Require Import P_Base P_Vtz.
Open Scope Z_scope.

Section S.
Variable X : ext.
Variable O : Type.
Variable load_o : str -> list item -> res O.
Variable fields : list zitem.
Notation populate := (zpopulate X O load_o fields).
Notation populate_all := (zpopulate_all X O load_o fields).
Definition has (a : str) (st : zst O) : Prop := dict_get a (z_vals st) <> None.
Lemma has_set a b v d : dict_get (V := zval) a d <> None -> dict_get a (dict_set b v d) <> None.
Proof. intros H. destruct (str_eqb a b) eqn:Q; [apply str_eqb_eq in Q; subst; rewrite dict_get_set_same; discriminate|]. rewrite dict_get_set_other; [exact H|]. intros ->. rewrite str_eqb_refl in Q. discriminate. Qed.
Lemma field_sets f cl st st' : zpopulate_field X O f cl st = Ok st' ->
  dict_get (zf_attr f) (z_vals st) = None /\ exists v, z_vals st' = dict_set (zf_attr f) v (z_vals st).
Proof.
  unfold zpopulate_field. destruct (dict_get (zf_attr f) (z_vals st)) eqn:G; [discriminate|]. intros H.
  destruct (zprepare (zf_conv f) (cl_params cl)) as [ps|]; cbn [bind] in H; [|discriminate].
  destruct (zparse X (zf_conv f) (cl_value cl) ps (z_zones st)) as [[[v ps'] zs]|]; cbn [bind] in H; [|discriminate].
  injection H as <-. split; [reflexivity|]. exists v. reflexivity.
Qed.
Lemma step_keeps it st st' a : populate it st = Ok st' -> has a st -> has a st'.
Proof.
  unfold zpopulate, has. intros H HA. destruct (zlookup fields (item_name it)) as [[f| |]|]; destruct it as [cl|n its]; try discriminate H.
  - apply field_sets in H as (_ & v & ->). apply has_set. exact HA.
  - injection H as <-. exact HA.
  - destruct (load_o n its); cbn [bind] in H; [|discriminate]. injection H as <-. exact HA.
  - injection H as <-. exact HA.
  - injection H as <-. exact HA.
Qed.
Lemma all_keeps its : forall st st' a, populate_all its st = Ok st' -> has a st -> has a st'.
Proof.
  induction its as [|it its IH]; intros st st' a H HA; cbn [zpopulate_all] in H; [injection H as <-; exact HA|].
  destruct (populate it st) as [s1|] eqn:P; cbn [bind] in H; [|discriminate]. apply (IH s1 _ _ H). exact (step_keeps _ _ _ _ P HA).
Qed.
Lemma all_seen its l f : In (ILine l) its -> zlookup fields (cl_name l) = Some (ZField f) ->
  forall st st', populate_all its st = Ok st' -> has (zf_attr f) st'.
Proof.
  intros HI HL. induction its as [|it its IH]; [destruct HI|]. intros st st' H. cbn [zpopulate_all] in H.
  destruct (populate it st) as [s1|] eqn:P; cbn [bind] in H; [|discriminate]. destruct HI as [-> |HI]; [|exact (IH HI s1 _ H)].
  apply (all_keeps _ _ _ _ H). unfold zpopulate in P. cbn [item_name] in P. rewrite HL in P. apply field_sets in P as (_ & v & Q).
  unfold has. rewrite Q, dict_get_set_same. discriminate.
Qed.
Lemma all_app a b st : populate_all (a ++ b) st = do st' <- populate_all a st; populate_all b st'.
Proof. revert st. induction a as [|x a IH]; intro st; [easy|]. cbn [app zpopulate_all]. destruct (populate x st); cbn [bind]; [apply IH|easy]. Qed.
Lemma second_line pre l l' c f : In (ILine l) pre -> cl_name l' = cl_name l -> zlookup fields (cl_name l) = Some (ZField f) ->
  exists e, populate_all (pre ++ ILine l' :: c) z0 = Err e /\ ((exists st, populate_all pre z0 = Ok st) -> e = ValueError).
Proof.
  intros HI HN HL. rewrite all_app. destruct (populate_all pre z0) as [st|e] eqn:P; cbn [bind].
  - exists ValueError. split; [|reflexivity]. pose proof (all_seen pre l f HI HL z0 st P) as HS. cbn [zpopulate_all].
    unfold zpopulate. cbn [item_name]. rewrite HN, HL. unfold zpopulate_field. unfold has in HS. destruct (dict_get (zf_attr f) (z_vals st)); [reflexivity|now elim HS].
  - exists e. split; [reflexivity|]. intros (st & Q). discriminate.
Qed.
End S.

Section L.
Variable X : ext.
Variable rule_parse : option Z -> str -> res rule.
Variable date_parse : str -> res Z.
Lemma zone_second pre l l' c : In (ILine l) pre -> cl_name l' = cl_name l ->
  In (cl_name l) [py "TZID"; py "TZURL"; py "LAST-MODIFIED"] ->
  exists e, load_zone X rule_parse date_parse (py "VTIMEZONE") (pre ++ ILine l' :: c) = Err e /\
    ((exists z, load_zone X rule_parse date_parse (py "VTIMEZONE") pre = Ok z) -> e = ValueError).
Proof.
  intros HI HN HF. assert (HL : exists f, zlookup zone_fields (cl_name l) = Some (ZField f)).
  { destruct HF as [<- |[<- |[<- |[]]]]; eexists; reflexivity. }
  destruct HL as (f & HL). destruct (second_line X observance (load_obs X rule_parse date_parse) zone_fields pre l l' c f HI HN HL) as (e & HE & HV).
  exists e. unfold load_zone, zload. change (str_eqb (py "VTIMEZONE") (py "VTIMEZONE")) with true. cbv iota. rewrite HE. split; [reflexivity|].
  intros (z & HZ). apply HV. destruct (zpopulate_all X observance (load_obs X rule_parse date_parse) zone_fields pre z0) as [st|]; [now exists st|discriminate HZ].
Qed.
Lemma obs_second n pre l l' c : In n [STANDARD; DAYLIGHT] -> In (ILine l) pre -> cl_name l' = cl_name l ->
  In (cl_name l) [py "TZOFFSETFROM"; py "TZOFFSETTO"; py "TZNAME"; py "COMMENT"] ->
  exists e, load_obs X rule_parse date_parse n (pre ++ ILine l' :: c) = Err e /\
    ((exists o, load_obs X rule_parse date_parse n pre = Ok o) -> e = ValueError).
Proof.
  intros Hn HI HN HF. assert (HL : exists f, zlookup obs_fields (cl_name l) = Some (ZField f)).
  { destruct HF as [<- |[<- |[<- |[<- |[]]]]]; eexists; reflexivity. }
  destruct HL as (f & HL). destruct (second_line X Empty_set no_obs obs_fields pre l l' c f HI HN HL) as (e & HE & HV).
  exists e. unfold load_obs, zload. replace (str_eqb n STANDARD || str_eqb n DAYLIGHT) with true by (destruct Hn as [<- |[<- |[]]]; reflexivity). rewrite HE. split; [reflexivity|].
  intros (z & HZ). apply HV. destruct (zpopulate_all X Empty_set no_obs obs_fields pre z0) as [st|]; [now exists st|discriminate HZ].
Qed.
End L.
