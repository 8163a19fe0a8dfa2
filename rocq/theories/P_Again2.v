(** * Proofs for C59: components that were read are storable *)
From Verif Require Import M_Base M_Text M_Line M_Codec M_Cal M_Time M_Span M_Dt M_Tree M_Comp.
From Verif Require Import S_Text S_Codec S_Dt S_Line S_Fold S_Tree S_Comp S_Multi S_Store S_Ref S_Wire S_Read S_Again.
From Verif Require Import P_Base P_Cal P_Dt P_Codec P_Person P_Multi P_ReadSpan P_ReadVal P_Read P_Again.
From Coq Require Import Lia ZifyBool ZifyNat ZifyN.
Open Scope N_scope.

Section Again.
Variable X : ext.
Variable zs : zones.
Hypothesis HU : utc_env X.
Hypothesis HT : text_env X.
Section Comp.
Variable M : Type.
Variable c : cls.
Variable its : list item.
Variable x : comp M.
Hypothesis HL : forall l, In (ILine l) its -> NoDup (keys (cl_params l)).
Hypothesis KA : forall k a, dict_get k (c_attrs x) = Some a -> keepable_attr X a.
Hypothesis KN : forall k qs, dict_get k (c_params x) = Some (XMany qs) -> Forall note_last qs.

(** ** Time spans *)
Lemma time_dt n key p d : time_read X zs n key its x p (Some d) -> keepable_dt X d ->
  storable_dt X d /\ storable_par x key [py "VALUE"; py "TZID"] /\ (p = Some PDay \/ p = Some PSecond).
Proof.
  intros (ls & OL & R) K. destruct ls as [|l [|l' ls]]; [now destruct R| |contradiction]. destruct R as (q & d' & rest & (-> & TV) & -> & [= <-] & PA).
  assert (IL : In (ILine l) its) by (apply (only_In its _ _ _ OL); now left). pose proof (fine_line its HL l IL) as F. split; [|split].
  - destruct (option_map _ _) as [w|]; [destruct TV as [(_ & _ & TV)|(_ & _ & e & TV & E)]|destruct TV as [_ TV]];
      apply moment_wall in TV as [T1 T2]; [now apply dt_storable| |now apply dt_storable].
    rewrite E in K |- *. now apply dt_storable.
  - eapply params_par; [exact PA|]. intros k [<-|[<-|[]]].
    + intro I. apply del_incl in I. now apply F in I.
    + apply del_not_In, F.
  - destruct (option_map _ _) as [w|]; [destruct TV as [(_ & -> & TV)|(_ & -> & TV)]|destruct TV as [-> TV]]; auto.
Qed.
Lemma time_no n key p o : time_read X zs n key its x p o -> o = None -> no_par x key.
Proof. intros (ls & OL & R) ->. destruct ls as [|l [|l' ls]]; [now destruct R| |contradiction]. destruct R as (q & d' & rest & _ & _ & [=] & _). Qed.
Lemma length_dur o : length_read its x o -> (forall d, o = Some d -> storable_dur d) /\ storable_par x (py "DURATION") [] /\ (o = None -> no_par x (py "DURATION")).
Proof.
  intros (ls & OL & R). destruct ls as [|l [|l' ls]]; [destruct R as [-> PA]| |contradiction].
  - split; [easy|]. split; [|easy]. eapply params_par; [exact PA|easy].
  - destruct R as (secs & _ & B & -> & PA). split; [intros d [= <-]; now apply dur_storable|]. split; [|easy]. eapply params_par; [exact PA|easy].
Qed.
Lemma par_no key l : no_par x key -> storable_par x key l. Proof. unfold no_par, storable_par. now intros ->. Qed.
Lemma span_storable : is_entry c = true -> span_read X zs c its x -> no_par x (py "END") -> (c = CEvent -> no_par x (py "DUE")) ->
  storable_field X x (py "timespan") (Span (if match c with CTodo => true | _ => false end then KTodo else KEvent)).
Proof.
  intros HE SR NE ND. unfold span_read in SR. destruct c; try discriminate HE; cbv beta iota in SR |- *.
  - destruct SR as (p & b & e & e' & d & RB & RE & RE' & RD & BF & NP & V & GA). specialize (ND eq_refl).
    pose proof (KA _ _ GA) as K. cbn [keepable_attr keepable_val val_dts ts_begin ts_end] in K. destruct (length_dur _ RD) as (D1 & D2 & D3).
    eexists. split; [exact GA|]. split; [reflexivity|]. cbn [ts_begin ts_end ts_dur]. split; [|split; [|split; [|split; [exact D2|split; [exact D3|split; [now apply par_no|easy]]]]]].
    + split; [exact V|]. cbn [ts_begin ts_end ts_dur ts_prec]. split; [|split; [|split; [exact D1|]]].
      * intros b' ->. apply (time_dt _ _ _ _ RB). apply K. now left.
      * intros b' ->. apply (time_dt _ _ _ _ RE). apply K. apply in_or_app. right. now left.
      * destruct b as [b|]; [|destruct e as [e|]].
        -- destruct (time_dt _ _ _ _ RB) as (_ & _ & [-> | ->]); [apply K; now left|now left|now right].
        -- destruct (time_dt _ _ _ _ RE) as (_ & _ & [-> | ->]); [apply K; now left|now left|now right].
        -- now rewrite NP.
    + destruct b as [b|]; [|apply par_no; eapply time_no; [exact RB|reflexivity]]. apply (time_dt _ _ _ _ RB). apply K. now left.
    + intros ->. eapply time_no; [exact RB|reflexivity].
  - destruct SR as (p & b & e & e' & d & RB & RE & RE' & RD & BF & NP & V & GA).
    pose proof (KA _ _ GA) as K. cbn [keepable_attr keepable_val val_dts ts_begin ts_end] in K. destruct (length_dur _ RD) as (D1 & D2 & D3).
    eexists. split; [exact GA|]. split; [reflexivity|]. cbn [ts_begin ts_end ts_dur]. split; [|split; [|split; [|split; [exact D2|split; [exact D3|split]]]]].
    + split; [exact V|]. cbn [ts_begin ts_end ts_dur ts_prec]. split; [|split; [|split; [exact D1|]]].
      * intros b' ->. apply (time_dt _ _ _ _ RB). apply K. now left.
      * intros b' ->. apply (time_dt _ _ _ _ RE). apply K. apply in_or_app. right. now left.
      * destruct b as [b|]; [|destruct e as [e|]].
        -- destruct (time_dt _ _ _ _ RB) as (_ & _ & [-> | ->]); [apply K; now left|now left|now right].
        -- destruct (time_dt _ _ _ _ RE) as (_ & _ & [-> | ->]); [apply K; now left|now left|now right].
        -- now rewrite NP.
    + destruct b as [b|]; [|apply par_no; eapply time_no; [exact RB|reflexivity]]. apply (time_dt _ _ _ _ RB). apply K. now left.
    + intros ->. eapply time_no; [exact RB|reflexivity].
    + destruct e as [e|]; [|apply par_no; eapply time_no; [exact RE|reflexivity]]. apply (time_dt _ _ _ _ RE). apply K. apply in_or_app. right. now left.
    + intros ->. eapply time_no; [exact RE|reflexivity].
Qed.
End Comp.

(** ** The tables of the two specifications *)
Definition kind_of (c : cls) : kind := if match c with CTodo => true | _ => false end then KTodo else KEvent.
Definition shape_read (c : cls) (p : list N * shape) : Prop :=
  match snd p with
  | One tys ok opt => match find (fun f => str_eqb (fst p) (g_attr f)) (singles c) with
                      | Some f => tys = map snd (g_types f) /\ rule_ok X (g_rule f) ok /\ without X c f tys ok opt
                      | None => False
                      end
  | Many tys => match find (fun f => str_eqb (fst p) (h_attr f)) (multiples c) with
                | Some f => tys = map snd (h_types f) /\ forall t, In t tys -> unshared t \/ t = Attendee
                | None => False
                end
  | Span k => fst p = py "timespan" /\ is_entry c = true /\ k = kind_of c
  | Members => match find (fun m => str_eqb (fst p) (fst (fst m))) (members c) with Some _ => True | None => False end
  end.
Lemma without_uid c f : g_attr f = py "uid" -> without X c f [Text] any false.
Proof.
  intros E. right. right. exists Text, (VStr (x_uid X)). rewrite E. split; [reflexivity|]. split; [now left|]. split; [constructor|]. split; [easy|]. now intros [?|?].
Qed.
Lemma without_stamp c f : g_attr f = py "dtstamp" -> without X c f [Datetime] (utc_ok X) false.
Proof.
  intros E. right. right. exists Datetime, (VDt (x_now X)). rewrite E. split; [reflexivity|]. split; [now left|]. destruct (te_now X HT) as (w & EN & W). split; [|split; [now exists w; rewrite EN|now intros [?|?]]].
  intro K. constructor. apply dt_storable; [now rewrite EN|now rewrite EN|exact K].
Qed.
Lemma shapes_read c : Forall (shape_read c) (shapes X c).
Proof.
  destruct c; cbn [shapes entry_shapes alarm_shapes app]; repeat (apply Forall_cons); try apply Forall_nil; unfold shape_read; cbn [fst snd];
    repeat match goal with |- context[find ?g ?l] => let r := eval vm_compute in (find g l) in change (find g l) with r; cbv iota end.
  all: try exact I.
  all: try (split; [reflexivity|]; split; reflexivity).
  all: try (split; [reflexivity|]; intros t HI; cbn [In] in HI; unfold unshared; repeat destruct HI as [<-|HI]; auto; contradiction).
  all: try (split; [reflexivity|]; split; [reflexivity|]; first [now apply without_uid|now apply without_stamp|right; left; now split|left; cbn; auto]).
Qed.
Lemma find_attr {A} (g : A -> list N) a l f : find (fun f => str_eqb a (g f)) l = Some f -> In f l /\ g f = a.
Proof. intro H. apply find_some in H as [H1 H2]. apply str_eqb_eq in H2. now split. Qed.
Lemma field_storable {M} RM c its (x : comp M) a s : (forall l, In (ILine l) its -> NoDup (keys (cl_params l))) ->
  (forall k a, dict_get k (c_attrs x) = Some a -> keepable_attr X a) -> (forall k qs, dict_get k (c_params x) = Some (XMany qs) -> Forall note_last qs) ->
  no_par x (py "END") -> (c = CEvent -> no_par x (py "DUE")) -> reads X zs RM c its x -> In (a, s) (shapes X c) -> storable_field X x a s.
Proof.
  intros HL KA KN KE KD R I. pose proof (proj1 (Forall_forall _ _) (shapes_read c) _ I) as S. clear I. unfold shape_read in S. cbn [fst snd] in S.
  destruct s as [tys ok opt|tys|k|].
  - destruct (find _ _) as [f|] eqn:E; [|contradiction]. apply find_attr in E as [I <-]. destruct S as (S1 & S2 & S3).
    apply one_storable with (zs := zs) (c := c) (its := its); try assumption. now apply (rd_one _ _ _ _ _ _ R).
  - destruct (find _ _) as [f|] eqn:E; [|contradiction]. apply find_attr in E as [I <-]. destruct S as (-> & S2).
    apply many_storable with (zs := zs) (its := its); try assumption. now apply (rd_many _ _ _ _ _ _ R).
  - destruct S as (-> & S2 & ->). apply span_storable with (its := its); try assumption. now apply (rd_span _ _ _ _ _ _ R).
  - destruct (find _ _) as [[[a' n] k]|] eqn:E; [|contradiction]. apply find_some in E as [I E]. cbn [fst] in E. apply str_eqb_eq in E. subst a'.
    destruct (rd_members _ _ _ _ _ _ R _ _ _ I) as (_ & ms & G & _). cbn [storable_field]. congruence.
Qed.
Definition shape_named (c : cls) (k : list N) : bool := existsb (fun p => str_eqb k (fst p) && match snd p with Members => false | _ => true end)%bool (shapes X c).
Lemma attrs_shapes c : forallb (shape_named c) (S_Read.attr_names c) = true.
Proof. destruct c; vm_compute; reflexivity. Qed.
Lemma mems_shapes c : forallb (fun k => existsb (fun p => str_eqb k (fst p) && match snd p with Members => true | _ => false end)%bool (shapes X c)) (map (fun m => fst (fst m)) (members c)) = true.
Proof. destruct c; vm_compute; reflexivity. Qed.
Lemma pars_shapes c : forallb (fun k => str_eqb k (py "END") || match c with CEvent => str_eqb k (py "DUE") | _ => false end || existsb (str_eqb k) (par_keys X c))%bool (param_names c) = true.
Proof. destruct c; vm_compute; reflexivity. Qed.

Lemma reads_storable {M} RM (KM : M -> Prop) (SM : list N -> M -> Prop) c its (x : comp M) :
  (forall l, In (ILine l) its -> NoDup (keys (cl_params l))) -> reads X zs RM c its x -> keepable X KM x ->
  (forall a n k sub m, In (a, n, k) (members c) -> In sub (subs n its) -> RM k sub m -> KM m -> SM a m) -> storable X SM x.
Proof.
  intros HL R K HM. pose proof (rd_cls _ _ _ _ _ _ R) as EC. destruct K as [K1 K2 K3 K4 K5 K6]. rewrite EC in *.
  constructor; rewrite ?EC.
  - rewrite title_NAME. apply (rd_name _ _ _ _ _ _ R).
  - intros a s I. eapply field_storable; eauto.
  - intros a G. apply (rd_attrs _ _ _ _ _ _ R) in G. apply (proj1 (forallb_forall _ _) (attrs_shapes c)) in G. apply existsb_exists in G as ((b & s) & I & E).
    apply Bool.andb_true_iff in E as [E1 E2]. apply str_eqb_eq in E1. cbn [fst snd] in *. subst b. exists s. split; [exact I|]. now intros ->.
  - intros a G. apply (rd_mems _ _ _ _ _ _ R) in G. apply (proj1 (forallb_forall _ _) (mems_shapes c)) in G. apply existsb_exists in G as ((b & s) & I & E).
    apply Bool.andb_true_iff in E as [E1 E2]. apply str_eqb_eq in E1. cbn [fst snd] in *. subst b. now destruct s.
  - intros a l m G I. pose proof (K6 _ _ _ G I) as KM'. assert (IA : In a (map (fun m => fst (fst m)) (members c))) by (apply (rd_mems _ _ _ _ _ _ R); congruence).
    apply in_map_iff in IA as (((b & n) & k) & EB & IM). cbn [fst] in EB. subst b. destruct (rd_members _ _ _ _ _ _ R _ _ _ IM) as (_ & ms & G' & F).
    rewrite G in G'. injection G' as <-. destruct (F2_r _ _ _ _ F I) as (sub & IS & RS). eapply HM; eauto.
  - intros k G. pose proof (rd_params _ _ _ _ _ _ R _ G) as I. apply (proj1 (forallb_forall _ _) (pars_shapes c)) in I. apply Bool.orb_true_iff in I as [I|I].
    + exfalso. apply Bool.orb_true_iff in I as [I|I]; [apply str_eqb_eq in I; subst k; now apply G|].
      destruct c; try discriminate. apply str_eqb_eq in I. subst k. now apply G, K5.
    + apply existsb_exists in I as (k' & I & E). apply str_eqb_eq in E. now subst k'.
  - pose proof (rd_extra _ _ _ _ _ _ R) as U. clear - U. remember (c_extra x) as us. clear Hequs. induction U; auto.
Qed.
End Again.
