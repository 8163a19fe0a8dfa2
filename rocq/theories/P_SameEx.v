(** * Examples: equal components are written alike (C67) *)
From Verif Require Import M_Base M_Text M_Line M_Codec M_Cal M_Time M_Span M_Dt M_Fold M_Tree M_Comp M_Open M_Serial.
From Verif Require Import S_Line S_Fold S_Tree S_Comp S_Store S_Ref S_Wire S_Again S_Toy S_Same.
From Verif Require Import P_Base P_StoreEx P_Calendar P_CalendarEx P_AgainEx P_Same P_Same2.
From Coq Require Import Lia ZifyBool ZifyNat ZifyN.
Open Scope N_scope.

Section Refl.
Variable X : ext.
Lemma dt_refl d : eq_dt X d d. Proof. split; [reflexivity|split; [reflexivity|now left]]. Qed.
Lemma opt_refl {A} (R : A -> A -> Prop) : (forall x, R x x) -> forall o, eq_opt R o o.
Proof. intros H [x|]; [exact (H x)|exact I]. Qed.
Lemma val_refl v : eq_val X v v.
Proof.
  destruct v; cbn; try reflexivity; [apply dt_refl|split; [reflexivity|split; reflexivity]|].
  split; [reflexivity|]. split; [apply opt_refl, dt_refl|]. split; [apply opt_refl, dt_refl|]. split; reflexivity.
Qed.
Lemma comp_refl {M} (EM : M -> M -> Prop) : (forall m, EM m m) -> forall c, eq_comp X EM c c.
Proof.
  intros H c. constructor; [reflexivity|reflexivity|apply F2_refl, item_refl| | |]; intro k; apply opt_refl.
  - intros [|v|l]; cbn; [exact I|apply val_refl|apply F2_refl, val_refl].
  - intro l. now apply F2_refl.
  - intros [p|l]; reflexivity.
Qed.
Lemma entry_refl e : equal_entry X e e.
Proof. apply comp_refl. intro a. apply comp_refl. exact (fun _ => I). Qed.
End Refl.
(** The calendar with its parameter values quoted. *)
Definition quote_all (p : xpar) : xpar :=
  let q := map (fun kv : list N * list pval => (fst kv, map (fun v => PQuoted (pval_str v)) (snd kv))) in
  match p with XOne p => XOne (q p) | XMany l => XMany (map q l) end.
Definition quoted_calendar : M_Comp.calendar := set_params (map (fun kv => (fst kv, quote_all (snd kv))) (c_params again_calendar)) again_calendar.
Lemma quoted_equal : equal_calendar toy again_calendar quoted_calendar.
Proof.
  pose proof (comp_refl toy (equal_entry toy) (entry_refl toy) again_calendar) as H. constructor; try apply H. intro k. unfold quoted_calendar. cbn [c_params set_params].
  induction (c_params again_calendar) as [|[j p] l IH]; [exact I|]. cbn [map dict_get fst snd]. destruct (str_eqb k j); [|exact IH]. destruct p as [p|ps]; cbn [eq_opt quote_all eq_par].
  - unfold bare. rewrite map_map. apply map_ext. intros [i vs]. cbn [fst snd]. f_equal. rewrite map_map. reflexivity.
  - rewrite map_map. apply map_ext. intro q. unfold bare. rewrite map_map. apply map_ext. intros [i vs]. cbn [fst snd]. f_equal. rewrite map_map. reflexivity.
Qed.
Fixpoint tightb (it : item) : bool :=
  match it with
  | ILine l => forallb (fun kv => forallb (fun v => match v with PQuoted s => needs_quote s | PRaw _ => true end) (snd kv)) (cl_params l)
  | ICont _ its => (fix all l := match l with [] => true | i :: l' => tightb i && all l' end) its
  end.
Lemma tightb_ok : forall it, tightb it = true -> tight it.
Proof.
  fix IH 1. intros [l|n its] H; cbn [tightb tight] in *.
  - intros k vs s I J. rewrite forallb_forall in H. specialize (H _ I). cbn in H. rewrite forallb_forall in H. specialize (H _ J). cbn in H. now apply quote_needed.
  - induction its as [|i its IHi]; [exact I|]. apply andb_true_iff in H as [A B]. split; [now apply IH|now apply IHi].
Qed.
Definition again_item : item := Eval vm_compute in match dump_calendar toy again_calendar with Ok it => it | Err _ => ICont [] [] end.
Lemma again_item_is : dump_calendar toy again_calendar = Ok again_item. Proof. vm_compute. reflexivity. Qed.
Lemma again_tight : tight again_item. Proof. apply tightb_ok. vm_compute. reflexivity. Qed.
(** Quotes are kept, so equal calendars can have different texts. *)
Theorem quotes_refuted : exists c d t u, equal_calendar toy c d /\ calendar_serialize toy true id_split (Some 75%nat) c = Ok t /\
  calendar_serialize toy true id_split (Some 75%nat) d = Ok u /\ t <> u.
Proof.
  exists again_calendar, quoted_calendar. eexists. eexists. split; [exact quoted_equal|]. split; [vm_compute; reflexivity|]. split; [vm_compute; reflexivity|].
  intro H. apply (f_equal (@length N)) in H. vm_compute in H. discriminate H.
Qed.
