(** * Proofs about VTIMEZONE lookups *)
From Verif Require Import M_Base P_Base M_Codec M_Cal P_Span M_Zone S_Zone.
From Coq Require Import Lia ZifyBool ZifyNat ZifyN.
Ltac Zify.zify_post_hook ::= Z.div_mod_to_equations.
Open Scope Z_scope.

Lemma onset_before_time c w f : (f = true -> wall_ok (time_for c w f) = true) ->
  onset_before c w f = Ok (ob_before c (time_for c w f)).
Proof.
  unfold onset_before, time_for, ob_diff. intros H. destruct f; [|now rewrite andb_false_r]. rewrite andb_true_r. specialize (H eq_refl).
  destruct (Z.ltb_spec (ob_to c - ob_from c) 0), (Z.ltb_spec (ob_to c) (ob_from c)); try lia; [|easy].
  replace (w - (ob_to c - ob_from c)) with (w + (ob_from c - ob_to c)) by lia. now rewrite H.
Qed.

Section Onsets.
Variable onset : obs -> Z -> Prop.

Lemma latest_fun c t o o' : latest onset c t o -> latest onset c t o' -> o = o'.
Proof. intros (H1 & H2 & H3) (H4 & H5 & H6). specialize (H3 _ H4 H5). specialize (H6 _ H1 H2). lia. Qed.

(** The loop keeps the best observance of the prefix. *)
Definition best (pre : list obs) (w : Z) (f : bool) (last : option (Z * obs)) : Prop :=
  match last with
  | None => forall c, In c pre -> ~ started onset c w f
  | Some (o, c) => exists p q, pre = p ++ c :: q /\ latest onset c (time_for c w f) o /\
      (forall c' o', In c' p -> latest onset c' (time_for c' w f) o' -> o' < o) /\
      (forall c' o', In c' q -> latest onset c' (time_for c' w f) o' -> o' <= o)
  end.
Lemma find_last_best l w f : forall pre last, (forall c, In c l -> rule_ok onset c) ->
  (forall c, In c l -> f = true -> wall_ok (time_for c w f) = true) -> best pre w f last ->
  exists last', find_last l w f last = Ok last' /\ best (pre ++ l) w f last'.
Proof.
  induction l as [|c l IH]; intros pre last HR HW HB; [exists last; now rewrite app_nil_r|].
  cbn [find_last]. rewrite onset_before_time by (apply HW; now left). cbn [bind].
  replace (pre ++ c :: l) with ((pre ++ [c]) ++ l) by now rewrite <- app_assoc.
  apply IH; [intros; apply HR; now right|intros; apply HW; [now right|easy]|].
  pose proof (HR c (or_introl eq_refl) (time_for c w f)) as HC. destruct (ob_before c (time_for c w f)) as [x|].
  - destruct last as [[y b]|].
    + destruct HB as (p & q & -> & HL & H1 & H2). destruct (Z.ltb_spec y x) as [L|L].
      * exists (p ++ b :: q), []. split; [easy|]. split; [easy|]. split; [|easy].
        intros c' o' HI HO. apply in_app_or in HI as [HI|[<-|HI]].
        -- specialize (H1 _ _ HI HO). lia.
        -- rewrite (latest_fun _ _ _ _ HO HL). lia.
        -- specialize (H2 _ _ HI HO). lia.
      * exists p, (q ++ [c]). split; [now rewrite <- app_assoc|]. split; [easy|]. split; [easy|].
        intros c' o' HI HO. apply in_app_or in HI as [HI|[<-|[]]]; [now apply (H2 c')|]. rewrite (latest_fun _ _ _ _ HO HC). lia.
    + exists pre, []. split; [easy|]. split; [easy|]. split; [|easy].
      intros c' o' HI (HO1 & HO2 & _). exfalso. apply (HB c' HI). now exists o'.
  - destruct last as [[y b]|].
    + destruct HB as (p & q & -> & HL & H1 & H2). exists p, (q ++ [c]). split; [now rewrite <- app_assoc|]. split; [easy|]. split; [easy|].
      intros c' o' HI HO. apply in_app_or in HI as [HI|[<-|[]]]; [now apply (H2 c')|]. destruct HO as (O1 & O2 & _). now apply HC in O2.
    + intros c' HI. apply in_app_or in HI as [HI|[<-|[]]]; [now apply HB|]. intros (o & O1 & O2). now apply HC in O2.
Qed.
Lemma first_standard_spec l : match first_standard l with
  | Some c => exists pre post, l = pre ++ c :: post /\ ob_dst c = false /\ forall c', In c' pre -> ob_dst c' = true
  | None => forall c, In c l -> ob_dst c = true end.
Proof.
  induction l as [|c l IH]; [easy|]. cbn [first_standard]. destruct (ob_dst c) eqn:ED.
  - destruct (first_standard l) as [b|].
    + destruct IH as (pre & post & -> & H1 & H2). exists (c :: pre), post. split; [easy|]. split; [easy|]. intros c' [<-|HI]; auto.
    + intros c' [<-|HI]; auto.
  - exists [], l. easy.
Qed.
Lemma find_cachable_in_force l w f : l <> [] -> (forall c, In c l -> rule_ok onset c) ->
  (forall c, In c l -> f = true -> wall_ok (time_for c w f) = true) ->
  exists c, find_cachable l w f = Ok c /\ in_force onset l w f c.
Proof.
  intros HN HR HW. unfold find_cachable. destruct (find_last_best l w f [] None HR HW) as (last & -> & HB); [easy|]. cbn [bind].
  cbn [app] in HB. destruct last as [[o c]|].
  - exists c. split; [easy|]. destruct HB as (p & q & HE & HL & H1 & H2). now apply (if_started _ l w f p c q o).
  - pose proof (first_standard_spec l) as HS. destruct (first_standard l) as [c|].
    + exists c. split; [easy|]. destruct HS as (pre & post & HE & H1 & H2). now apply (if_standard _ l w f pre c post).
    + destruct l as [|c l]; [easy|]. exists c. split; [easy|]. now apply (if_first _ (c :: l) w f c l).
Qed.
Lemma single_in_force c w f : rule_ok onset c -> in_force onset [c] w f c.
Proof.
  intros HR. pose proof (HR (time_for c w f)) as HC. destruct (ob_before c (time_for c w f)) as [o|].
  - apply (if_started _ [c] w f [] c [] o); easy.
  - assert (HN : forall c', In c' [c] -> ~ started onset c' w f) by (intros c' [<-|[]] (o & O1 & O2); now apply HC in O2).
    destruct (ob_dst c) eqn:ED.
    + apply (if_first _ [c] w f c []); [easy|easy|]. now intros c' [<-|[]].
    + now apply (if_standard _ [c] w f [] c []).
Qed.
(** The observance in force is unique (as an item of the list). *)
Lemma app_split {A} (p q p' q' : list A) x y : p ++ x :: q = p' ++ y :: q' ->
  (p = p' /\ x = y /\ q = q') \/ (In x p' /\ In y q) \/ (In y p /\ In x q').
Proof.
  revert p'. induction p as [|a p IH]; intros [|b p'] H; cbn in H; injection H.
  - intros -> ->. now left.
  - intros -> ->. right. left. split; [now left|apply in_or_app; right; now left].
  - intros <- ->. right. right. split; [now left|apply in_or_app; right; now left].
  - intros H' ->. destruct (IH p' H') as [(-> & -> & ->)|[[H1 H2]|[H1 H2]]]; [now left|right; left; split; [now right|easy]|right; right; split; [now right|easy]].
Qed.
Lemma in_force_fun l w f c c' : in_force onset l w f c -> in_force onset l w f c' -> c = c'.
Proof.
  assert (ST : forall c t o, time_for c w f = t -> latest onset c t o -> started onset c w f).
  { intros b t o <- (O1 & O2 & _). now exists o. }
  assert (MM : forall (p q : list obs) x, In x (p ++ x :: q)) by (intros; apply in_or_app; right; now left).
  intros H H'. destruct H as [p b q o HE HL H1 H2|p b q HE HN HD HP|b q HE HN HA], H' as [p' b' q' o' HE' HL' H1' H2'|p' b' q' HE' HN' HD' HP'|b' q' HE' HN' HA'].
  - rewrite HE in HE'. destruct (app_split _ _ _ _ _ _ HE') as [(_ & -> & _)|[[I1 I2]|[I1 I2]]]; [easy| |].
    + specialize (H1' _ _ I1 HL). specialize (H2 _ _ I2 HL'). lia.
    + specialize (H1 _ _ I1 HL'). specialize (H2' _ _ I2 HL). lia.
  - exfalso. apply (HN' b); [rewrite HE; apply MM|now apply (ST b _ o eq_refl)].
  - exfalso. apply (HN' b); [rewrite HE; apply MM|now apply (ST b _ o eq_refl)].
  - exfalso. apply (HN b'); [rewrite HE'; apply MM|now apply (ST b' _ o' eq_refl)].
  - rewrite HE in HE'. destruct (app_split _ _ _ _ _ _ HE') as [(_ & -> & _)|[[I1 I2]|[I1 I2]]]; [easy| |].
    + apply HP' in I1. congruence.
    + apply HP in I1. congruence.
  - exfalso. assert (ob_dst b = true) by (apply HA'; rewrite HE; apply MM). congruence.
  - exfalso. apply (HN b'); [rewrite HE'; apply MM|now apply (ST b' _ o' eq_refl)].
  - exfalso. assert (ob_dst b' = true) by (apply HA; rewrite HE'; apply MM). congruence.
  - congruence.
Qed.
End Onsets.

Lemma answer_told q c : told q c (answer_of q c).
Proof. destruct q; easy. Qed.

(** ** The cache *)
Local Opaque CACHE_SIZE.
Definition sound (l : list obs) (m : cache) : Prop :=
  forall k c, In (k, c) m -> find_cachable l k false = Ok c \/ find_cachable l k true = Ok c.
Lemma cache_get_in k m c : cache_get k m = Some c -> In (k, c) m.
Proof.
  induction m as [|[k' c'] m IH]; [easy|]. cbn. destruct (Z.eqb_spec k k') as [->|]; [intros [= ->]; now left|intros H; right; auto].
Qed.
Lemma cache_del_in k m x : In x (cache_del k m) -> In x m.
Proof.
  induction m as [|[k' c'] m IH]; [easy|]. cbn. destruct (k =? k'); [now right|]. intros [->|H]; [now left|right; auto].
Qed.
Lemma firstn_in {A} n (l : list A) x : In x (firstn n l) -> In x l.
Proof. revert l. induction n as [|n IH]; intros [|a l]; cbn; try easy. intros [->|H]; auto. Qed.
Lemma ask_sound l m q w f : sound l m -> sound l (fst (ask l m q w f)).
Proof.
  intros HS. unfold ask. destruct (find_observance l m w f) as [m' r] eqn:E. cbn [fst]. unfold find_observance in E.
  destruct l as [|c1 [|c2 l]]; [now injection E as <- _|now injection E as <- _|]. unfold cached in E.
  destruct (cache_get w m) as [c|] eqn:EC.
  - injection E as <- _. intros k c' [[= <- <-]|HI]; [apply HS; now apply cache_get_in|apply HS; now apply (cache_del_in w)].
  - destruct (find_cachable (c1 :: c2 :: l) w f) as [c|e] eqn:EF.
    + injection E as <- _. intros k c' HI. apply firstn_in in HI as [[= <- <-]|HI]; [|now apply HS]. destruct f; auto.
    + now injection E as <- _.
Qed.
Lemma after_sound l h : forall m, sound l m -> sound l (after l m h).
Proof. induction h as [|[[q w] f] h IH]; intros m HS; [easy|]. cbn [after]. apply IH. now apply ask_sound. Qed.

(** With the cache in any state reached: the answer for one of the two readings. *)
Lemma ask_either l h q w f : snd (ask l (after l [] h) q w f) = snd (ask l [] q w f) \/
  snd (ask l (after l [] h) q w f) = snd (ask l [] q w (negb f)).
Proof.
  assert (HS : sound l (after l [] h)) by (now apply after_sound).
  unfold ask, find_observance. destruct l as [|c1 [|c2 l]]; [now left|now left|]. set (l' := c1 :: c2 :: l) in *. unfold cached at 1 3.
  destruct (cache_get w (after l' [] h)) as [c|] eqn:EC.
  - apply cache_get_in in EC. apply HS in EC. unfold cached. cbn [cache_get snd].
    destruct f; cbn [negb]; destruct EC as [EC|EC].
    + right. now rewrite EC.
    + left. now rewrite EC.
    + left. now rewrite EC.
    + right. now rewrite EC.
  - left. unfold cached. cbn [cache_get]. now destruct (find_cachable l' w f).
Qed.
Lemma ask_same l h q w f : snd (ask l [] q w true) = snd (ask l [] q w false) ->
  snd (ask l (after l [] h) q w f) = snd (ask l [] q w f).
Proof. intros H. destruct (ask_either l h q w f) as [->| ->]; [easy|]. destruct f; cbn [negb]; congruence. Qed.

(** Exactly: if lookups of [w] only ever use one value of fold. *)
Definition only (l : list obs) (w : Z) (f : bool) (m : cache) : Prop :=
  forall c, cache_get w m = Some c -> find_cachable l w f = Ok c.
Lemma cache_get_del_other k k' m : k <> k' -> cache_get k (cache_del k' m) = cache_get k m.
Proof.
  intros H. induction m as [|[j c] m IH]; [easy|]. cbn. destruct (Z.eqb_spec k' j) as [->|].
  - destruct (Z.eqb_spec k j); [congruence|easy].
  - cbn. now destruct (k =? j).
Qed.
Lemma cache_get_firstn n k m c : cache_get k (firstn n m) = Some c -> cache_get k m = Some c.
Proof. revert m. induction n as [|n IH]; intros [|[j b] m]; cbn; try easy. destruct (k =? j); [easy|apply IH]. Qed.
Lemma ask_only l m q w' f' w f : only l w f m -> (w' = w -> f' = f) -> only l w f (fst (ask l m q w' f')).
Proof.
  intros HO HW. unfold ask. destruct (find_observance l m w' f') as [m' r] eqn:E. cbn [fst]. unfold find_observance in E.
  destruct l as [|c1 [|c2 l]]; [now injection E as <- _|now injection E as <- _|]. unfold cached in E.
  destruct (cache_get w' m) as [c|] eqn:EC.
  - injection E as <- _. intros c'. cbn [cache_get]. destruct (Z.eqb_spec w w') as [->|Hn]; [intros [= <-]; now apply HO|].
    rewrite cache_get_del_other by easy. apply HO.
  - destruct (find_cachable (c1 :: c2 :: l) w' f') as [c|e] eqn:EF; [|now injection E as <- _].
    injection E as <- _. intros c' HG. apply cache_get_firstn in HG. cbn [cache_get] in HG.
    destruct (Z.eqb_spec w w') as [->|Hn]; [injection HG as <-; rewrite HW in EF by easy; easy|now apply HO].
Qed.
Lemma after_only l h w f : (forall q f', In (q, w, f') h -> f' = f) -> forall m, only l w f m -> only l w f (after l m h).
Proof.
  intros HH. induction h as [|[[q w'] f'] h IH]; intros m HO; [easy|]. cbn [after]. apply IH.
  - intros q0 f0 HI. apply (HH q0 f0). now right.
  - apply ask_only; [easy|]. intros ->. apply (HH q f'). now left.
Qed.
Lemma ask_one_fold l h q w f : (forall q' f', In (q', w, f') h -> f' = f) ->
  snd (ask l (after l [] h) q w f) = snd (ask l [] q w f).
Proof.
  intros HH. assert (HO : only l w f (after l [] h)) by (now apply after_only).
  unfold ask, find_observance. destruct l as [|c1 [|c2 l]]; [easy|easy|]. set (l' := c1 :: c2 :: l) in *. unfold cached at 1.
  destruct (cache_get w (after l' [] h)) as [c|] eqn:EC.
  - unfold cached. cbn [cache_get snd]. rewrite (HO _ EC). easy.
  - unfold cached. cbn [cache_get]. now destruct (find_cachable l' w f).
Qed.

(** Cache size. *)
Lemma cache_del_length k m : cache_get k m <> None -> S (length (cache_del k m)) = length m.
Proof.
  induction m as [|[j c] m IH]; cbn; [easy|]. destruct (k =? j); [easy|]. intros H. cbn. now rewrite IH.
Qed.
Lemma ask_size l m q w f : (length m <= CACHE_SIZE)%nat -> (length (fst (ask l m q w f)) <= CACHE_SIZE)%nat.
Proof.
  intros HL. unfold ask. destruct (find_observance l m w f) as [m' r] eqn:E. cbn [fst]. unfold find_observance in E.
  destruct l as [|c1 [|c2 l]]; [now injection E as <- _|now injection E as <- _|]. unfold cached in E.
  destruct (cache_get w m) as [c|] eqn:EC.
  - injection E as <- _. cbn [length]. rewrite cache_del_length; [easy|congruence].
  - destruct (find_cachable _ w f); [|now injection E as <- _]. injection E as <- _. apply firstn_le_length.
Qed.

(** A lookup after any history gives the observance in force. *)
Lemma lookup_in_force onset l w f q h : l <> [] -> (forall c, In c l -> rule_ok onset c) ->
  (forall c, In c l -> f = true -> wall_ok (time_for c w f) = true) ->
  (forall q' f', In (q', w, f') h -> f' = f) ->
  exists a c, snd (ask l (after l [] h) q w f) = Ok a /\ told q c a /\ in_force onset l w f c.
Proof.
  intros HN HR HW HH. rewrite ask_one_fold by easy.
  assert (HF : exists c, snd (find_observance l [] w f) = Ok c /\ in_force onset l w f c).
  { unfold find_observance. destruct l as [|c1 [|c2 l]]; [easy| |].
    - exists c1. split; [easy|]. apply single_in_force. apply HR. now left.
    - destruct (find_cachable_in_force onset (c1 :: c2 :: l) w f HN HR HW) as (c & HC & HI).
      exists c. split; [|easy]. unfold cached. cbn [cache_get]. rewrite HC. reflexivity. }
  destruct HF as (c & HC & HI). exists (answer_of q c), c. split; [|split; [apply answer_told|easy]].
  unfold ask. destruct (find_observance l [] w f) as [m' r]. cbn [snd] in *. now rewrite HC.
Qed.
(** Times that are not repeated: both readings are alike. *)
Lemma fold_free_same l q w : fold_free l w -> (forall c, In c l -> wall_ok (time_for c w true) = true) ->
  snd (ask l [] q w true) = snd (ask l [] q w false).
Proof.
  intros HF HW. assert (HB : forall c, In c l -> onset_before c w true = onset_before c w false).
  { intros c HI. rewrite (onset_before_time c w true) by (intros _; now apply HW). rewrite (onset_before_time c w false) by easy. f_equal. unfold time_for.
    destruct (Z.ltb_spec (ob_to c) (ob_from c)) as [L|L]; [|easy]. apply (HF c HI L). lia. }
  assert (HL : forall l' last, (forall c, In c l' -> In c l) -> find_last l' w true last = find_last l' w false last).
  { induction l' as [|c l' IH]; intros last HI; [easy|]. cbn [find_last]. rewrite (HB c) by (apply HI; now left).
    destruct (onset_before c w false); [|easy]. cbn [bind]. apply IH. intros; apply HI; now right. }
  assert (HC : find_cachable l w true = find_cachable l w false) by (unfold find_cachable; now rewrite HL).
  unfold ask, find_observance. destruct l as [|c1 [|c2 l]]; [easy|easy|]. unfold cached. cbn [cache_get]. now rewrite HC.
Qed.
