(** * Proofs about component trees *)
From Verif Require Import M_Base P_Base M_Line S_Line P_Line M_Fold S_Fold P_Fold M_Tree S_Tree.
From Coq Require Import Lia ZifyBool ZifyNat ZifyN.

Lemma item_ind' (P : item -> Prop) :
  (forall l, P (ILine l)) ->
  (forall n its, Forall P its -> P (ICont n its)) ->
  forall it, P it.
Proof.
  intros HL HC. fix IH 1. intros [l|n its]; [apply HL|]. apply HC.
  induction its as [|i its IHl]; constructor; [apply IH|exact IHl].
Qed.

Lemma begin_iff l : str_eqb (cl_name l) (py "BEGIN") = true <-> is_begin l.
Proof. apply str_eqb_eq. Qed.
Lemma end_iff l : str_eqb (cl_name l) (py "END") = true <-> is_end l.
Proof. apply str_eqb_eq. Qed.
Lemma begin_not_end l : is_begin l -> ~ is_end l.
Proof. unfold is_begin, is_end. intros -> H. discriminate. Qed.

Lemma upper_nil s : upper s = [] <-> s = [].
Proof. destruct s; cbn; split; easy. Qed.
Lemma upper_idem s : upper (upper s) = upper s.
Proof.
  unfold upper. rewrite map_map. apply map_ext. intros c. unfold upper_char.
  destruct ((97 <=? c) && (c <=? 122)) eqn:E; [|now rewrite E].
  replace ((97 <=? c - 32) && (c - 32 <=? 122)) with false; [easy|]. lia.
Qed.

Lemma Container_ok n its : n <> [] -> Container n its = Ok (ICont (upper n) its).
Proof.
  intros H. unfold Container. destruct (upper n) eqn:E; [|easy]. now apply (proj1 (upper_nil n)) in E.
Qed.
Lemma Container_nil its : Container [] its = Err ValueError.
Proof. reflexivity. Qed.

(** ** Fuel *)
Lemma to_container_shorter f : forall name acc ls e it rest,
  to_container f name acc ls e = Ok (it, rest) -> (length rest < length ls)%nat.
Proof.
  induction f as [|f IH]; intros name acc ls e it rest H; [easy|].
  cbn [to_container] in H. destruct ls as [|l ls]; [now destruct e|].
  destruct (str_eqb (cl_name l) (py "BEGIN")).
  - destruct (to_container f (cl_value l) [] ls e) as [[it' ls'']|x] eqn:E; [|easy].
    cbn [bind] in H. apply IH in E. apply IH in H. cbn. lia.
  - destruct (str_eqb (cl_name l) (py "END")).
    + destruct (str_eqb _ _); [|easy]. destruct (Container name acc); [|easy].
      cbn in H. injection H as _ <-. cbn. lia.
    + apply IH in H. cbn. lia.
Qed.

Lemma to_container_fuel f : forall f' name acc ls e,
  (length ls < f)%nat -> (length ls < f')%nat ->
  to_container f name acc ls e = to_container f' name acc ls e.
Proof.
  induction f as [|f IH]; intros f' name acc ls e H1 H2; [lia|].
  destruct f' as [|f']; [lia|]. cbn [to_container]. destruct ls as [|l ls]; [easy|].
  cbn in H1, H2. destruct (str_eqb (cl_name l) (py "BEGIN")).
  - rewrite (IH f') by lia.
    destruct (to_container f' (cl_value l) [] ls e) as [[it ls'']|x] eqn:E; [|easy].
    cbn [bind]. apply to_container_shorter in E. apply IH; lia.
  - destruct (str_eqb (cl_name l) (py "END")); [easy|]. apply IH; lia.
Qed.

(** ** Completeness of the recursive parser *)
Definition tc name acc ls e := to_container (S (length ls)) name acc ls e.

Lemma tc_unfold name acc l ls e :
  tc name acc (l :: ls) e =
  if str_eqb (cl_name l) (py "BEGIN") then
    do (it, ls'') <- tc (cl_value l) [] ls e;
    tc name (acc ++ [it]) ls'' e
  else if str_eqb (cl_name l) (py "END") then
    if str_eqb (upper (cl_value l)) (upper name) then
      do c <- Container name acc; Ok (c, ls)
    else Err ParseError
  else tc name (acc ++ [ILine l]) ls e.
Proof.
  unfold tc at 1. cbn [length]. remember (S (length ls)) as k. cbn [to_container]. subst k.
  destruct (str_eqb (cl_name l) (py "BEGIN")); [|reflexivity].
  fold (tc (cl_value l) [] ls e).
  destruct (tc (cl_value l) [] ls e) as [[it ls'']|x] eqn:E; [|easy]. cbn [bind].
  apply to_container_shorter in E. unfold tc. apply to_container_fuel; lia.
Qed.

Lemma tc_nested inner its : Nested inner its -> forall name acc rest e,
  tc name acc (inner ++ rest) e = tc name (acc ++ its) rest e.
Proof.
  induction 1 as [|l ls its Hb He HN IH|b en inner its' ls its Hb He Hci Hne HN IH HN2 IH2];
    intros name acc rest e.
  - now rewrite app_nil_r.
  - cbn [app]. rewrite tc_unfold.
    destruct (str_eqb _ (py "BEGIN")) eqn:E1; [now apply begin_iff in E1|].
    destruct (str_eqb _ (py "END")) eqn:E2; [now apply end_iff in E2|].
    rewrite IH. now rewrite <- app_assoc.
  - cbn [app]. rewrite tc_unfold. rewrite (proj2 (begin_iff b) Hb).
    rewrite <- app_assoc. rewrite IH. cbn [app]. rewrite tc_unfold.
    destruct (str_eqb (cl_name en) (py "BEGIN")) eqn:E1.
    { apply begin_iff in E1. now apply begin_not_end in E1. }
    rewrite (proj2 (end_iff en) He).
    rewrite (proj2 (str_eqb_eq _ _)) by (symmetry; exact Hci).
    rewrite Container_ok by easy. cbn [bind]. rewrite IH2. now rewrite <- app_assoc.
Qed.

Lemma tc_closed b en inner its rest e :
  is_end en -> ci_eq (cl_value b) (cl_value en) -> cl_value b <> [] -> Nested inner its ->
  tc (cl_value b) [] (inner ++ en :: rest) e = Ok (ICont (upper (cl_value b)) its, rest).
Proof.
  intros He Hci Hne HN. rewrite (tc_nested _ _ HN). rewrite tc_unfold.
  destruct (str_eqb (cl_name en) (py "BEGIN")) eqn:E1.
  { apply begin_iff in E1. now apply begin_not_end in E1. }
  rewrite (proj2 (end_iff en) He).
  rewrite (proj2 (str_eqb_eq _ _)) by (symmetry; exact Hci).
  rewrite Container_ok by easy. reflexivity.
Qed.

(** ** Soundness *)
Definition eof_of (e : option exn) : exn := match e with Some x => x | None => ParseError end.

Lemma Nested_app a its b its' : Nested a its -> Nested b its' -> Nested (a ++ b) (its ++ its').
Proof.
  induction 1 as [|l ls its Hb He HN IH|bb en inner its1 ls its Hb He Hci Hne HN IH HN2 IH2];
    intros H; cbn [app]; [easy| |].
  - constructor; auto.
  - rewrite <- app_assoc. cbn [app]. econstructor; eauto.
Qed.

Lemma Bad_app e name a its ls x :
  Nested a its -> Bad_inside e name ls x -> Bad_inside e name (a ++ ls) x.
Proof.
  intros Ha H. destruct H as [name inner its' HN|name inner its' en rest HN He Hci|inner its' en rest HN He Hv|name inner its' b rest x HN Hb HB].
  - eapply Bad_missing. eapply Nested_app; eassumption.
  - rewrite app_assoc. eapply Bad_mismatch; eauto. eapply Nested_app; eassumption.
  - rewrite app_assoc. eapply Bad_empty; eauto. eapply Nested_app; eassumption.
  - rewrite app_assoc. eapply Bad_deeper; eauto. eapply Nested_app; eassumption.
Qed.

Definition tc_post name acc ls e (r : res (item * list content_line)) : Prop :=
  match r with
  | Ok (it, rest) => exists inner its en,
      ls = inner ++ en :: rest /\ Nested inner its /\ is_end en /\
      ci_eq name (cl_value en) /\ name <> [] /\ it = ICont (upper name) (acc ++ its)
  | Err x => Bad_inside (eof_of e) name ls x
  end.

Lemma tc_sound n : forall ls, (length ls <= n)%nat -> forall name acc e,
  tc_post name acc ls e (tc name acc ls e).
Proof.
  induction n as [|n IH]; intros ls Hn name acc e.
  - destruct ls; [|cbn in Hn; lia]. cbn. destruct e; apply (Bad_missing _ _ [] []); constructor.
  - destruct ls as [|l ls].
    { cbn. destruct e; apply (Bad_missing _ _ [] []); constructor. }
    cbn in Hn. rewrite tc_unfold.
    destruct (str_eqb (cl_name l) (py "BEGIN")) eqn:E1.
    + apply begin_iff in E1.
      assert (HI := IH ls ltac:(lia) (cl_value l) [] e).
      destruct (tc (cl_value l) [] ls e) as [[it ls'']|x].
      * cbn [bind tc_post] in *. destruct HI as (inner & its & en & -> & HN & He & Hci & Hne & ->).
        assert (HN1 : Nested (l :: inner ++ [en]) [ICont (upper (cl_value l)) its]).
        { econstructor; eauto. constructor. }
        assert (HI2 := IH ls'' ltac:(rewrite app_length in Hn; cbn in Hn; lia) name
          (acc ++ [ICont (upper (cl_value l)) ([] ++ its)]) e).
        destruct (tc name (acc ++ [ICont (upper (cl_value l)) ([] ++ its)]) ls'' e) as [[it2 ls2]|x].
        -- cbn [tc_post] in *. destruct HI2 as (inner2 & its2 & en2 & -> & HN2 & He2 & Hci2 & Hne2 & ->).
           exists (l :: inner ++ en :: inner2), (ICont (upper (cl_value l)) its :: its2), en2.
           split. { cbn. rewrite <- !app_assoc. reflexivity. }
           split. { econstructor; eauto. }
           split; [easy|]. split; [easy|]. split; [easy|]. cbn. now rewrite <- app_assoc.
        -- cbn [tc_post] in *.
           replace (l :: inner ++ en :: ls'') with ((l :: inner ++ [en]) ++ ls'').
           { eapply Bad_app; eassumption. }
           cbn. now rewrite <- app_assoc.
      * cbn [bind tc_post] in *. apply (Bad_deeper _ _ [] []); [constructor|easy|easy].
    + destruct (str_eqb (cl_name l) (py "END")) eqn:E2.
      * apply end_iff in E2. destruct (str_eqb (upper (cl_value l)) (upper name)) eqn:E3.
        -- apply str_eqb_eq in E3. destruct name as [|c name].
           ++ rewrite Container_nil. cbn. apply (Bad_empty _ [] []); [constructor|easy|].
              now apply (proj1 (upper_nil _)).
           ++ rewrite Container_ok by easy. cbn [bind tc_post]. exists [], [], l.
              rewrite app_nil_r. split; [easy|]. split; [constructor|]. split; [easy|].
              split; [now symmetry|]. split; easy.
        -- cbn. apply str_eqb_neq in E3. apply (Bad_mismatch _ _ [] []); [constructor|easy|easy].
      * assert (HL : ~ is_begin l) by (rewrite <- begin_iff; now rewrite E1).
        assert (HE : ~ is_end l) by (rewrite <- end_iff; now rewrite E2).
        assert (HI := IH ls ltac:(lia) name (acc ++ [ILine l]) e).
        destruct (tc name (acc ++ [ILine l]) ls e) as [[it ls'']|x].
        -- cbn [tc_post] in *. destruct HI as (inner & its & en & -> & HN & He & Hci & Hne & ->).
           exists (l :: inner), (ILine l :: its), en. split; [easy|].
           split; [now constructor|]. split; [easy|]. split; [easy|]. split; [easy|].
           now rewrite <- app_assoc.
        -- cbn [tc_post] in *. apply (Bad_app _ _ [l] [ILine l]); [|easy].
           constructor; [easy|easy|constructor].
Qed.

(** ** Top level *)
Definition tcs ls e := to_containers (S (length ls)) ls e.

Lemma to_containers_fuel f : forall f' ls e,
  (length ls < f)%nat -> (length ls < f')%nat -> to_containers f ls e = to_containers f' ls e.
Proof.
  induction f as [|f IH]; intros f' ls e H1 H2; [lia|].
  destruct f' as [|f']; [lia|]. cbn [to_containers]. destruct ls as [|l ls]; [easy|].
  cbn in H1, H2. destruct (str_eqb (cl_name l) (py "BEGIN")).
  - destruct (to_container (S (length ls)) (cl_value l) [] ls e) as [[it ls'']|x] eqn:E; [|easy].
    apply to_container_shorter in E. f_equal. apply IH; lia.
  - f_equal. apply IH; lia.
Qed.

Lemma tcs_unfold l ls e :
  tcs (l :: ls) e =
  if str_eqb (cl_name l) (py "BEGIN") then
    match tc (cl_value l) [] ls e with
    | Ok (it, ls'') => gcons it (tcs ls'' e)
    | Err x => gfail x
    end
  else gcons (ILine l) (tcs ls e).
Proof.
  unfold tcs at 1. cbn [length]. remember (S (length ls)) as k. cbn [to_containers]. subst k.
  destruct (str_eqb (cl_name l) (py "BEGIN")); [|reflexivity].
  fold (tc (cl_value l) [] ls e). destruct (tc (cl_value l) [] ls e) as [[it ls'']|x] eqn:E; [|easy].
  apply to_container_shorter in E. f_equal. apply to_containers_fuel; lia.
Qed.

Lemma tcs_forest pre its : Forest pre its -> forall rest e,
  tcs (pre ++ rest) e = (its ++ fst (tcs rest e), snd (tcs rest e)).
Proof.
  induction 1 as [|l ls its Hb HF IH|b en inner its' ls its Hb He Hci Hne HN HF IH]; intros rest e.
  - cbn [app]. now destruct (tcs rest e).
  - cbn [app]. rewrite tcs_unfold.
    destruct (str_eqb _ (py "BEGIN")) eqn:E1; [now apply begin_iff in E1|].
    rewrite IH. reflexivity.
  - cbn [app]. rewrite tcs_unfold. rewrite (proj2 (begin_iff b) Hb).
    rewrite <- app_assoc. cbn [app]. rewrite (tc_closed b en inner its' (ls ++ rest)) by easy.
    rewrite IH. reflexivity.
Qed.

Lemma tcs_forest_all ls its e : Forest ls its -> tcs ls e = (its, e).
Proof.
  intros H. rewrite <- (app_nil_r ls). rewrite (tcs_forest _ _ H). cbn. now rewrite app_nil_r.
Qed.

(** [Forest ls its] and no error but that of the stream; or a nesting error after
    the items [its] of a forest prefix. *)
Definition tcs_post ls e (g : gen item) : Prop :=
  (Forest ls (fst g) /\ snd g = e) \/
  (exists pre b rest x, ls = pre ++ b :: rest /\ Forest pre (fst g) /\ is_begin b /\
     Bad_inside (eof_of e) (cl_value b) rest x /\ snd g = Some x).

Lemma tcs_sound n : forall ls, (length ls <= n)%nat -> forall e, tcs_post ls e (tcs ls e).
Proof.
  induction n as [|n IH]; intros ls Hn e.
  - destruct ls; [|cbn in Hn; lia]. left. split; [constructor|easy].
  - destruct ls as [|l ls]; [left; split; [constructor|easy]|].
    cbn in Hn. rewrite tcs_unfold. destruct (str_eqb (cl_name l) (py "BEGIN")) eqn:E1.
    + apply begin_iff in E1. assert (HT := tc_sound (length ls) ls (le_n _) (cl_value l) [] e).
      destruct (tc (cl_value l) [] ls e) as [[it ls'']|x]; cbn [tc_post] in HT.
      * destruct HT as (inner & its & en & -> & HN & He & Hci & Hne & ->). cbn [app].
        rewrite app_length in Hn. cbn in Hn.
        destruct (IH ls'' ltac:(lia) e) as [[HF Hs]|(pre & b & rest & x & -> & HF & Hb & HB & Hs)].
        -- left. split; [|exact Hs]. cbn. econstructor; eauto.
        -- right. exists (l :: inner ++ en :: pre), b, rest, x. split.
           { cbn. rewrite <- app_assoc. reflexivity. }
           split; [cbn; econstructor; eauto|]. split; [easy|]. split; [easy|exact Hs].
      * right. exists [], l, ls, x. split; [easy|]. split; [constructor|]. split; [easy|]. split; easy.
    + assert (HL : ~ is_begin l) by (rewrite <- begin_iff; now rewrite E1).
      destruct (IH ls ltac:(lia) e) as [[HF Hs]|(pre & b & rest & x & -> & HF & Hb & HB & Hs)].
      * left. split; [|exact Hs]. cbn. now constructor.
      * right. exists (l :: pre), b, rest, x. split; [easy|]. split; [cbn; now constructor|].
        split; [easy|]. split; easy.
Qed.

Lemma containers_exact ls its :
  contentlines_to_containers (ls, None) = (its, None) <-> Forest ls its.
Proof.
  change (contentlines_to_containers (ls, None)) with (tcs ls None). split.
  - intros H. destruct (tcs_sound (length ls) ls (le_n _) None) as [[HF _]|(pre & b & rest & x & _ & _ & _ & _ & Hs)].
    + now rewrite H in HF.
    + rewrite H in Hs. easy.
  - apply tcs_forest_all.
Qed.

Lemma containers_error ls its x :
  contentlines_to_containers (ls, None) = (its, Some x) ->
  exists pre b rest, ls = pre ++ b :: rest /\ Forest pre its /\ is_begin b /\
    Bad_inside ParseError (cl_value b) rest x.
Proof.
  change (contentlines_to_containers (ls, None)) with (tcs ls None). intros H.
  destruct (tcs_sound (length ls) ls (le_n _) None) as [[_ Hs]|(pre & b & rest & y & -> & HF & Hb & HB & Hs)].
  - rewrite H in Hs. easy.
  - rewrite H in *. injection Hs as <-. exists pre, b, rest. auto.
Qed.

(** Bad insides really fail. *)
Lemma tc_bad eof name ls x : Bad_inside eof name ls x -> forall acc e,
  eof = eof_of e -> tc name acc ls e = Err x.
Proof.
  induction 1 as [name inner its HN|name inner its en rest HN He Hci|inner its en rest HN He Hv|name inner its b rest x HN Hb HB IH];
    intros acc e ->.
  - rewrite <- (app_nil_r inner). rewrite (tc_nested _ _ HN). now destruct e.
  - rewrite (tc_nested _ _ HN), tc_unfold.
    destruct (str_eqb (cl_name en) (py "BEGIN")) eqn:E1.
    { apply begin_iff in E1. now apply begin_not_end in E1. }
    rewrite (proj2 (end_iff en) He). destruct (str_eqb (upper (cl_value en)) _) eqn:E; [|easy].
    apply str_eqb_eq in E. now apply Hci in E.
  - rewrite (tc_nested _ _ HN), tc_unfold.
    destruct (str_eqb (cl_name en) (py "BEGIN")) eqn:E1.
    { apply begin_iff in E1. now apply begin_not_end in E1. }
    rewrite (proj2 (end_iff en) He), Hv. reflexivity.
  - rewrite (tc_nested _ _ HN), tc_unfold, (proj2 (begin_iff b) Hb).
    rewrite (IH [] e eq_refl). reflexivity.
Qed.

Lemma containers_error_iff ls its x :
  contentlines_to_containers (ls, None) = (its, Some x) <->
  exists pre b rest, ls = pre ++ b :: rest /\ Forest pre its /\ is_begin b /\
    Bad_inside ParseError (cl_value b) rest x.
Proof.
  split; [apply containers_error|]. intros (pre & b & rest & -> & HF & Hb & HB).
  change (tcs (pre ++ b :: rest) None = (its, Some x)). rewrite (tcs_forest _ _ HF).
  rewrite tcs_unfold, (proj2 (begin_iff b) Hb), (tc_bad _ _ _ _ HB [] None eq_refl).
  cbn. now rewrite app_nil_r.
Qed.

(** ** Nothing is lost *)
Lemma Nested_flatten ls its : Nested ls its -> Forall2 same_line ls (flat_map flatten its).
Proof.
  induction 1 as [|l ls its Hb He HN IH|b en inner its' ls its Hb He Hci Hne HN IH HN2 IH2]; cbn.
  - constructor.
  - constructor; [constructor|easy].
  - constructor.
    + apply same_delim; [exact Hb|now left|]. cbn. red. now rewrite upper_idem.
    + rewrite <- app_assoc. apply Forall2_app; [easy|]. cbn. constructor; [|easy].
      apply same_delim; [exact He|now right|]. cbn. red. rewrite upper_idem. now symmetry.
Qed.
Lemma Forest_flatten ls its : Forest ls its -> Forall2 same_line ls (flat_map flatten its).
Proof.
  induction 1 as [|l ls its Hb HF IH|b en inner its' ls its Hb He Hci Hne HN HF IH]; cbn.
  - constructor.
  - constructor; [constructor|easy].
  - constructor.
    + apply same_delim; [exact Hb|now left|]. cbn. red. now rewrite upper_idem.
    + rewrite <- app_assoc. apply Forall2_app; [now apply Nested_flatten|]. cbn. constructor; [|easy].
      apply same_delim; [exact He|now right|]. cbn. red. rewrite upper_idem. now symmetry.
Qed.

Lemma containers_nothing_lost ls its :
  contentlines_to_containers (ls, None) = (its, None) ->
  Forall2 same_line ls (flat_map flatten its).
Proof. rewrite containers_exact. apply Forest_flatten. Qed.

(** ** Writing a tree and reading it back *)
Definition lines_text (phys : list str) : str := concat (map (fun l => l ++ [13; 10]) phys).
Lemma lines_text_app a b : lines_text (a ++ b) = lines_text a ++ lines_text b.
Proof. unfold lines_text. now rewrite map_app, concat_app. Qed.

Lemma stl_lines_text phys : (forall l, In l phys -> no_break l) ->
  string_to_lines (lines_text phys) = phys ++ [[]].
Proof.
  induction phys as [|p phys IH]; intros H; [easy|].
  change (lines_text (p :: phys)) with ((p ++ [13; 10]) ++ lines_text phys).
  rewrite <- app_assoc. cbn [app]. rewrite stl_crlf.
  rewrite stl_no_break by (apply H; now left). rewrite IH by (intros; apply H; now right). reflexivity.
Qed.

Lemma FoldOf_no_break t ls : FoldOf t ls -> forall l, In l ls -> no_break l.
Proof.
  induction 1 as [t H|t ls b p H IH Hb Hp|t ls H IH]; intros l Hl.
  - destruct Hl as [<-|[]]. apply H.
  - apply in_app_or in Hl as [Hl|[<-|[]]]; [auto|]. apply no_break_cons.
    split; [|easy]. destruct Hb; subst; lia.
  - apply in_app_or in Hl as [Hl|[<-|[]]]; [auto|]. apply no_break_nil.
Qed.
Lemma FoldOf_no_breaks ts lss : Forall2 FoldOf ts lss -> forall l, In l (concat lss) -> no_break l.
Proof.
  induction 1 as [|t ls ts lss HF H IH]; intros l Hl; [easy|].
  apply in_app_or in Hl as [Hl|Hl]; [now apply (FoldOf_no_break t ls)|auto].
Qed.

Lemma FoldOf_pieces ps : forall p, logical p -> (forall q, In q ps -> no_break q) ->
  FoldOf (concat (p :: ps)) (p :: map (cons 32) ps).
Proof.
  induction ps as [|q ps IH] using rev_ind; intros p Hp H.
  - cbn. rewrite app_nil_r. now constructor.
  - change (p :: ps ++ [q]) with ((p :: ps) ++ [q]). rewrite concat_app. cbn [concat].
    rewrite app_nil_r. rewrite map_app. cbn [map].
    change (p :: map (cons 32) ps ++ [32 :: q]) with ((p :: map (cons 32) ps) ++ [32 :: q]).
    apply Fold_cont; [|now left|].
    + apply IH; [easy|]. intros r Hr. apply H, in_or_app. now left.
    + apply H, in_or_app. right. now left.
Qed.


Definition unw (cl : content_line) : str := serialize_unwrapped cl false.

Lemma line_phys hy resplit W cl :
  splitter resplit -> width_ok W -> foldable cl ->
  exists txt phys,
    rmap (@concat N) (line_serialize_iter hy resplit W cl false) = Ok txt /\
    rmap (@concat N) (line_serialize_iter hy resplit W cl true) = Ok (txt ++ [13; 10]) /\
    FoldOf (unw cl) phys /\ txt ++ [13; 10] = lines_text phys.
Proof.
  intros HS HW Hf. assert (HL := foldable_logical cl Hf). assert (Hne := proj1 HL).
  destruct (line_serialize_iter_text hy resplit W cl false HS HW Hne) as (pf & tf & E1 & E2 & E3).
  destruct (line_serialize_iter_text hy resplit W cl true HS HW Hne) as (pt & tt & E4 & E5 & E6).
  rewrite E2 in E5. injection E5 as <-. rewrite app_nil_r in E3.
  rewrite E1, E4. cbn [rmap]. rewrite E3, E6.
  destruct W as [W|]; cbn [line_serialize] in E2.
  - destruct (wrap_spec hy resplit W _ HS HW Hne) as (p & ps & Ew & Hc & Hp & _).
    rewrite Ew in E2. cbn [rmap] in E2. injection E2 as <-.
    exists (join [13; 10] (p :: map (cons 32) ps)), (p :: map (cons 32) ps).
    split; [easy|]. split; [easy|]. split.
    + unfold unw. rewrite <- Hc. apply FoldOf_pieces.
      * destruct HL as (_ & Hnb & Hbl). rewrite <- Hc in Hnb, Hbl. cbn in Hnb, Hbl.
        apply no_break_app in Hnb as [Hnb _]. split; [easy|]. split; [easy|].
        intros (c & t & -> & Hcb). apply Hbl. now exists c, (t ++ concat ps).
      * destruct HL as (_ & Hnb & _). rewrite <- Hc in Hnb. intros q Hq c Hcc Hin.
        apply (Hnb c Hcc). cbn. apply in_or_app. right. apply in_concat. now exists q.
    + unfold lines_text. now rewrite concat_crlf_join.
  - injection E2 as <-. exists (unw cl), [unw cl]. split; [easy|]. split; [easy|]. split.
    + now constructor.
    + cbn. now rewrite app_nil_r.
Qed.

Lemma wf_all_Forall ok its :
  (fix all l := match l with [] => True | i :: l' => wf_item ok i /\ all l' end) its <->
  Forall (wf_item ok) its.
Proof.
  induction its as [|i its IH]; split; intros H; try easy.
  - constructor; [easy|]. now apply IH.
  - inversion H; subst. split; [easy|]. now apply IH.
Qed.

Lemma logical_delim kw n :
  (kw = py "BEGIN:" \/ kw = py "END:") -> no_break n -> logical (kw ++ n).
Proof.
  intros [->| ->] Hn; (split; [easy|]; split).
  - apply no_break_app. split; [|easy]. intros c Hc Hin. cbn in *; intuition (subst; discriminate).
  - intros (c & t & [= <- _] & [H|H]); discriminate.
  - apply no_break_app. split; [|easy]. intros c Hc Hin. cbn in *; intuition (subst; discriminate).
  - intros (c & t & [= <- _] & [H|H]); discriminate.
Qed.

Definition item_text hy resplit W it (txt : str) (lss : list (list str)) : Prop :=
  item_serialize hy resplit W it false = Ok txt /\
  item_serialize hy resplit W it true = Ok (txt ++ [13; 10]) /\
  Forall2 FoldOf (map unw (flatten it)) lss /\
  txt ++ [13; 10] = lines_text (concat lss).

Lemma items_text hy resplit W its :
  Forall (fun it => exists txt lss, item_text hy resplit W it txt lss) its ->
  exists body lss,
    concat_res (map (fun i => item_serialize hy resplit W i true) its) = Ok body /\
    Forall2 FoldOf (map unw (flat_map flatten its)) lss /\
    body = lines_text (concat lss).
Proof.
  induction 1 as [|it its (txt & ls & H1 & H2 & H3 & H4) HF (body & lss & IH1 & IH2 & IH3)].
  - exists [], []. repeat split. constructor.
  - exists ((txt ++ [13; 10]) ++ body), (ls ++ lss). cbn [map concat_res flat_map].
    rewrite H2. cbn [bind]. rewrite IH1. cbn [bind]. split; [easy|]. split.
    + rewrite map_app. now apply Forall2_app.
    + rewrite concat_app, lines_text_app, <- IH3. now rewrite H4.
Qed.

Lemma tree_text hy resplit W : splitter resplit -> width_ok W -> forall it,
  wf_item ok_line it -> exists txt lss, item_text hy resplit W it txt lss.
Proof.
  intros HS HW. induction it as [l|n its IH] using item_ind'; intros Hwf.
  - destruct Hwf as (_ & Hf & _).
    destruct (line_phys hy resplit W l HS HW Hf) as (txt & phys & H1 & H2 & H3 & H4).
    exists txt, [phys]. split; [exact H1|]. split; [exact H2|]. split.
    + cbn. constructor; [easy|constructor].
    + cbn. now rewrite app_nil_r.
  - destruct Hwf as (Hne & Hup & Hnb & Hall). apply wf_all_Forall in Hall.
    assert (HI : Forall (fun it => exists txt lss, item_text hy resplit W it txt lss) its).
    { rewrite Forall_forall in *. intros i Hi. apply IH; auto. }
    destruct (items_text _ _ _ _ HI) as (body & lss & E & HF & Hb).
    exists (py "BEGIN:" ++ n ++ [13; 10] ++ body ++ py "END:" ++ n),
      ([py "BEGIN:" ++ n] :: lss ++ [[py "END:" ++ n]]).
    unfold item_text. cbn [item_serialize]. rewrite E. cbn [bind].
    split; [now rewrite app_nil_r|]. split; [now rewrite <- !app_assoc|]. split.
    + cbn [flatten map]. constructor.
      * unfold unw, serialize_unwrapped. cbn [cl_name cl_params cl_value].
        change (py "BEGIN" ++ serialize_params [] ++ [c_colon] ++ n ++ []) with (py "BEGIN:" ++ n ++ []).
        rewrite app_nil_r. constructor. apply logical_delim; [now left|easy].
      * rewrite map_app. apply Forall2_app; [easy|]. cbn [map].
        constructor; [|constructor].
        unfold unw, serialize_unwrapped. cbn [cl_name cl_params cl_value].
        change (py "END" ++ serialize_params [] ++ [c_colon] ++ n ++ []) with (py "END:" ++ n ++ []).
        rewrite app_nil_r. constructor. apply logical_delim; [now right|easy].
    + cbn [concat]. rewrite concat_app. cbn [concat]. rewrite app_nil_r.
      rewrite lines_text_app, lines_text_app, <- Hb. unfold lines_text. cbn [map concat].
      rewrite !app_nil_r, <- !app_assoc. reflexivity.
Qed.

Fixpoint requote_item (it : item) : item :=
  match it with
  | ILine l => ILine (requote_line l)
  | ICont n its => ICont n (map requote_item its)
  end.

Lemma requote_item_eq it : item_eq (requote_item it) it.
Proof.
  induction it as [l|n its IH] using item_ind'.
  - constructor. apply requote_line_eq.
  - cbn. constructor. induction IH; constructor; auto.
Qed.

Lemma parse_lines_ok ts cls : Forall2 (fun t cl => parse_line t = Ok cl) ts cls ->
  forall n lss, length ts = length lss -> parse_lines (numbered n ts lss) None = (cls, None).
Proof.
  induction 1 as [|t cl ts cls Hp H IH]; intros n lss HL; [easy|].
  destruct lss as [|ls lss]; [easy|]. cbn [numbered parse_lines]. rewrite Hp.
  rewrite IH by (cbn in HL; lia). reflexivity.
Qed.

Lemma delim_parse kw n : kw = py "BEGIN" \/ kw = py "END" ->
  parse_line (unw (mk_line kw [] n)) = Ok (mk_line kw [] n).
Proof.
  intros H. apply line_roundtrip_exact. destruct H as [->| ->]; (split; [|split; [|split]]); try easy.
  - intros c Hc Hin. cbn in *; intuition (subst; discriminate).
  - constructor.
  - intros c Hc Hin. cbn in *; intuition (subst; discriminate).
  - constructor.
Qed.

(** The lines of a tree after being written and parsed. *)
Fixpoint lines_back (it : item) : list content_line :=
  match it with
  | ILine l => [requote_line l]
  | ICont n its =>
      mk_line (py "BEGIN") [] n :: flat_map lines_back its ++ [mk_line (py "END") [] n]
  end.

Lemma Forall2_flat_map {A B C} (R : B -> C -> Prop) (f : A -> list B) (g : A -> list C) l :
  Forall (fun a => Forall2 R (f a) (g a)) l -> Forall2 R (flat_map f l) (flat_map g l).
Proof. induction 1; cbn; [constructor|]. now apply Forall2_app. Qed.

Lemma flat_map_map {A B C} (f : A -> list B) (g : B -> C) l :
  map g (flat_map f l) = flat_map (fun a => map g (f a)) l.
Proof. induction l; cbn; [easy|]. now rewrite map_app, IHl. Qed.

Lemma lines_back_parse it : wf_item ok_line it ->
  Forall2 (fun t cl => parse_line t = Ok cl) (map unw (flatten it)) (lines_back it).
Proof.
  induction it as [l|n its IH] using item_ind'; intros Hwf.
  - cbn. constructor; [|constructor]. apply line_roundtrip_exact, Hwf.
  - destruct Hwf as (_ & _ & _ & Hall). apply wf_all_Forall in Hall.
    cbn [flatten lines_back map]. constructor; [apply delim_parse; now left|].
    rewrite map_app. apply Forall2_app.
    + rewrite flat_map_map. apply Forall2_flat_map. rewrite Forall_forall in *. auto.
    + cbn [map]. constructor; [|constructor]. apply delim_parse. now right.
Qed.

Lemma requote_name l : cl_name (requote_line l) = cl_name l.
Proof. apply requote_line_eq. Qed.

Lemma Nested_flat_map its :
  Forall (fun it => Nested (lines_back it) [requote_item it]) its ->
  Nested (flat_map lines_back its) (map requote_item its).
Proof.
  induction 1 as [|it its H HF IH]; cbn; [constructor|].
  change (requote_item it :: map requote_item its) with ([requote_item it] ++ map requote_item its).
  now apply Nested_app.
Qed.

Lemma lines_back_nested it : wf_item ok_line it -> Nested (lines_back it) [requote_item it].
Proof.
  induction it as [l|n its IH] using item_ind'; intros Hwf.
  - destruct Hwf as (_ & _ & Hb & He). cbn. constructor; [| |constructor];
      unfold is_begin, is_end in *; now rewrite requote_name.
  - destruct Hwf as (Hne & Hup & _ & Hall). apply wf_all_Forall in Hall.
    cbn [lines_back requote_item]. rewrite <- Hup at 3.
    apply (N_cont (mk_line (py "BEGIN") [] n) (mk_line (py "END") [] n)); try easy; [|constructor].
    apply Nested_flat_map. rewrite Forall_forall in *. auto.
Qed.

Lemma Nested_Forest ls its : Nested ls its -> Forest ls its.
Proof. induction 1; econstructor; eauto. Qed.

Lemma read_lines_text its lss extra :
  Forall (wf_item ok_line) its ->
  Forall2 FoldOf (map unw (flat_map flatten its)) lss ->
  (extra = [] \/ extra = [[]]) ->
  lines_to_containers (concat lss ++ extra) = (map requote_item its, None).
Proof.
  intros Hwf HF He. unfold lines_to_containers.
  assert (Hu : unfold_lines (concat lss ++ extra) =
               (numbered 0 (map unw (flat_map flatten its)) lss, None)).
  { rewrite <- (unfold_lines_fold 0 _ _ HF). cbn [repeat app]. destruct He as [->| ->].
    - now rewrite app_nil_r.
    - apply unfold_from_app_empty. }
  rewrite Hu. unfold lines_to_contentlines. cbn [fst snd].
  rewrite (parse_lines_ok _ (flat_map lines_back its)).
  - unfold contentlines_to_containers. cbn [fst snd].
    apply tcs_forest_all, Nested_Forest, Nested_flat_map.
    rewrite Forall_forall in *. intros i Hi. apply lines_back_nested. auto.
  - rewrite flat_map_map. apply Forall2_flat_map. rewrite Forall_forall in *.
    intros i Hi. apply lines_back_parse. auto.
  - clear - HF. induction HF; cbn; [easy|now f_equal].
Qed.

Lemma tree_roundtrip hy resplit W it nl :
  splitter resplit -> width_ok W -> wf_item ok_line it ->
  exists txt it', item_serialize hy resplit W it nl = Ok txt /\
    string_to_containers txt = ([it'], None) /\ item_eq it' it.
Proof.
  intros HS HW Hwf. destruct (tree_text hy resplit W HS HW it Hwf) as (txt & lss & H1 & H2 & H3 & H4).
  exists (txt ++ if nl then [13; 10] else []), (requote_item it).
  split; [destruct nl; [exact H2|now rewrite app_nil_r]|].
  split; [|apply requote_item_eq].
  assert (HS1 : string_to_lines (txt ++ [13; 10]) = concat lss ++ [[]]).
  { rewrite H4. apply stl_lines_text. now apply (FoldOf_no_breaks _ _ H3). }
  assert (H3' : Forall2 FoldOf (map unw (flat_map flatten [it])) lss).
  { cbn. now rewrite app_nil_r. }
  unfold string_to_containers. destruct nl.
  - rewrite HS1. apply (read_lines_text [it]); auto.
  - rewrite app_nil_r. rewrite stl_final_crlf in HS1. apply app_inj_tail in HS1 as [-> _].
    rewrite <- (app_nil_r (concat lss)). apply (read_lines_text [it]); auto.
Qed.

Lemma forest_roundtrip hy resplit W its :
  splitter resplit -> width_ok W -> Forall (wf_item ok_line) its ->
  exists txt its', concat_res (map (fun i => item_serialize hy resplit W i true) its) = Ok txt /\
    string_to_containers txt = (its', None) /\ Forall2 item_eq its' its.
Proof.
  intros HS HW Hwf.
  assert (HI : Forall (fun it => exists txt lss, item_text hy resplit W it txt lss) its).
  { rewrite Forall_forall in *. intros i Hi. apply tree_text; auto. }
  destruct (items_text _ _ _ _ HI) as (body & lss & E & HF & Hb).
  exists body, (map requote_item its). split; [exact E|]. split.
  - unfold string_to_containers. rewrite Hb, stl_lines_text by now apply (FoldOf_no_breaks _ _ HF).
    apply read_lines_text; auto.
  - clear. induction its; cbn; constructor; auto. apply requote_item_eq.
Qed.
