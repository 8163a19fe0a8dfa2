(** * Proofs: the declared grammar of content lines and the check of parsed lines (C66) *)
From Verif Require Import M_Base M_Line M_Check.
From Verif Require Import S_Line S_Check.
From Verif Require Import P_Base P_Line.
From Coq Require Import Lia ZifyBool ZifyNat ZifyN.
Open Scope N_scope.

Lemma name_char_iff c : IDENT c = true <-> name_char c.
Proof.
  unfold name_char. split.
  - intro H. assert (c < 123) by (unfold IDENT in H; lia).
    assert (A : forall n, (n < 123)%nat -> IDENT (N.of_nat n) = true -> existsb (N.eqb (N.of_nat n)) (py "ABCDEFGHIJKLMNOPQRSTUVWXYZabcdefghijklmnopqrstuvwxyz0123456789-") = true).
    { intros n L. assert (F : forallb (fun n => implb (IDENT (N.of_nat n)) (existsb (N.eqb (N.of_nat n)) (py "ABCDEFGHIJKLMNOPQRSTUVWXYZabcdefghijklmnopqrstuvwxyz0123456789-"))) (seq 0 123) = true) by (vm_compute; reflexivity).
      rewrite forallb_forall in F. specialize (F n (proj2 (in_seq 123 0 n) ltac:(lia))). intro T. rewrite T in F. exact F. }
    specialize (A (N.to_nat c) ltac:(lia)). rewrite N2Nat.id in A. specialize (A H). apply existsb_exists in A as (x & I & E). apply N.eqb_eq in E as ->. exact I.
  - intro I. assert (F : forallb IDENT (py "ABCDEFGHIJKLMNOPQRSTUVWXYZabcdefghijklmnopqrstuvwxyz0123456789-") = true) by (vm_compute; reflexivity).
    rewrite forallb_forall in F. now apply F.
Qed.
Lemma control_iff c : is_control c = true <-> control c.
Proof. unfold is_control, control. lia. Qed.
Lemma starts_iff s : re_match IDENT 1 s = true <-> starts_with_name_char s.
Proof.
  unfold re_match, starts_with_name_char. destruct s as [|c t]; cbn [run]; [split; [discriminate|intros (? & ? & ? & ?); discriminate]|].
  destruct (IDENT c) eqn:E.
  - split; [|reflexivity]. intros _. exists c, t. split; [reflexivity|now apply name_char_iff].
  - split; [discriminate|]. intros (c' & t' & H & N). injection H as <- <-. apply name_char_iff in N. congruence.
Qed.
Lemma star cls s : re_match cls 0 s = true. Proof. reflexivity. Qed.

(** ** The check *)
Theorem check_exact cl : check_parsed_line cl =
  if re_match IDENT 1 (cl_name cl) && forallb (fun kv => re_match IDENT 1 (fst kv)) (cl_params cl) then Ok tt else Err AssertionError.
Proof.
  unfold check_parsed_line. destruct (re_match IDENT 1 (cl_name cl)); cbn [assert_that bind andb]; [|reflexivity].
  replace (forallb (fun kv => re_match IDENT 1 (fst kv) && forallb check_val (snd kv)) (cl_params cl)) with (forallb (fun kv => re_match IDENT 1 (fst kv)) (cl_params cl)).
  - destruct (forallb (fun kv => re_match IDENT 1 (fst kv)) (cl_params cl)); reflexivity.
  - induction (cl_params cl) as [|[k vs] ps IH]; [reflexivity|]. cbn [forallb fst snd]. rewrite IH. replace (forallb check_val vs) with true; [now rewrite andb_true_r|].
    symmetry. apply forallb_forall. intros [v|v] _; reflexivity.
Qed.
Theorem checked line cl : parse_checked true line = Ok cl <->
  parse_line line = Ok cl /\ starts_with_name_char (cl_name cl) /\ forall k vs, In (k, vs) (cl_params cl) -> starts_with_name_char k.
Proof.
  unfold parse_checked. destruct (parse_line line) as [c|e]; cbn [bind]; [|split; [discriminate|intros (H & _); discriminate H]]. rewrite check_exact.
  destruct (re_match IDENT 1 (cl_name c) && forallb (fun kv => re_match IDENT 1 (fst kv)) (cl_params c)) eqn:E; cbn [bind].
  - apply andb_true_iff in E as [A B]. rewrite forallb_forall in B. split.
    + intro H. injection H as <-. split; [reflexivity|]. split; [now apply starts_iff|]. intros k vs I. apply starts_iff. exact (B _ I).
    + intros (H & _). exact H.
  - split; [discriminate|]. intros (H & A & B). injection H as <-. exfalso. apply starts_iff in A. rewrite A in E. cbn [andb] in E.
    assert (F : forallb (fun kv => re_match IDENT 1 (fst kv)) (cl_params c) = true) by (apply forallb_forall; intros [k vs] I; apply starts_iff; exact (B k vs I)). congruence.
Qed.
Theorem checked_error line e : parse_checked true line = Err e ->
  parse_line line = Err ParseError /\ e = ParseError \/ (exists cl, parse_line line = Ok cl) /\ e = AssertionError.
Proof.
  unfold parse_checked. destruct (parse_line_total line) as [[cl H]|H]; rewrite H; cbn [bind]; [|intro K; injection K as <-; now left].
  rewrite check_exact. destruct (_ && _); cbn [bind]; [discriminate|]. intro K. injection K as <-. right. split; [now exists cl|reflexivity].
Qed.
Theorem unchecked line : parse_checked false line = parse_line line.
Proof. unfold parse_checked. destruct (parse_line line); reflexivity. Qed.

(** ** Lines of the declared grammar *)
Lemma ident_none s cs : identifier s -> forallb (fun c => negb (IDENT c)) cs = true -> none_of cs s.
Proof.
  intros [_ I] F c C S. rewrite forallb_forall in F. specialize (F c C). apply I, name_char_iff in S. rewrite S in F. discriminate F.
Qed.
Lemma none_not_quoted w : none_of [34] w -> not_quoted w.
Proof. intros H t ->. apply (H 34); now left. Qed.
Lemma wire_GVals t vs rest : wire_values t vs -> last vs (PRaw []) <> PRaw [] -> at_delim rest -> GVals (t ++ rest) vs rest.
Proof.
  intros W. induction W as [w v W|w v t vs W W' IH]; intros L D.
  - inversion W as [w' x C NO CA E E1|w' x C NO CA E E1]; subst.
    + apply GV_raw_last; [|apply none_not_quoted; revert NO; apply none_of_incl; intros c []; [now left|easy]|revert NO; apply none_of_incl; intros c I; cbn in *; tauto|exact CA|exact D].
      intros ->. inversion CA; subst. now apply L.
    + cbn [app]. rewrite <- app_assoc. cbn [app]. now apply GV_quoted_last.
  - assert (NE : vs <> []) by (inversion W'; discriminate). assert (L' : last vs (PRaw []) <> PRaw []) by (destruct vs; [easy|exact L]). specialize (IH L' D).
    rewrite <- app_assoc. cbn [app]. inversion W as [w' x C NO CA E E1|w' x C NO CA E E1]; subst.
    + apply GV_raw_more; [apply none_not_quoted; revert NO; apply none_of_incl; intros c []; [now left|easy]|revert NO; apply none_of_incl; intros c I; cbn in *; tauto|exact CA|exact IH].
    + cbn [app]. rewrite <- app_assoc. cbn [app]. now apply GV_quoted_more.
Qed.
Lemma wire_delim pt ps v : wire_params pt ps -> at_delim (pt ++ 58 :: v).
Proof. intro W. destruct W; cbn [app]; eexists _, _; (split; [reflexivity|]); [now left|now right]. Qed.
Lemma wire_GRest pt ps v : wire_params pt ps -> ends_filled ps -> GRest (pt ++ 58 :: v) ps v.
Proof.
  intro W. induction W as [|k t vs rest ps I V W IH]; intro L; [constructor|]. cbn [app]. rewrite <- app_assoc. cbn [app]. rewrite <- app_assoc.
  apply GR_param with (rest ++ 58 :: v).
  - apply ident_none; [exact I|reflexivity].
  - apply wire_GVals; [exact V|apply (L k vs); now left|exact (wire_delim _ _ _ W)].
  - apply IH. intros j us J. apply (L j us). now right.
Qed.
Theorem declared_parsed line name ps value : declared line name ps value -> ends_filled ps ->
  parse_line line = Ok (mk_line (upper name) (assign_all ps) value).
Proof.
  intros (pt & E & I & W & C) L. rewrite (parse_line_complete line name ps value); [reflexivity|]. exists (pt ++ 58 :: value). split; [exact E|]. split; [apply ident_none; [exact I|reflexivity]|]. now apply wire_GRest.
Qed.
Lemma upper_name c : name_char c -> name_char (upper_char c).
Proof. intro H. apply name_char_iff in H. apply name_char_iff. unfold IDENT, upper_char in *. destruct ((97 <=? c) && (c <=? 122)) eqn:E; lia. Qed.
Lemma ident_starts s : identifier s -> starts_with_name_char s.
Proof. intros [N I]. destruct s as [|c t]; [easy|]. exists c, t. split; [reflexivity|]. apply I. now left. Qed.
Lemma assign_keys ps k vs : In (k, vs) (assign_all ps) -> exists us, In (k, us) ps.
Proof.
  unfold assign_all, dict_update. assert (G : forall d, (forall k vs, In (k, vs) d -> exists us, In (k, us) d \/ In (k, us) ps) -> In (k, vs) (fold_left (fun a kv => dict_set (fst kv) (snd kv) a) ps d) -> exists us, In (k, us) d \/ In (k, us) ps).
  { induction ps as [|[j w] ps IH]; intros d _ I; cbn [fold_left fst snd] in I; [exists vs; now left|].
    apply IH in I as (us & [I|I]).
    - assert (S : forall d, In (k, us) (dict_set j w d) -> k = j \/ exists u, In (k, u) d).
      { clear. induction d as [|[i x] d IHd]; cbn [dict_set]; intro I.
        - destruct I as [I|[]]. injection I as -> ->. now left.
        - destruct (str_eqb j i) eqn:E; destruct I as [I|I].
          + injection I as -> _. apply str_eqb_eq in E. now left.
          + right. exists us. now right.
          + injection I as -> ->. right. exists us. now left.
          + destruct (IHd I) as [->|[u U]]; [now left|]. right. exists u. now right. }
      destruct (S d I) as [->|[u U]]; [exists w; right; now left|exists u; now left].
    - exists us. right. now right.
    - intros i x X. exists x. now left. }
  intro I. destruct (G [] (fun _ _ H => match H with end) I) as (us & [[]|H]). now exists us.
Qed.
Theorem declared_checked line name ps value : declared line name ps value -> ends_filled ps ->
  parse_checked true line = Ok (mk_line (upper name) (assign_all ps) value).
Proof.
  intros D L. apply checked. split; [now apply declared_parsed|]. cbn [cl_name cl_params]. destruct D as (pt & E & I & W & C). split.
  - destruct (ident_starts name I) as (c & t & -> & N). exists (upper_char c), (upper t). split; [reflexivity|now apply upper_name].
  - intros k vs H. apply assign_keys in H as (us & H). apply ident_starts. clear - W H. induction W as [|j t ws rest ps I V W IH]; [destruct H|]. destruct H as [H|H]; [injection H as <- <-; exact I|auto].
Qed.

(** ** Written lines *)
Lemma escape_clean s : (forall c, In c s -> control c -> c = 10) -> clean (escape_param s).
Proof.
  intros H c I. unfold escape_param, translate in I. apply in_flat_map in I as (x & X & I). specialize (H x X). unfold control in *.
  unfold escape_param_char, c_dquote, c_caret, c_lf, c_cr, c_squote, c_n in I.
  destruct (x =? 34) eqn:E1; [destruct I as [<-|[<-|[]]]; lia|]. destruct (x =? 94) eqn:E2; [destruct I as [<-|[<-|[]]]; lia|].
  destruct (x =? 10) eqn:E3; [destruct I as [<-|[<-|[]]]; lia|]. destruct (x =? 13) eqn:E4; [destruct I|]. destruct I as [<-|[]]. lia.
Qed.
Lemma control_no_cr s : (forall c, In c s -> control c -> c = 10) -> ~ In 13 s.
Proof. intros H I. specialize (H 13 I). unfold control in H. lia. Qed.
Lemma wire_pval v : (forall c, In c (pval_str v) -> control c -> c = 10) -> wire_value (serialize_pval v) (requote v).
Proof.
  intro H. pose proof (control_no_cr _ H) as NC. destruct v as [s|s]; cbn [serialize_pval requote pval_str] in *.
  - destruct (needs_quote s) eqn:Q.
    + apply W_quoted; [now apply escape_clean|apply notin_none, escape_param_safe; now left|now apply Caret_escape].
    + apply W_raw; [now apply escape_clean| |now apply Caret_escape]. assert (A : none_of [44; 58; 59] (escape_param s)) by (apply escape_param_none; [cbn; lia..|now apply needs_quote_false]).
      intros c [<-|C]; [apply escape_param_safe; now left|now apply A].
  - apply W_quoted; [now apply escape_clean|apply notin_none, escape_param_safe; now left|now apply Caret_escape].
Qed.
Lemma wire_pvals vs : vs <> [] -> (forall v, In v vs -> forall c, In c (pval_str v) -> control c -> c = 10) -> wire_values (serialize_pvals vs) (map requote vs).
Proof.
  unfold serialize_pvals. intros NE H. induction vs as [|v vs IH]; [easy|]. destruct vs as [|u vs].
  - cbn [map join]. apply W_one, wire_pval. apply H. now left.
  - change (map serialize_pval (v :: u :: vs)) with (serialize_pval v :: serialize_pval u :: map serialize_pval vs). rewrite join_cons2. cbn [map].
    apply (W_more (serialize_pval v)); [apply wire_pval, H; now left|]. apply IH; [discriminate|]. intros w W. apply H. now right.
Qed.
Theorem written_declared cl : clean_line cl ->
  declared (serialize_unwrapped cl false) (cl_name cl) (map (fun kv => (fst kv, map requote (snd kv))) (cl_params cl)) (cl_value cl).
Proof.
  intros (I & C & P). unfold serialize_unwrapped. rewrite app_nil_r. exists (serialize_params (cl_params cl)). split; [reflexivity|]. split; [exact I|]. split; [|exact C].
  induction (cl_params cl) as [|[k vs] ps IH]; [constructor|]. unfold serialize_params. cbn [flat_map fst snd map]. fold (serialize_params ps). cbn [app]. rewrite <- app_assoc. cbn [app].
  destruct (P k vs (or_introl eq_refl)) as (K & NE & V). apply W_param; [exact K|now apply wire_pvals|]. apply IH. intros j us J. apply P. now right.
Qed.

(** ** Quoted texts *)
Theorem unquote_exact txt v : maybe_unquote txt = Ok v <->
  (exists s, txt = 34 :: s ++ [34] /\ v = PQuoted s) \/ not_quoted txt /\ v = PRaw txt.
Proof.
  unfold maybe_unquote. destruct txt as [|c t].
  - split; [intro H; injection H as <-; right; split; [intros t H; discriminate H|reflexivity]|]. intros [(s & H & _)|[_ ->]]; [discriminate H|reflexivity].
  - unfold c_dquote. destruct (N.eqb_spec c 34) as [->|NE].
    + destruct t as [|d t] using rev_ind.
      * cbn. split; [discriminate|]. intros [(s & H & _)|[H _]]; [destruct s; discriminate H|exfalso; exact (H [] eq_refl)].
      * clear IHt. replace (Nat.leb 2 (length (34 :: t ++ [d]))) with true by (symmetry; apply Nat.leb_le; cbn [length]; rewrite app_length; cbn; lia). cbn [assert_that bind].
        change (34 :: t ++ [d]) with ((34 :: t) ++ [d]) at 1. rewrite last_last, removelast_last. destruct (N.eqb_spec d 34) as [->|ND]; cbn [assert_that bind].
        -- split; [intro H; injection H as <-; left; now exists t|]. intros [(s & H & ->)|[H _]]; [injection H as H; apply app_inj_tail in H as [-> _]; reflexivity|exfalso; exact (H _ eq_refl)].
        -- split; [discriminate|]. intros [(s & H & ->)|[H _]]; [injection H as H; apply app_inj_tail in H as [_ H]; contradiction|exfalso; exact (H _ eq_refl)].
    + split; [intro H; injection H as <-; right; split; [intros s H; injection H as H _; contradiction|reflexivity]|].
      intros [(s & H & _)|[_ ->]]; [injection H as H _; contradiction|reflexivity].
Qed.
Theorem unquote_error txt e : maybe_unquote txt = Err e -> e = AssertionError.
Proof.
  unfold maybe_unquote. destruct txt as [|c t]; [discriminate|]. destruct (c =? c_dquote); [|discriminate].
  destruct (Nat.leb 2 _); cbn [assert_that bind]; [|intro H; now injection H]. destruct (last _ _ =? _); cbn [assert_that bind]; [discriminate|intro H; now injection H].
Qed.
Theorem written_in_grammar cl : clean_line cl ->
  exists ps, declared (serialize_unwrapped cl false) (cl_name cl) ps (cl_value cl) /\
    map (fun kv => (fst kv, map pval_str (snd kv))) ps = map (fun kv => (fst kv, map pval_str (snd kv))) (cl_params cl).
Proof.
  intro C. exists (map (fun kv => (fst kv, map requote (snd kv))) (cl_params cl)). split; [now apply written_declared|].
  rewrite map_map. apply map_ext. intros [k vs]. cbn [fst snd]. f_equal. rewrite map_map. apply map_ext. apply requote_str.
Qed.

(** The character classes. *)
Theorem classes c :
  (QSAFE c = true <-> ~ control c /\ c <> 34) /\ (SAFE c = true <-> ~ control c /\ c <> 34 /\ c <> 44 /\ c <> 58 /\ c <> 59) /\
  (VALUE c = true <-> ~ control c) /\ (IDENT c = true <-> name_char c).
Proof.
  unfold QSAFE, SAFE, VALUE, is_control, control, c_dquote, c_comma, c_colon, c_semi. split; [|split; [|split]]; [lia|lia|lia|].
  apply name_char_iff.
Qed.
