(** * Examples: the declared grammar of content lines and the check of parsed lines (C66) *)
From Verif Require Import M_Base M_Line M_Check.
From Verif Require Import S_Line S_Check.
From Verif Require Import P_Base P_Line P_Check.
From Coq Require Import Lia ZifyBool ZifyNat ZifyN.
Open Scope N_scope.

Definition ex_line : content_line :=
  mk_line (py "ATTENDEE") [(py "CN", [PRaw (py "a:b")]); (py "X-P", [PRaw []; PQuoted []; PRaw (py "^" ++ [34; 10])])] (py "mailto:x;y=z").
Lemma ident_b s : s <> [] -> forallb IDENT s = true -> identifier s.
Proof. intros N F. split; [exact N|]. intros c I. rewrite forallb_forall in F. apply name_char_iff. now apply F. Qed.
Lemma clean_b s : forallb VALUE s = true -> clean s.
Proof. intros F c I C. rewrite forallb_forall in F. specialize (F c I). unfold VALUE in F. apply control_iff in C. rewrite C in F. discriminate F. Qed.
Lemma ex_clean : clean_line ex_line.
Proof.
  split; [apply ident_b; [discriminate|reflexivity]|]. split; [apply clean_b; reflexivity|]. intros k vs [H|[H|[]]]; injection H as <- <-.
  - split; [apply ident_b; [discriminate|reflexivity]|]. split; [discriminate|]. intros v [<-|[]] c I C. exfalso. revert C. apply (clean_b (py "a:b") eq_refl). exact I.
  - split; [apply ident_b; [discriminate|reflexivity]|]. split; [discriminate|]. intros v [<-|[<-|[<-|[]]]] c I C; [destruct I|destruct I|].
    destruct I as [<-|[<-|[<-|[]]]]; [unfold control in C; lia|unfold control in C; lia|reflexivity].
Qed.
Definition ex_params : list (list N * list pval) := [(py "CN", [PQuoted (py "a:b")]); (py "X-P", [PRaw []; PQuoted []; PRaw (py "^" ++ [34; 10])])].
Lemma ex_declared : declared (py "ATTENDEE;CN=" ++ [34] ++ py "a:b" ++ [34] ++ py ";X-P=," ++ [34; 34] ++ py ",^^^'^n:mailto:x;y=z") (py "ATTENDEE") ex_params (py "mailto:x;y=z") /\ ends_filled ex_params.
Proof.
  split; [exact (written_declared ex_line ex_clean)|]. intros k vs [H|[H|[]]]; injection H as <- <-; discriminate.
Qed.
Theorem check_refuted :
  (exists line cl, parse_checked true line = Ok cl /\ ~ clean (cl_value cl) /\ forall name ps value, ~ declared line name ps value) /\
  (exists line cl, parse_checked true line = Ok cl /\ ~ identifier (cl_name cl) /\ forall name ps value, ~ declared line name ps value).
Proof.
  split.
  - exists (py "A:" ++ [7]), (mk_line (py "A") [] [7]). split; [reflexivity|]. split; [intro C; apply (C 7); [now left|unfold control; lia]|].
    intros name ps value (pt & E & I & W & C). cbn [app] in E. destruct name as [|c n]; [destruct (proj1 I eq_refl)|]. injection E as _ E. destruct n as [|d n].
    + destruct W as [|k t vs rest ps K V W]; [injection E as <-; apply (C 7); [now left|unfold control; lia]|discriminate E].
    + injection E as <- E. destruct I as [_ I]. specialize (I 58 (or_intror (or_introl eq_refl))). apply name_char_iff in I. discriminate I.
  - exists (py "A B:x"), (mk_line (py "A B") [] (py "x")). split; [reflexivity|]. split.
    + intros [_ I]. specialize (I 32 (or_intror (or_introl eq_refl))). apply name_char_iff in I. discriminate I.
    + intros name ps value (pt & E & I & W & C). destruct name as [|c n]; [destruct (proj1 I eq_refl)|]. injection E as _ E. destruct n as [|d n].
      * destruct W as [|k t vs rest ps K V W]; discriminate E.
      * injection E as <- E. destruct I as [_ I]. specialize (I 32 (or_intror (or_introl eq_refl))). apply name_char_iff in I. discriminate I.
Qed.
