(** * Worked examples for C52 *)
From Verif Require Import M_Base M_Line M_Tree M_Comp S_Comp S_Reorder S_Toy P_Base P_Comp P_Reorder.
From Coq Require Import Permutation.
Open Scope N_scope.

Definition C52_one : list item := [line (py "X-A") (py "1"); line (py "SUMMARY") (py "s"); line (py "DTSTART") (py "20200101");
  ICont (py "VALARM") [line (py "ACTION") (py "AUDIO"); line (py "X-B") (py "2")]; line (py "CATEGORIES") (py "a,b");
  line (py "DTEND") (py "20200102"); line (py "X-C") (py "1"); line (py "CATEGORIES") (py "c")].
Definition C52_two : list item := [line (py "CATEGORIES") (py "a,b"); line (py "DTEND") (py "20200102");
  line (py "CATEGORIES") (py "c"); line (py "X-A") (py "1"); ICont (py "VALARM") [line (py "ACTION") (py "AUDIO"); line (py "X-B") (py "2")];
  line (py "X-C") (py "1"); line (py "DTSTART") (py "20200101"); line (py "SUMMARY") (py "s")].

Definition C52_in_calendar (e : list item) : list item := [ICont (py "VEVENT") e; line (py "PRODID") (py "p"); line (py "VERSION") (py "2.0")].
Definition C52_turned (e : list item) : list item := [line (py "VERSION") (py "2.0"); ICont (py "VEVENT") e; line (py "PRODID") (py "p")].

Definition nameb (l m : list item) : bool := forallb (fun it => existsb (str_eqb (item_name it)) (map item_name m)) l.
Lemma filter_absent n l : ~ In n (map item_name l) -> filter (named n) l = [].
Proof.
  intro H. apply filter_none. intros b I. unfold named. destruct (str_eqb (item_name b) n) eqn:E; [|easy]. apply str_eqb_eq in E as <-. exfalso. apply H. now apply in_map.
Qed.
Lemma arranged_names c l m : (forall n, In n (map item_name l ++ map item_name m) -> filter (named n) l = filter (named n) m) ->
  filter (unk c) l = filter (unk c) m ->
  filter (fun it => named (py "DTEND") it || named (py "DUE") it) l = filter (fun it => named (py "DTEND") it || named (py "DUE") it) m ->
  arranged c l m.
Proof.
  intros H1 H2 H3. split; [|split; [|exact H3]].
  - intro n. destruct (in_dec (list_eq_dec N.eq_dec) n (map item_name l ++ map item_name m)) as [I|I]; [auto|].
    rewrite !filter_absent; auto; intro K; apply I, in_or_app; auto.
  - intros us K. apply Unknown_filter in K as ->. now apply Unknown_filter.
Qed.
Lemma one_two : arranged CEvent C52_one C52_two.
Proof.
  apply arranged_names; [|vm_compute; reflexivity..].
  intros n H. repeat (destruct H as [<-|H]; [vm_compute; reflexivity|]). destruct H.
Qed.
Lemma order_example : arranged CEvent C52_one C52_two /\ C52_one <> C52_two /\
  calendar_order (C52_in_calendar C52_one) (C52_turned C52_two) /\
  (exists x, load_entry toy CEvent (py "VEVENT") C52_one [] = Ok (x, []) /\ length (c_extra x) = 2%nat) /\
  exists x, load_calendar toy (py "VCALENDAR") (C52_in_calendar C52_one) = Ok x.
Proof.
  split; [exact one_two|]. split; [discriminate|]. split; [|split].
  - apply RO_trans with (m := C52_in_calendar C52_two).
    + constructor; [|apply reorder_refl; now left]. right; left. exists C52_one, C52_two. split; [easy|]. split; [easy|].
      apply arranged_reorder; [now left|exact one_two].
    + apply arranged_reorder; [now left|]. apply arranged_names; [|vm_compute; reflexivity..].
      intros n H. repeat (destruct H as [<-|H]; [vm_compute; reflexivity|]). destruct H.
  - destruct (load_entry toy CEvent (py "VEVENT") C52_one []) as [[x zs]|e] eqn:E.
    + exists x. assert (H : match load_entry toy CEvent (py "VEVENT") C52_one [] with Ok (x, zs) => length (c_extra x) = 2%nat /\ zs = [] | Err _ => False end) by (vm_compute; auto).
      rewrite E in H. destruct H as [H ->]. auto.
    + assert (H : match load_entry toy CEvent (py "VEVENT") C52_one [] with Ok _ => True | Err _ => False end) by (vm_compute; auto). rewrite E in H. destruct H.
  - assert (H : match load_calendar toy (py "VCALENDAR") (C52_in_calendar C52_one) with Ok _ => True | Err _ => False end) by (vm_compute; auto).
    destruct (load_calendar toy (py "VCALENDAR") (C52_in_calendar C52_one)); [eauto|easy].
Qed.
Lemma event_order_refuted : ~ (forall X l m zs, NoDup (map item_name l) -> Permutation l m -> Forall (known CEvent) l ->
  agree same_entry (rmap fst (load_entry X CEvent (py "VEVENT") l zs)) (rmap fst (load_entry X CEvent (py "VEVENT") m zs))).
Proof.
  intro H. specialize (H toy [line (py "DTSTART") (py "20200101"); line (py "DUE") (py "20200102"); line (py "DTEND") (py "20200102")]
    [line (py "DTSTART") (py "20200101"); line (py "DTEND") (py "20200102"); line (py "DUE") (py "20200102")] []).
  cut (forall A (a b : res A) R, agree R a b -> match a, b with Ok _, Err _ => False | _, _ => True end).
  - intro K. specialize (K _ _ _ _ (H ltac:(repeat constructor; cbn; intuition discriminate) ltac:(apply perm_skip, perm_swap) ltac:(apply Forall_cons; [apply knownb_spec; vm_compute; reflexivity|]; apply Forall_cons; [apply knownb_spec; vm_compute; reflexivity|]; apply Forall_cons; [apply knownb_spec; vm_compute; reflexivity|]; apply Forall_nil))).
    vm_compute in K. exact K.
  - clear. intros A a b R. destruct a, b; cbn; tauto.
Qed.
