(** * Worked examples for C57 and C58 *)
From Verif Require Import M_Base M_Line M_Codec M_Cal M_Time M_Span M_Dt M_Tree M_Comp M_Rrule M_Zone M_Vtz M_Decl S_Comp S_Multi S_Toy S_Read S_Decl S_Order P_Base P_Comp P_ReadEx P_Decl P_Order.
From Coq Require Import Lia.
Open Scope N_scope.

(** A declaration like [price: Optional[float]], [next_stop: List[Union[URL, None]]]. *)
Definition C57_price : decl := ib (py "price") (opt Pfloat) true SPlain.
Definition C57_stops : decl := ib (py "next_stop") (TyList (TyUnion [TyClass PURL; TyNone])) false SPlain.
Lemma price_example : taking_part C57_price /\ source_type (d_type C57_price) false [Pfloat] /\ ~ special [Pfloat] /\
  property_name (d_name C57_price) (py "PRICE") /\ inner_underscores (d_name C57_price) /\
  get_converter_for C57_price = Ok (Some (mk_dconv (py "price") [py "PRICE"] 0%Z (DValue [CFloat] false false SPlain))).
Proof.
  split; [right; easy|]. split; [apply ST_union; [repeat constructor|discriminate]|].
  split; [intros (c & [= <-] & I); cbn in I; repeat (destruct I as [I|I]; [discriminate|]); destruct I|].
  split; [unfold property_name; repeat (apply Forall2_cons; [left; split; [split; discriminate|reflexivity]|]); apply Forall2_nil|]. split; [|vm_compute; reflexivity].
  split; intro s'; [discriminate|]. intro Q. apply (f_equal (@rev N)) in Q. rewrite rev_app_distr in Q. discriminate.
Qed.
Lemma stops_example : get_converter_for C57_stops = Ok (Some (mk_dconv (py "next_stop") [py "NEXT-STOP"] 0%Z (DValue [CUri] true true SPlain))).
Proof. vm_compute. reflexivity. Qed.
(** bytearray has a converter that a declaration of that type does not find. *)
Lemma bytearray_unusable : value_converter Pbytearray = Some CBinary /\
  forall d, taking_part d -> d_type d = TyClass Pbytearray -> get_converter_for d = Err IndexError.
Proof. split; [reflexivity|]. intros d T E. unfold get_converter_for. rewrite (taking d T), E. reflexivity. Qed.
Definition C57_nested : decl := ib (py "rows") (TyList (TyList (TyClass Pint))) true SPlain.
Definition C57_unknown : decl := ib (py "inner") (TyUnion [TyClass PEvent; TyClass PTodo]) true SPlain.
Lemma error_examples : get_converter_for C57_nested = Err AssertionError /\ get_converter_for C57_unknown = Err ValueError.
Proof. split; vm_compute; reflexivity. Qed.
Lemma sort_example : exists l, get_all (decls CCalendar) = Ok l /\ map dc_prio (sort_d (l ++ [ZONE_CONVERTER])) = [1000; 900; 800; 700; 600; -100; -200]%Z.
Proof. eexists. split; vm_compute; reflexivity. Qed.
Lemma lookup_example : exists l, find_converters CCustom = Ok l /\ (forall a, In a l -> NoDup (dc_names a)) /\
  option_map (map dc_kind) (dict_get (py "ACTION") (converter_lookup l)) = Some [DAction; DValue [CText] false false SPlain].
Proof.
  eexists. split; [vm_compute; reflexivity|]. split; [|vm_compute; reflexivity]. intros a I. cbn [In] in I.
  repeat (destruct I as [<-|I]; [cbn; constructor; [intros []|constructor]|]). destruct I.
Qed.

(** ** What is written *)
Definition names_of (its : list item) : list (list N) := map item_name its.
Definition C58_plain_items : list item :=
  filter (fun it => negb (str_eqb (item_name it) (py "X-FOO") || str_eqb (item_name it) (py "ATTENDEE"))) C53_items.
Definition C58_items : list item := C58_plain_items ++ [
  C53_line (py "ATTENDEE") [(py "CN", py "Joe")] (py "mailto:joe"); C53_line (py "X-FOO") [] (py "1"); C53_line (py "CLASS") [] (py "PRIVATE")].
Definition C58_calendar_items : list item := [
  C53_line (py "VERSION") [] (py "2.0"); ICont (py "VEVENT") C58_items; C53_line (py "PRODID") [] (py "p");
  ICont (py "VTIMEZONE") [line (py "TZID") (py "Z3")]; C53_line (py "X-WR-CALNAME") [] (py "n"); C53_line (py "CALSCALE") [] (py "GREGORIAN")].
Lemma event_example : exists x zs1 n its zs2, load_entry toy CEvent (py "VEVENT") C58_items [] = Ok (x, zs1) /\ c_cls x = CEvent /\
  dump_entry toy x zs1 = Ok (ICont n its, zs2) /\ names_of its =
    [py "DTSTART"; py "DTEND"; py "SUMMARY"; py "UID"; py "DTSTAMP"; py "VALARM"; py "ATTENDEE"; py "CATEGORIES"; py "X-FOO"; py "CLASS"].
Proof.
  assert (K : match load_entry toy CEvent (py "VEVENT") C58_items [] with
              | Ok (x, zs) => c_cls x = CEvent /\ match dump_entry toy x zs with Ok (ICont n its, _) => names_of its =
    [py "DTSTART"; py "DTEND"; py "SUMMARY"; py "UID"; py "DTSTAMP"; py "VALARM"; py "ATTENDEE"; py "CATEGORIES"; py "X-FOO"; py "CLASS"] | _ => False end | Err _ => False end)
    by (vm_compute; split; reflexivity).
  destruct (load_entry toy CEvent (py "VEVENT") C58_items []) as [[x zs]|]; [|destruct K]. destruct K as [C K].
  destruct (dump_entry toy x zs) as [[[l|n its] zs2]|] eqn:E; try contradiction K. exists x, zs, n, its, zs2. auto.
Qed.
Definition item_line (it : item) : bool := match it with ILine _ => true | _ => false end.
Fixpoint first_b (its : list item) : bool :=
  match its with [] => true | it :: its' => if item_line it then first_b its' else forallb (fun i => negb (item_line i)) its end.
Lemma first_b_spec its : properties_first its -> first_b its = true.
Proof.
  intros (a & b & -> & F1 & F2). induction F1 as [|it a (l & ->) F1 IH]; cbn [app first_b item_line]; [|exact IH].
  assert (F : forallb (fun i => negb (item_line i)) b = true).
  { clear - F2. induction F2 as [|it b (n & l & ->) F IH]; [reflexivity|exact IH]. }
  destruct b as [|it b]; [reflexivity|]. cbn [first_b]. inversion F2 as [|? ? (n & l & ->) _]; subst. cbn [item_line]. exact F.
Qed.
Lemma event_first_refuted : ~ (forall X (x : entry) zs n its zs', c_cls x = CEvent -> c_extra x = [] -> dump_entry X x zs = Ok (ICont n its, zs') -> properties_first its).
Proof.
  intro H.
  assert (K : match load_entry toy CEvent (py "VEVENT") C58_plain_items [] with
              | Ok (x, zs) => c_cls x = CEvent /\ c_extra x = [] /\ match dump_entry toy x zs with Ok (ICont n its, _) => first_b its = false | _ => False end | Err _ => False end)
    by (vm_compute; repeat split; reflexivity).
  destruct (load_entry _ _ _ _ _) as [[x zs]|]; [|destruct K]. destruct K as (C & E & K). destruct (dump_entry toy x zs) as [[[l|n its] zs2]|] eqn:D; try contradiction K.
  specialize (H toy x zs n its zs2 C E D). apply first_b_spec in H. congruence.
Qed.
Lemma calendar_first_refuted : ~ (forall X n its x n' its', load_calendar X n its = Ok x -> properties_first its -> dump_calendar X x = Ok (ICont n' its') -> properties_first its').
Proof.
  intro H. pose (items := [C53_line (py "VERSION") [] (py "2.0"); C53_line (py "PRODID") [] (py "p"); C53_line (py "X-WR-CALNAME") [] (py "n"); ICont (py "VEVENT") C58_items]).
  assert (K : match load_calendar toy (py "VCALENDAR") items with
              | Ok x => match dump_calendar toy x with Ok (ICont n its) => first_b its = false | _ => False end | Err _ => False end)
    by (vm_compute; reflexivity).
  destruct (load_calendar toy (py "VCALENDAR") items) as [x|] eqn:L; [|destruct K]. destruct (dump_calendar toy x) as [[l|n its]|] eqn:D; try contradiction K.
  assert (P : properties_first items).
  { exists (firstn 3 items), (skipn 3 items). split; [reflexivity|]. split; [repeat (constructor; [eexists; reflexivity|]); constructor|]. constructor; [do 2 eexists; reflexivity|constructor]. }
  specialize (H toy (py "VCALENDAR") items x n its L P D). apply first_b_spec in H. congruence.
Qed.
Lemma calendar_example : exists x n its, load_calendar toy (py "VCALENDAR") C58_calendar_items = Ok x /\ dump_calendar toy x = Ok (ICont n its) /\
  get_attr (py "scale") x = ANone /\ get_attr (py "version") x <> ANone /\ get_attr (py "prodid") x <> ANone /\ get_mem (py "events") x <> [] /\
  names_of its = [py "VERSION"; py "PRODID"; py "VTIMEZONE"; py "VEVENT"; py "X-WR-CALNAME"; py "CALSCALE"].
Proof.
  assert (K : match load_calendar toy (py "VCALENDAR") C58_calendar_items with
              | Ok x => match dump_calendar toy x with Ok (ICont n its) => get_attr (py "scale") x = ANone /\ match get_attr (py "version") x with ANone => False | _ => True end /\
                    match get_attr (py "prodid") x with ANone => False | _ => True end /\ match get_mem (py "events") x with [] => False | _ => True end /\
                    names_of its = [py "VERSION"; py "PRODID"; py "VTIMEZONE"; py "VEVENT"; py "X-WR-CALNAME"; py "CALSCALE"] | _ => False end | Err _ => False end)
    by (vm_compute; repeat split; reflexivity).
  destruct (load_calendar _ _ _) as [x|]; [|destruct K]. destruct (dump_calendar toy x) as [[l|n its]|] eqn:D; try contradiction K. destruct K as (K1 & K2 & K3 & K4 & K5).
  exists x, n, its. split; [easy|]. split; [easy|]. split; [easy|]. split; [intro Q; now rewrite Q in K2|]. split; [intro Q; now rewrite Q in K3|]. split; [intro Q; now rewrite Q in K4|easy].
Qed.
Lemma toy_zones z it : x_tz_dump toy z = Ok it -> is_component it. Proof. cbn. intros [= <-]. do 2 eexists. reflexivity. Qed.
(** A CLASS line is not what the classification is read from. *)
Lemma rfc_names_refuted : ~ (forall X n its zs x zs' l, load_entry X CEvent n its zs = Ok (x, zs') -> In (ILine l) its -> cl_name l = py "CLASS" ->
  get_attr (py "classification") x = AOne (VStr (cl_value l))).
Proof.
  intro H.
  assert (K : match load_entry toy CEvent (py "VEVENT") C58_items [] with Ok (x, zs) => get_attr (py "classification") x = ANone | Err _ => False end) by (vm_compute; reflexivity).
  destruct (load_entry toy CEvent (py "VEVENT") C58_items []) as [[x zs]|] eqn:L; [|destruct K].
  specialize (H toy (py "VEVENT") C58_items [] x zs (mk_line (py "CLASS") [] (py "PRIVATE")) L). rewrite K in H.
  assert (I : In (ILine (mk_line (py "CLASS") [] (py "PRIVATE"))) C58_items) by (apply in_app_iff; right; right; right; left; reflexivity). discriminate (H I eq_refl).
Qed.
Lemma todo_example : exists x n its zs, c_cls x = CTodo /\ get_attr (py "percent") x <> ANone /\ dump_entry toy x [] = Ok (ICont n its, zs) /\
  In (py "PERCENT") (names_of its) /\ ~ In (py "PERCENT-COMPLETE") (names_of its).
Proof.
  assert (K : match load_entry toy CTodo (py "VTODO") [C53_line (py "PERCENT") [] (py "50")] [] with
              | Ok (x, zs) => c_cls x = CTodo /\ match get_attr (py "percent") x with ANone => False | _ => True end /\ match dump_entry toy x [] with Ok (ICont n its, _) =>
                  existsb (str_eqb (py "PERCENT")) (names_of its) = true /\ existsb (str_eqb (py "PERCENT-COMPLETE")) (names_of its) = false | _ => False end | Err _ => False end)
    by (vm_compute; repeat split; reflexivity).
  destruct (load_entry _ _ _ _ _) as [[x zs]|]; [|destruct K]. destruct K as (K1 & K2 & K). destruct (dump_entry toy x []) as [[[l|n its] zs2]|] eqn:D; try contradiction K.
  destruct K as [K3 K4]. exists x, n, its, zs2. split; [easy|]. split; [intro Q; now rewrite Q in K2|]. split; [easy|]. split; [now apply existsb_str|].
  intro I. apply existsb_str in I. congruence.
Qed.
