(** * Property C57: converters are found from the declarations of the attributes *)
From Verif Require Import M_Base M_Line M_Comp M_Vtz M_Decl S_Decl P_Decl P_OrderEx.

(** C57. An attribute declared with value classes gets the converters registered for those
    classes, in the order of the declaration, the property name from its own name unless
    one is given, and it is required unless it has a default value. *)
Theorem C57_value : forall d m cs vs name, taking_part d -> source_type (d_type d) m cs -> ~ special cs ->
  Forall2 (fun c v => value_converter c = Some v) cs vs ->
  (d_ics_name d = Some name /\ name <> [] \/ d_ics_name d = None /\ property_name (d_name d) name /\ inner_underscores (d_name d)) ->
  exists r, get_converter_for d = Ok (Some (mk_dconv (d_name d) [name] (match d_priority d with Some p => p | None => 0%Z end) (DValue vs m r (d_set d)))) /\
    (r = true <-> required_attribute d).
Proof. exact value_found. Qed.
Print Assumptions C57_value.
Example C57_value_example : taking_part C57_price /\ source_type (d_type C57_price) false [Pfloat] /\ ~ special [Pfloat] /\
  property_name (d_name C57_price) (py "PRICE") /\ inner_underscores (d_name C57_price) /\
  get_converter_for C57_price = Ok (Some (mk_dconv (py "price") [py "PRICE"] 0%Z (DValue [CFloat] false false SPlain))).
Proof. exact price_example. Qed.
Example C57_list_example : get_converter_for C57_stops = Ok (Some (mk_dconv (py "next_stop") [py "NEXT-STOP"] 0%Z (DValue [CUri] true true SPlain))).
Proof. exact stops_example. Qed.

(** C57. Attributes of one special class get a converter made for that class. *)
Theorem C57_special : forall d m cs, taking_part d -> source_type (d_type d) m cs -> special cs ->
  exists c k names p, cs = [c] /\ In (c, k, names, p) SPECIAL /\
    get_converter_for d = Ok (Some (mk_dconv (d_name d) names (match d_priority d with Some q => q | None => p end) k)).
Proof. exact special_found. Qed.
Print Assumptions C57_special.
(** C57. Other attributes get none. *)
Theorem C57_ignored : forall d, ~ taking_part d -> get_converter_for d = Ok None.
Proof. exact ignored. Qed.
Print Assumptions C57_ignored.
(** C57. A class without a converter is a ValueError, a list of lists an AssertionError. *)
Theorem C57_unknown_class : forall d m cs, taking_part d -> source_type (d_type d) m cs -> ~ special cs ->
  (exists c, In c cs /\ value_converter c = None) -> get_converter_for d = Err ValueError.
Proof. exact unknown_class. Qed.
Print Assumptions C57_unknown_class.
Theorem C57_nested_lists : forall d t m cs, taking_part d -> d_type d = TyList t -> source_type t m cs ->
  (m = true <-> get_converter_for d = Err AssertionError).
Proof. exact nested_lists. Qed.
Print Assumptions C57_nested_lists.
Example C57_error_examples : get_converter_for C57_nested = Err AssertionError /\ get_converter_for C57_unknown = Err ValueError.
Proof. exact error_examples. Qed.

(** C57. The converter of a class is the last one assigned, otherwise the first one
    registered. *)
Theorem C57_registered : forall rs t c, registered rs t = Some c <-> winner rs t c.
Proof. exact registered_iff. Qed.
Print Assumptions C57_registered.
Theorem C57_unregistered : forall rs t, registered rs t = None <-> Forall (fun r => ~ about t r) rs.
Proof. exact unregistered_iff. Qed.
Print Assumptions C57_unregistered.
Example C57_registered_example : value_converter Pstr = Some CText /\ winner VALUE_CONVERTERS Pstr CText.
Proof. exact (conj eq_refl (proj1 (registered_iff VALUE_CONVERTERS Pstr CText) eq_refl)). Qed.

(** C57 for every class with a registered converter is false: bytearray has one which an
    attribute of that type cannot use, for it is taken for a list. *)
Theorem C57_bytearray_refuted : value_converter Pbytearray = Some CBinary /\
  forall d, taking_part d -> d_type d = TyClass Pbytearray -> get_converter_for d = Err IndexError.
Proof. exact bytearray_unusable. Qed.
Print Assumptions C57_bytearray_refuted.

(** C57. The converters are sorted by falling priority, the declared order deciding among
    equals; there is only one such order. *)
Theorem C57_sorted : forall l, sorted_as l (sort_d l).
Proof. exact sort_sorts. Qed.
Print Assumptions C57_sorted.
Theorem C57_sorted_only : forall l l', sorted_as l l' -> l' = sort_d l.
Proof. exact sort_only. Qed.
Print Assumptions C57_sorted_only.
Example C57_sorted_example : exists l, get_all (decls CCalendar) = Ok l /\ map dc_prio (sort_d (l ++ [ZONE_CONVERTER])) = [1000; 900; 800; 700; 600; -100; -200]%Z.
Proof. exact sort_example. Qed.

(** C57. A name is looked up to exactly the converters that answer to it, in order. *)
Theorem C57_lookup : forall l n, (forall a, In a l -> NoDup (dc_names a)) ->
  exists r, answering n l r /\ dict_get n (converter_lookup l) = match r with [] => None | _ => Some r end.
Proof. exact lookup_answers. Qed.
Print Assumptions C57_lookup.
Example C57_lookup_example : exists l, find_converters CCustom = Ok l /\ (forall a, In a l -> NoDup (dc_names a)) /\
  option_map (map dc_kind) (dict_get (py "ACTION") (converter_lookup l)) = Some [DAction; DValue [CText] false false SPlain].
Proof. exact lookup_example. Qed.

(** C57. The tables by which components are read and written, in M_Comp and M_Vtz, are
    those found from the declarations of their classes. *)
Theorem C57_tables : forall c, exists l, find_converters c = Ok l /\ Forall2 (same_row c) l (converters c).
Proof. exact tables. Qed.
Print Assumptions C57_tables.
Theorem C57_observance_table : exists l, find_plain Observance_decls = Ok l /\ Forall2 same_zitem l obs_fields.
Proof. exact observance_table. Qed.
Print Assumptions C57_observance_table.
Theorem C57_zone_table : exists l, find_plain Timezone_decls = Ok l /\ Forall2 same_zitem l zone_fields.
Proof. exact zone_table. Qed.
Print Assumptions C57_zone_table.
