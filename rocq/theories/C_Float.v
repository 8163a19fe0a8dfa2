(** * C69: the numbers of coordinates *)
From Verif Require Import M_Base M_Codec S_Codec M_Dt M_Comp S_Tree S_Store S_Ref S_Again M_Float S_Float P_Float P_Float2 P_Float3 P_Float4 P_Float5 P_Float6 P_FloatEx.
Open Scope Z_scope.

(** ** C69. A text is a number exactly if it is a decimal number, perhaps with sign,
    exponent and single underscores, or one of three words; it is read as the nearest
    double, ties to even. *)
Theorem C69_number : forall t P, float_text t P -> exists b, fl_read t = Ok b /\ P b.
Proof. exact read_text. Qed.
Print Assumptions C69_number.
Example C69_number_example : float_text (py " -0_0.1_0e+0 ") (rounded true 10 100) /\ fl_read (py " -0_0.1_0e+0 ") = Ok (tenth + 2 ^ 63)%N.
Proof. split; [exact (FT_number _ _ _ _ tenth_text)|exact tenth_read]. Qed.
Theorem C69_number_only : forall t b, fl_read t = Ok b -> exists P, float_text t P.
Proof. exact read_inv. Qed.
Print Assumptions C69_number_only.
Example C69_number_only_example : float_text (py "+iNFinity") (fun b => infinite b false).
Proof. exact (FT_inf _ _ _ (or_intror eq_refl) inf_text). Qed.
Theorem C69_rejected : forall t e, fl_read t = Err e -> e = ValueError /\ forall P, ~ float_text t P.
Proof. exact read_err. Qed.
Print Assumptions C69_rejected.
Example C69_rejected_example : fl_read (py "1__0") = Err ValueError.
Proof. now vm_compute. Qed.
(** The double is determined by the number. *)
Theorem C69_unique : forall neg n d b b', 0 < d -> rounded neg n d b -> rounded neg n d b' -> b = b'.
Proof. exact rounded_unique. Qed.
Print Assumptions C69_unique.
Example C69_unique_example : rounded false (2 ^ 53 + 1) 1 (Z.to_N (1076 * 2 ^ 52)).
Proof. exact tie_rounded. Qed.
(** It is written with exactly six digits after the point: the nearest such number. *)
Theorem C69_shown : forall b neg m E, stands b neg m E ->
  exists t n, fl_show b = (if neg then py "-" else []) ++ t /\ six t n /\ nearest_six m E n.
Proof. exact shown. Qed.
Print Assumptions C69_shown.
Example C69_shown_example : stands tenth false 7205759403792794 1018 /\ fl_show tenth = py "0.100000".
Proof. split; [exact tenth_stands|now vm_compute]. Qed.
(** What was written is read and written again alike, *)
Theorem C69_stable : forall b, bits b -> exists b', fl_read (fl_show b) = Ok b' /\ fl_show b' = fl_show b.
Proof. exact stable. Qed.
Print Assumptions C69_stable.
Example C69_stable_example : bits tenth.
Proof. now vm_compute. Qed.
(** and it is the same double if it was read from a text of at most six decimals, or if it
    is at least [2 ^ 33]. *)
Theorem C69_six_kept : forall t neg n k b, signed t neg n k -> k <= 6 -> fl_read t = Ok b -> fl_read (fl_show b) = Ok b.
Proof. exact six_kept. Qed.
Print Assumptions C69_six_kept.
Example C69_six_kept_example : signed (py "-48.85299") true 4885299 5.
Proof. exact tenth_signed. Qed.
Theorem C69_large_kept : forall b neg m E, stands b neg m E -> 2 ^ 33 * 2 ^ 1074 <= m * 2 ^ E -> fl_read (fl_show b) = Ok b.
Proof. exact large_kept. Qed.
Print Assumptions C69_large_kept.
Example C69_large_kept_example : stands 4787326403894837248 false (2 ^ 52) 1062 /\ 2 ^ 33 * 2 ^ 1074 <= 2 ^ 52 * 2 ^ 1062.
Proof. exact large_stands. Qed.
(** All numbers below half a millionth become zero. *)
Theorem C69_small_lost : forall b neg m E, stands b neg m E -> 2 * (m * 2 ^ E * 10 ^ 6) < 2 ^ 1074 ->
  exists b', fl_read (fl_show b) = Ok b' /\ stands b' neg 0 0.
Proof. exact small_lost. Qed.
Print Assumptions C69_small_lost.
Example C69_small_lost_example : stands 4502148214488346440 false 7555786372591432 998 /\ 2 * (7555786372591432 * 2 ^ 998 * 10 ^ 6) < 2 ^ 1074.
Proof. exact small_stands. Qed.
(** Coordinates are two numbers with a semicolon between them; *)
Theorem C69_geo : forall X, float_ext X -> forall u v P Q ps zs, float_text u P -> float_text v Q ->
  exists a b, vparse X Geo (u ++ py ";" ++ v) ps zs = Ok (VGeo a b, ps, zs) /\ P a /\ Q b.
Proof. exact geo_read. Qed.
Print Assumptions C69_geo.
Example C69_geo_example : float_ext float_toy.
Proof. exact float_toy_ok. Qed.
Theorem C69_geo_only : forall X, float_ext X -> forall s ps zs r, vparse X Geo s ps zs = Ok r ->
  exists u v P Q, s = u ++ py ";" ++ v /\ float_text u P /\ float_text v Q.
Proof. exact geo_inv. Qed.
Print Assumptions C69_geo_only.
Theorem C69_geo_rejected : forall X, float_ext X -> forall s ps zs e, vparse X Geo s ps zs = Err e ->
  e = ValueError /\ ~ exists u v P Q, s = u ++ py ";" ++ v /\ float_text u P /\ float_text v Q.
Proof. exact geo_err. Qed.
Print Assumptions C69_geo_rejected.
(** with at most six decimals they can be stored and kept (C59); *)
Theorem C69_geo_kept : forall X, float_ext X -> forall u v s n k s' n' k', signed u s n k -> signed v s' n' k' -> k <= 6 -> k' <= 6 ->
  exists a b, (forall ps zs, vparse X Geo (u ++ py ";" ++ v) ps zs = Ok (VGeo a b, ps, zs)) /\
    storable_val X Geo (VGeo a b) /\ keepable_val X (VGeo a b).
Proof. exact geo_kept. Qed.
Print Assumptions C69_geo_kept.
(** all coordinates are written, read and written again alike, *)
Theorem C69_geo_stable : forall X, float_ext X -> forall a b ps zs, bits a -> bits b -> exists t a' b',
  vserialize X Geo (VGeo a b) ps zs = Ok (t, ps, zs) /\ vparse X Geo t ps zs = Ok (VGeo a' b', ps, zs) /\
  vserialize X Geo (VGeo a' b') ps zs = Ok (t, ps, zs).
Proof. exact geo_stable. Qed.
Print Assumptions C69_geo_stable.
(** and never with a further separator or line break in a number. *)
Theorem C69_geo_text : forall X, float_ext X -> forall a c, In c [59; 13; 10]%N -> ~ In c (x_ffmt X a).
Proof. exact geo_text_env. Qed.
Print Assumptions C69_geo_text.
(** But seven decimals are not kept, *)
Theorem C69_seven_refuted : exists s ps zs a b t a', vparse float_toy Geo s ps zs = Ok (VGeo a b, ps, zs) /\
  vserialize float_toy Geo (VGeo a b) ps zs = Ok (t, ps, zs) /\ vparse float_toy Geo t ps zs = Ok (VGeo a' b, ps, zs) /\ a' <> a.
Proof. exact seven_lost. Qed.
Print Assumptions C69_seven_refuted.
(** nor are the bits of what is not a number. *)
Theorem C69_nan_refuted : exists b b', bits b /\ not_a_number b /\ fl_read (fl_show b) = Ok b' /\ b' <> b.
Proof. exact nan_lost. Qed.
Print Assumptions C69_nan_refuted.
