(** * Examples of numbers and coordinates *)
From Verif Require Import M_Base P_Base M_Text M_Line M_Codec S_Codec P_Codec M_Cal M_Time M_Span M_Dt M_Comp S_Tree S_Store S_Toy M_Float S_Float P_Float P_Float3 P_Float4 P_Float5 P_Float6.
From Coq Require Import Lia.
Open Scope Z_scope.

Definition float_toy : ext :=
  mk_ext (x_env toy) (x_zdb toy) (x_utc toy) (x_urlparse toy) (x_geturl toy) fl_read fl_show (x_uid toy) (x_now toy) (x_tz_load toy) (x_tz_dump toy).
Lemma float_toy_ok : float_ext float_toy.
Proof. now split. Qed.
(** The bits of 0.1 *)
Definition tenth : N := 4591870180066957722.
Lemma tenth_text : numeral (py " -0_0.1_0e+0 ") true 10 100.
Proof.
  exists (py " "), (py "-"), (py "0_0.1_0"), [48; 48; 49; 48]%N, 2, (py "e+0"), 0, (py " ").
  repeat split.
  - intros c [<-|[]]. auto.
  - intros c [<-|[]]. auto.
  - unfold sign. auto.
  - apply (M_point (py "0_0") [48; 48]%N (py "1_0") [49; 48]%N); [| |discriminate]; constructor; apply U_under; [lia|constructor; lia|lia|constructor; lia].
  - apply (E_some (py "e") (py "+") false (py "0") [48]%N); [now left|unfold sign; auto|constructor; lia].
Qed.
Lemma tenth_read : fl_read (py " -0_0.1_0e+0 ") = Ok (tenth + 2 ^ 63)%N.
Proof. now vm_compute. Qed.
Lemma inf_text : word_of (py "infinity") (py "+iNFinity") false.
Proof.
  exists [], (py "+"), (py "iNFinity"), []. split; [easy|]. split; [now intros c []|]. split; [now intros c []|]. split; [unfold sign; auto|].
  repeat (constructor; [vm_compute; intuition congruence|]). constructor.
Qed.
Lemma not_text : forall P, ~ float_text (py "1__0") P.
Proof. apply (read_err (py "1__0") ValueError). now vm_compute. Qed.
Lemma tenth_signed : signed (py "-48.85299") true 4885299 5.
Proof.
  apply S_minus. refine (D_point (py "48") 48 (py "85299") 85299 _ _);
    (split; [discriminate|split; [|reflexivity]]); intros c H; apply is_digit_spec; revert c H; apply forallb_forall; reflexivity.
Qed.
Lemma tenth_stands : stands tenth false 7205759403792794 1018.
Proof. repeat split; try lia; now vm_compute. Qed.
(** 2 ** 40 *)
Lemma large_stands : stands 4787326403894837248 false (2 ^ 52) 1062 /\ 2 ^ 33 * 2 ^ 1074 <= 2 ^ 52 * 2 ^ 1062.
Proof. repeat split; try (now vm_compute); right; now vm_compute. Qed.
(** 1e-7 *)
Lemma small_stands : stands 4502148214488346440 false 7555786372591432 998 /\ 2 * (7555786372591432 * 2 ^ 998 * 10 ^ 6) < 2 ^ 1074.
Proof. repeat split; try (now vm_compute); right; now vm_compute. Qed.
Lemma tie_rounded : rounded false (2 ^ 53 + 1) 1 (Z.to_N (1076 * 2 ^ 52)).
Proof.
  replace (Z.to_N (1076 * 2 ^ 52)) with (encode false (double_of (2 ^ 53 + 1) 1)) by (now vm_compute). now apply encode_rounded.
Qed.
(** Seven digits after the point are not kept. *)
Lemma seven_lost : exists s ps zs a b t a', vparse float_toy Geo s ps zs = Ok (VGeo a b, ps, zs) /\
  vserialize float_toy Geo (VGeo a b) ps zs = Ok (t, ps, zs) /\ vparse float_toy Geo t ps zs = Ok (VGeo a' b, ps, zs) /\ a' <> a.
Proof.
  exists (py "0.1234567;2"), [], []. do 4 eexists. split; [vm_compute; reflexivity|]. split; [vm_compute; reflexivity|].
  split; [vm_compute; reflexivity|]. vm_compute. discriminate.
Qed.
(** Not a number is not equal to itself, but the sign of one is lost even in the bits. *)
Lemma nan_lost : exists b b', bits b /\ not_a_number b /\ fl_read (fl_show b) = Ok b' /\ b' <> b.
Proof. exists (4095 * 2 ^ 52 + 2 ^ 51)%N. eexists. split; [now vm_compute|]. split; [now vm_compute|]. split; [vm_compute; reflexivity|]. vm_compute. discriminate. Qed.
