(** * Examples of zone objects, datetimes in them and a data base *)
From Verif Require Import M_Base M_Text M_Line M_Codec M_Cal M_Time M_Span M_Dt M_Fold M_Tree M_Comp M_Open M_Serial M_Rrule M_Zone M_Vtz M_TzConv.
From Verif Require Import S_Text S_Codec S_Line S_Fold S_Dt S_Tree S_Comp S_Store S_Ref S_Wire S_Vtz S_Toy S_TzConv.
From Verif Require Import P_Base P_Codec P_Dt P_VtzEx P_TzConv P_TzConv2.
From Coq Require Import Lia ZifyBool ZifyNat ZifyN.
Open Scope Z_scope.

(** Further facts *)
Lemma unsupported X rule_parse date_parse find_file windows_to_olson off text : off <> 0 -> ~ called_utc text ->
  Timezone_from_tzinfo X rule_parse date_parse find_file windows_to_olson (TUtilOffset off text) = Err ValueError /\
  Timezone_from_tzinfo X rule_parse date_parse find_file windows_to_olson (TPytzFixed off text) = Err ValueError.
Proof.
  intros O T. split; apply (convert_unsupported X rule_parse date_parse find_file windows_to_olson _ off); try easy.
  - intros U. remember (TUtilOffset off text) as t eqn:Q. destruct U; try discriminate Q; [injection Q; congruence|now subst t].
  - intros U. remember (TPytzFixed off text) as t eqn:Q. destruct U; try discriminate Q. now subst t.
Qed.
Lemma to_utc X rule_parse date_parse find_file windows_to_olson t : means_utc t -> (forall z, t <> TIcs z) ->
  exists z, Timezone_from_tzinfo X rule_parse date_parse find_file windows_to_olson t = Ok (Some z) /\
    t_id z = py "UTC" /\ fixed_at z 0 (Some (py "UTC")).
Proof.
  intros U N. exists UTC. split; [|split; [reflexivity|exact fixed_utc]]. apply convert_utc; [exact U|].
  destruct t; try reflexivity. now destruct (N z).
Qed.
Lemma named_iff X rule_parse date_parse find_file windows_to_olson t n z : named t n -> ~ means_utc t ->
  Timezone_from_tzinfo X rule_parse date_parse find_file windows_to_olson t = Ok (Some z) <->
  exists txt its, file_for find_file windows_to_olson n txt /\ holds_zone txt its /\
    load_zone X rule_parse date_parse (py "VTIMEZONE") its = Ok z.
Proof.
  intros N U. rewrite (convert_named X rule_parse date_parse find_file windows_to_olson t n N U), <- from_tzid_iff.
  destruct (Timezone_from_tzid _ _ _ _ _ n); cbn [rmap]; intuition congruence.
Qed.
Lemma cache_useless X rule_parse date_parse find_file windows_to_olson t c c' :
  from_tzinfo X rule_parse date_parse find_file windows_to_olson t (Some c) =
    (Timezone_from_tzinfo X rule_parse date_parse find_file windows_to_olson t, Some c) /\
  fst (from_tzinfo X rule_parse date_parse find_file windows_to_olson t (Some c)) =
  fst (from_tzinfo X rule_parse date_parse find_file windows_to_olson t c').
Proof. unfold Timezone_from_tzinfo, from_tzinfo. destruct t; try (split; reflexivity); destruct (is_utc _); split; reflexivity. Qed.

(** A data base with one zone *)
Definition tx_lines : list (list N) :=
  [py "BEGIN:VCALENDAR"; py "PRODID:x"; py "VERSION:2.0"; py "BEGIN:VTIMEZONE"; py "TZID:Europe/Berlin"; py "BEGIN:STANDARD";
   py "TZOFFSETFROM:+0100"; py "TZOFFSETTO:+0100"; py "DTSTART:19700101T000000"; py "RRULE:FREQ=YEARLY;COUNT=1"; py "END:STANDARD";
   py "END:VTIMEZONE"; py "END:VCALENDAR"].
Definition tx_text : list N := concat (map (fun l => l ++ [10%N]) tx_lines).
Definition tx_files (n : list N) : option (list N) := if str_eqb n (py "Europe/Berlin") then Some tx_text else None.

(** Zone objects: 0 is dateutil's UTC, 5 to 8 have names of their own, 11 to 18 are the
    definitions made of these, those from 20 on the definitions of the offsets without a
    name, and [TzFixed] are [datetime.timezone] objects. *)
Definition tx_code (off : Z) : N := (20 + Z.to_N (if (off <? 0)%Z then 2 * (- off) - 1 else 2 * off)%Z)%N.
Definition tx_decode (n : N) : Z := let k := Z.of_N n - 20 in if Z.even k then k / 2 else - ((k + 1) / 2).
Lemma tx_decode_code off : tx_decode (tx_code off) = off.
Proof.
  unfold tx_decode, tx_code. cbv zeta. destruct (Z.ltb_spec off 0) as [H|H].
  - replace (Z.of_N (20 + Z.to_N (2 * - off - 1)) - 20) with (2 * (- off - 1) + 1) by lia.
    rewrite (Z.even_add (2 * (- off - 1)) 1), Z.even_mul. cbn [Z.even orb eqb].
    replace (2 * (- off - 1) + 1 + 1) with (- off * 2) by lia. rewrite Z.div_mul by easy. lia.
  - replace (Z.of_N (20 + Z.to_N (2 * off)) - 20) with (2 * off) by lia.
    rewrite Z.even_mul. cbn [Z.even orb]. rewrite Z.mul_comm, Z.div_mul by easy. lia.
Qed.
Lemma tx_code_big off : (20 <= tx_code off)%N.
Proof. unfold tx_code. lia. Qed.
Definition tx_names : list (N * (Z * list N)) :=
  [(5%N, (vx_hour, py "X")); (6%N, (2 * vx_hour, py "X")); (7%N, (vx_hour, [])); (8%N, (2 * vx_hour, py "UTC"))].
Definition tx_find (n : N) : option (Z * list N) := option_map snd (find (fun p => N.eqb (fst p) n) tx_names).
Definition tx_obj (z : tz) : tzinfo :=
  match z with
  | TzObj n =>
      if N.ltb n 20 then
        match tx_find n, tx_find (n - 10) with
        | Some (off, name), _ => TBuiltin off (Some name)
        | None, Some (off, name) => TIcs (Timezone_from_offset name off)
        | None, None => TUtilUtc
        end
      else TIcs (Timezone_from_offset (name_from_offset (tx_decode n)) (tx_decode n))
  | TzFixed off => TBuiltin off None
  | TzLocal => TUtilLocal false (py "tzlocal()")
  end.
Definition tx_inj (t : timezone) : tz :=
  let off := match t_obs t with [o] => o_to o | _ => 0 end in
  match find (fun p => str_eqb (snd (snd p)) (t_id t) && (fst (snd p) =? off)) tx_names with
  | Some (n, _) => TzObj (n + 10)
  | None => TzObj (tx_code off)
  end.
Definition tx_utc : tz := TzObj 0.
Definition tx_before (rs : ruleset) (t : Z) : option Z := None.
Definition tx_answer (t : tzinfo) : Z :=
  match t with
  | TIcs z => match snd (ask (map (as_obs tx_before) (t_obs z)) [] QOffset 0 false) with Ok (AOffset a) => a | _ => 0 end
  | _ => match own_offset t with Some off => off | None => 0 end
  end.
Definition tx_env : env := mk_env (fun n _ _ => tx_answer (tx_obj (TzObj n))) (fun _ u => (u, false)) (fun _ _ => 0) (fun _ => 0) (fun _ _ => 0) (fun u => (u, false)).
Definition tx_db : zone_db := zdb_of toy vx_rule vx_date tx_files (fun _ => None) tx_obj tx_inj (fun _ => None) tx_utc.
Lemma tx_fixed z t : tx_obj z = TIcs t -> exists n off, t = Timezone_from_offset n off.
Proof.
  destruct z as [n|off|]; cbn [tx_obj]; try easy. destruct (N.ltb n 20); [|intros [= <-]; eauto].
  destruct (tx_find n) as [[o m]|]; [easy|]. destruct (tx_find (n - 10)) as [[o m]|]; [|easy]. intros [= <-]. eauto.
Qed.
Lemma tx_find_In n p : tx_find n = Some p -> In (n, p) tx_names.
Proof.
  unfold tx_find. destruct (find _ tx_names) as [[k q]|] eqn:F; [|easy]. intros [= <-]. apply find_some in F as [I E].
  cbn [fst] in E. apply N.eqb_eq in E. now subst k.
Qed.
Lemma tx_describes : describes tx_env tx_before tx_obj tx_inj tx_utc.
Proof.
  constructor.
  - intros z n off N O.
    assert ((exists k, In (k, (off, n)) tx_names) \/ n = name_from_offset off) as C.
    { destruct z as [k|o|]; cbn [tx_obj] in N, O.
      - destruct (N.ltb k 20); [|discriminate O]. destruct (tx_find k) as [[o m]|] eqn:F.
        + apply tx_find_In in F. injection N as <-. injection O as <-. left. eauto.
        + destruct (tx_find (k - 10)) as [[o m]|]; [discriminate O|discriminate N].
      - injection N as <-. injection O as <-. now right.
      - discriminate N. }
    unfold tx_inj. cbn [t_obs t_id Timezone_from_offset o_to]. destruct (find _ tx_names) as [[k [o m]]|] eqn:F.
    + apply find_some in F as [I E]. cbn [fst snd] in E. apply andb_true_iff in E as [E1 E2].
      apply str_eqb_eq in E1. apply Z.eqb_eq in E2. subst m o.
      repeat (destruct I as [I|I]; [injection I as <- <- <-; reflexivity|]). destruct I.
    + destruct C as [(k & I)| ->].
      * exfalso. apply (find_none _ _ F) in I. cbn [fst snd] in I. now rewrite str_eqb_refl, Z.eqb_refl in I.
      * cbn [tx_obj]. pose proof (tx_code_big off) as B. apply N.ltb_ge in B. rewrite B, tx_decode_code. reflexivity.
  - reflexivity.
  - intros z off w f O. destruct z as [n|o|]; cbn [tz_off tx_env env_off].
    + unfold tx_answer. destruct (tx_obj (TzObj n)); try discriminate O; now rewrite O.
    + now injection O as <-.
    + discriminate O.
  - intros z t w f a Q A. pose proof (tx_fixed z t Q) as (n & off & ->).
    pose proof (fixed_from n off tx_before [] QOffset w f) as F. cbn zeta in F. cbn [after] in F. rewrite F in A. injection A as <-.
    destruct z as [k|o|]; try discriminate Q. cbn [tz_off tx_env env_off]. rewrite Q. reflexivity.
Qed.

Definition tx_noon : Z := mk_wall 2020 1 1 12 0 0 0.
Definition tx_dts : list datetime := [
  mk_dt tx_noon false (Some (TzFixed 0)); mk_dt tx_noon false (Some (TzFixed (2 * vx_hour)));
  mk_dt tx_noon false (Some (TzFixed (-(3 * vx_hour + 1800 * US_SEC)))); mk_dt tx_noon true (Some (TzFixed (2 * vx_hour))) ].
Lemma tx_one z f off : own_offset (tx_obj z) = Some off -> honest (tx_obj z) -> supported (tx_obj z) -> own_name (tx_obj z) <> Some [] ->
  writable tx_obj (mk_dt tx_noon f (Some z)).
Proof.
  intros O H S N. split; [reflexivity|]. split; [reflexivity|]. split; [vm_compute; discriminate|].
  exists z, off. auto.
Qed.
Lemma tx_writable : Forall (writable tx_obj) tx_dts.
Proof.
  assert (forall off f, writable tx_obj (mk_dt tx_noon f (Some (TzFixed off)))) as H.
  { intros off f. apply (tx_one (TzFixed off) f off); [reflexivity|exact (default_honest _)|exact I|].
    cbn [tx_obj own_name builtin_name]. unfold name_from_offset. destruct (off =? 0); discriminate. }
  unfold tx_dts. constructor; [apply H|]. constructor; [apply H|]. constructor; [apply H|]. constructor; [apply H|]. constructor.
Qed.
Lemma tx_agree : names_agree tx_obj tx_dts.
Proof.
  apply default_agree. intros d z I Q.
  repeat (destruct I as [<-|I]; [injection Q as <-; eexists; split; [reflexivity|vm_compute; reflexivity]|]). destruct I.
Qed.
Definition tx_clash : list datetime := [mk_dt tx_noon false (Some (TzObj 5)); mk_dt tx_noon false (Some (TzObj 6))].
Lemma tx_clash_writable : Forall (writable tx_obj) tx_clash.
Proof.
  constructor; [|constructor; [|constructor]].
  - apply (tx_one (TzObj 5) false vx_hour); [reflexivity| |exact I|discriminate].
    intros off [= <-] [[H|H]|(n & [= <-] & [H|H])]; discriminate H.
  - apply (tx_one (TzObj 6) false (2 * vx_hour)); [reflexivity| |exact I|discriminate].
    intros off [= <-] [[H|H]|(n & [= <-] & [H|H])]; discriminate H.
Qed.
Definition tx_wrong (zs : zones) (d : datetime) (p : list N * params) : bool :=
  match datetime_parse tx_db (fst p) (snd p) (Some zs) with
  | Ok (d', _, _) => negb (instant tx_env d' =? instant tx_env d)
  | Err _ => false
  end.
Lemma tx_wrong_not zs d p : tx_wrong zs d p = true -> ~ read_same tx_db tx_env zs d p.
Proof.
  intros H (d' & qs & zs' & A & _ & B). unfold tx_wrong in H. rewrite A in H. rewrite B, Z.eqb_refl in H. discriminate H.
Qed.
Lemma tx_clash_wrong : match write_all tx_db tx_clash [] with
  | Ok (out, zs) => ~ Forall2 (read_same tx_db tx_env zs) tx_clash out
  | Err _ => False
  end.
Proof.
  assert (match write_all tx_db tx_clash [] with
          | Ok ([_; p], zs) => tx_wrong zs (mk_dt tx_noon false (Some (TzObj 6))) p = true
          | _ => False end) as H by (vm_compute; reflexivity).
  destruct (write_all tx_db tx_clash []) as [[out zs]|]; [|exact H]. destruct out as [|q [|p [|r out]]]; try contradiction H.
  intros F. inversion F as [|? ? ? ? _ G]. subst. inversion G as [|? ? ? ? K _]. subst. exact (tx_wrong_not _ _ _ H K).
Qed.
Lemma tx_no_name : own_offset (tx_obj (TzObj 7)) = Some vx_hour /\ own_name (tx_obj (TzObj 7)) = Some [] /\
  match datetime_serialize tx_db (mk_dt tx_noon false (Some (TzObj 7))) [] (Some []) with
  | Ok (s, ps, zs) => match datetime_parse tx_db s ps zs with Ok (d, _, _) => dtz d = None | Err _ => False end
  | Err _ => False
  end.
Proof. vm_compute. repeat split; reflexivity. Qed.
Lemma tx_label : own_offset (tx_obj (TzObj 8)) = Some (2 * vx_hour) /\
  match datetime_serialize tx_db (mk_dt tx_noon false (Some (TzObj 8))) [] (Some []) with
  | Ok (s, ps, zs) => s = py "20200101T120000Z" /\
      match datetime_parse tx_db s ps zs with
      | Ok (d, _, _) => instant tx_env d = instant tx_env (mk_dt tx_noon false (Some (TzObj 8))) + 2 * vx_hour
      | Err _ => False
      end
  | Err _ => False
  end.
Proof. vm_compute. repeat split; reflexivity. Qed.

(** Half a second *)
Definition tx_half : Z := 500000.
Definition tx_half_zone : timezone := Timezone_from_offset (name_from_offset tx_half) tx_half.
Lemma tx_fraction : exists off t z z' its, own_offset t = Some off /\ honest t /\
  Timezone_from_tzinfo toy vx_rule vx_date (fun _ => None) (fun _ => None) t = Ok (Some z) /\
  dump_zone toy z = Ok (ICont (py "VTIMEZONE") its) /\ load_zone toy vx_rule vx_date (py "VTIMEZONE") its = Ok z' /\
  ~ fixed_at z' off (Some (t_id z)).
Proof.
  assert (match dump_zone toy tx_half_zone with
          | Ok (ICont n its) => n = py "VTIMEZONE" /\
              match load_zone toy vx_rule vx_date (py "VTIMEZONE") its with
              | Ok z' => map o_to (t_obs z') = [0]
              | Err _ => False
              end
          | _ => False end) as H by (vm_compute; split; reflexivity).
  destruct (dump_zone toy tx_half_zone) as [[l|n its]|] eqn:A; try contradiction H. destruct H as [-> H].
  destruct (load_zone toy vx_rule vx_date (py "VTIMEZONE") its) as [z'|] eqn:B; [|contradiction H].
  exists tx_half, (TBuiltin tx_half None), tx_half_zone, z', its.
  split; [reflexivity|]. split; [exact (default_honest _)|]. split; [reflexivity|]. split; [exact A|]. split; [exact B|].
  intros F. destruct (t_obs z') as [|o [|]] eqn:C; try discriminate H. cbn [map] in H.
  specialize (F tx_before [] QOffset 0 false). rewrite C in F. cbn [map] in F. cbn in F. injection F as F. injection H as H. rewrite H in F. discriminate F.
Qed.
