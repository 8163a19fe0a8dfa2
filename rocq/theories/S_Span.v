(** * Specification of consistent time spans *)
From Verif Require Import M_Base M_Codec M_Cal M_Time M_Span.
Open Scope Z_scope.

(** [e] is not before [b]: clocks are compared within one zone (or without zones),
    instants across zones; a floating and a zoned time are not comparable. *)
Definition not_before (E : env) (b e : datetime) : Prop :=
  match dtz b, dtz e with
  | None, None => wall b <= wall e
  | Some (TzObj n), Some (TzObj m) =>
      if N.eqb n m then wall b <= wall e else instant E b <= instant E e
  | Some _, Some _ => instant E b <= instant E e
  | _, _ => False
  end.

Definition midnight (d : datetime) : Prop := wall d mod 86400000000 = 0.
Definition floating (d : datetime) : Prop := dtz d = None.

Record consistent (E : env) (t : timespan) : Prop := {
  co_order : forall b e, ts_begin t = Some b -> ts_end t = Some e -> not_before E b e;
  co_excl : ts_end t = None \/ ts_dur t = None;
  co_dur_begin : ts_dur t <> None -> ts_begin t <> None;
  co_end_begin : ts_kind t = KEvent -> ts_end t <> None -> ts_begin t <> None;
  co_dur_pos : forall d, ts_dur t = Some d -> 0 <= d;
  co_day_begin : forall b, ts_prec t = PDay -> ts_begin t = Some b -> floating b /\ midnight b;
  co_day_end : forall e, ts_prec t = PDay -> ts_end t = Some e -> floating e /\ midnight e;
  co_day_len : forall b e, ts_prec t = PDay -> ts_begin t = Some b -> ts_end t = Some e ->
    wall b + 86400000000 <= wall e;
  (* up to half a second is tolerated in an all-day duration *)
  co_day_dur : forall d, ts_prec t = PDay -> ts_dur t = Some d ->
    86400000000 <= d /\ d mod 86400000000 <= 500000
}.

(** A datetime that can be stored: a representable clock, and not one of the local
    zone objects that only exist during comparisons. *)
Definition stored (d : datetime) : Prop := wall_ok (wall d) = true /\ dtz d <> Some TzLocal.
Definition stored_span (t : timespan) : Prop :=
  (forall b, ts_begin t = Some b -> stored b) /\ (forall e, ts_end t = Some e -> stored e).

(** Both times are floating or carry the same zone. *)
Definition one_zone (a b : datetime) : Prop := dtz a = dtz b /\ dtz a <> Some TzLocal.

(** The same values are read from both spans. *)
Definition same_reading (E : env) (t t' : timespan) : Prop :=
  ts_kind t' = ts_kind t /\ ts_begin t' = ts_begin t /\ ts_prec t' = ts_prec t /\
  eff_end E t' = eff_end E t /\ eff_duration E t' = eff_duration E t.

(** A zone environment for examples: zone 0 is UTC, zone 1 leaves summer time at the
    clock reading [ref] 03:00 -> 02:00, zone 2 is 12 hours behind, zone 3 14 ahead. *)
Definition ref := mk_wall 2020 10 25 0 0 0 0.
Definition hour := 3600 * US_SEC.
Definition env_ex : env :=
  let off n w f :=
    match n with
    | 1%N => if w <? ref + 2 * hour then 2 * hour
             else if w <? ref + 3 * hour then (if f : bool then hour else 2 * hour) else hour
    | 2%N => -12 * hour | 3%N => 14 * hour | _ => 0 end in
  let from n u :=
    match n with
    | 1%N => if u <? ref + hour then (u + 2 * hour, false) else (u + hour, u <? ref + 2 * hour)
    | 2%N => (u - 12 * hour, false) | 3%N => (u + 14 * hour, false) | _ => (u, false) end in
  mk_env off from (off 1%N) (fun u => if u <? ref + hour then 2 * hour else hour) (off 1%N) (from 1%N).
