(** * Specification: reading a period *)
From Coq Require Export ZArith.
From Verif Require Import S_Dt M_Base M_Codec M_Cal M_Time M_Span M_Dt.
Open Scope Z_scope.

(** The midnight that a text shows, in UTC if it ends with Z. *)
Definition day_value (D : zone_db) (v : list N) (d : datetime) : Prop :=
  date_text (unmarked v) (fields_of (wall d)) /\ real_fields (fields_of (wall d)) /\ wall_ok (wall d) = true /\
  fold d = false /\ (utc_mark v /\ dtz d = Some (z_utc D) \/ ~ utc_mark v /\ dtz d = None).
Definition no_day (D : zone_db) (v : list N) : Prop := forall d, ~ day_value D v d.
Definition SLASH : N := 47.
Definition starts_P (v : list N) : Prop := exists r, v = 80%N :: r.

(** What a text that is to be a period is read as, or refused with. *)
Inductive period_gives (D : zone_db) : list N -> res timespan -> Prop :=
  | PG_no_slash v : ~ In SLASH v -> period_gives D v (Err ValueError)
  | PG_no_begin v : period_gives D (SLASH :: v) (Err IndexError)
  | PG_bad_begin a v : a <> [] -> ~ In SLASH a -> no_day D a -> period_gives D (a ++ SLASH :: v) (Err ValueError)
  | PG_bad_duration a b v e : ~ In SLASH a -> day_value D a b -> starts_P v -> duration_parse v = Err e ->
      period_gives D (a ++ SLASH :: v) (Err e)
  | PG_negative a b v us : ~ In SLASH a -> day_value D a b -> starts_P v -> duration_parse v = Ok us -> us < 0 ->
      period_gives D (a ++ SLASH :: v) (Err ValueError)
  | PG_duration a b v us : ~ In SLASH a -> day_value D a b -> starts_P v -> duration_parse v = Ok us -> 0 <= us ->
      period_gives D (a ++ SLASH :: v) (Ok (mk_ts KBase (Some b) None (Some us) PSecond))
  | PG_no_end a b : ~ In SLASH a -> day_value D a b -> period_gives D (a ++ [SLASH]) (Err IndexError)
  | PG_bad_end a b v : ~ In SLASH a -> day_value D a b -> v <> [] -> ~ starts_P v -> no_day D v ->
      period_gives D (a ++ SLASH :: v) (Err ValueError)
  | PG_mixed a b v e : ~ In SLASH a -> day_value D a b -> ~ starts_P v -> day_value D v e -> (utc_mark a <-> ~ utc_mark v) ->
      period_gives D (a ++ SLASH :: v) (Err TypeError)
  | PG_backwards a b v e : ~ In SLASH a -> day_value D a b -> ~ starts_P v -> day_value D v e -> (utc_mark a <-> utc_mark v) ->
      wall e < wall b -> period_gives D (a ++ SLASH :: v) (Err ValueError)
  | PG_end a b v e : ~ In SLASH a -> day_value D a b -> ~ starts_P v -> day_value D v e -> (utc_mark a <-> utc_mark v) ->
      wall b <= wall e -> period_gives D (a ++ SLASH :: v) (Ok (mk_ts KBase (Some b) (Some e) None PSecond)).
