(** * Specifications of DURATION and UTC-OFFSET *)
From Verif Require Import M_Base.
Open Scope Z_scope.

(** A non-empty digit string and its decimal value. *)
Definition number (ds : str) (v : Z) : Prop :=
  ds <> [] /\ (forall c, In c ds -> (48 <= c <= 57)%N) /\ v = Z.of_N (undec ds).

(** Seconds per unit letter. *)
Definition sec_of (u : char) : option Z :=
  if N.eqb u 83 then Some 1 else if N.eqb u 77 then Some 60 else if N.eqb u 72 then Some 3600
  else if N.eqb u 68 then Some 86400 else if N.eqb u 87 then Some 604800 else None.

(** RFC 5545 3.3.6, without the sign; values in seconds.
<<
  dur-value  = (["+"] / "-") "P" (dur-date / dur-time / dur-week)
  dur-date   = dur-day [dur-time]        dur-time   = "T" (dur-hour / dur-minute / dur-second)
  dur-week   = 1*DIGIT "W"               dur-hour   = 1*DIGIT "H" [dur-minute]
  dur-minute = 1*DIGIT "M" [dur-second]  dur-second = 1*DIGIT "S"   dur-day = 1*DIGIT "D"
>> *)
Inductive DurSecond : str -> Z -> Prop :=
  | DS ds v : number ds v -> DurSecond (ds ++ py "S") v.
Inductive DurMinute : str -> Z -> Prop :=
  | DM1 ds v : number ds v -> DurMinute (ds ++ py "M") (60 * v)
  | DM2 ds v s w : number ds v -> DurSecond s w -> DurMinute (ds ++ py "M" ++ s) (60 * v + w).
Inductive DurHour : str -> Z -> Prop :=
  | DH1 ds v : number ds v -> DurHour (ds ++ py "H") (3600 * v)
  | DH2 ds v s w : number ds v -> DurMinute s w -> DurHour (ds ++ py "H" ++ s) (3600 * v + w).
Inductive DurTime : str -> Z -> Prop :=
  | DT_h s v : DurHour s v -> DurTime (py "T" ++ s) v
  | DT_m s v : DurMinute s v -> DurTime (py "T" ++ s) v
  | DT_s s v : DurSecond s v -> DurTime (py "T" ++ s) v.
Inductive DurBody : str -> Z -> Prop :=
  | DB_day ds v : number ds v -> DurBody (ds ++ py "D") (86400 * v)
  | DB_daytime ds v s w : number ds v -> DurTime s w -> DurBody (ds ++ py "D" ++ s) (86400 * v + w)
  | DB_time s v : DurTime s v -> DurBody s v
  | DB_week ds v : number ds v -> DurBody (ds ++ py "W") (604800 * v).
Inductive DurValue : str -> Z -> Prop :=
  | DV_none s v : DurBody s v -> DurValue (py "P" ++ s) v
  | DV_plus s v : DurBody s v -> DurValue (py "+P" ++ s) v
  | DV_minus s v : DurBody s v -> DurValue (py "-P" ++ s) (- v).

(** What the parser accepts: parts "number unit", each optionally after a T, in any
    order, no unit twice, and an optional T at the end. *)
Record part := mk_part { p_t : bool; p_digits : str; p_unit : char }.
Definition render (p : part) : str :=
  (if p_t p then [84%N] else []) ++ p_digits p ++ [p_unit p].
Definition render_all (ps : list part) : str := concat (map render ps).
Definition part_ok (p : part) : Prop :=
  (exists v, number (p_digits p) v) /\ (exists k, sec_of (p_unit p) = Some k).
Definition part_secs (p : part) : Z :=
  match sec_of (p_unit p) with Some k => Z.of_N (undec (p_digits p)) * k | None => 0 end.
Definition total_secs (ps : list part) : Z := fold_right (fun p a => part_secs p + a) 0 ps.

Definition Accepted (s : str) (secs : Z) : Prop :=
  exists sign parts tail,
    ((sign = [] \/ sign = py "+") /\ secs = total_secs parts \/
     sign = py "-" /\ secs = - total_secs parts) /\
    (tail = [] \/ tail = py "T") /\
    Forall part_ok parts /\ NoDup (map p_unit parts) /\
    s = sign ++ py "P" ++ render_all parts ++ tail.

(** UTC-OFFSET: sign, two-digit hours, minutes and optional seconds. *)
Definition two_digits (s : str) (v : Z) : Prop := length s = 2%nat /\ number s v.
Inductive OffsetValue : str -> Z -> Prop :=
  | OV sign k hh h mm m :
      (sign = py "+" \/ sign = []) /\ k = 1 \/ sign = py "-" /\ k = -1 ->
      two_digits hh h -> two_digits mm m -> OffsetValue (sign ++ hh ++ mm) (k * (3600 * h + 60 * m))
  | OVs sign k hh h mm m ss s :
      (sign = py "+" \/ sign = []) /\ k = 1 \/ sign = py "-" /\ k = -1 ->
      two_digits hh h -> two_digits mm m -> two_digits ss s ->
      OffsetValue (sign ++ hh ++ mm ++ ss) (k * (3600 * h + 60 * m + s)).

(** BOOLEAN: the words read as true and as false, whatever their letter case. *)
Definition true_words : list str := [py "TRUE"; py "T"; py "YES"; py "Y"; py "ON"; py "1"].
Definition false_words : list str := [py "FALSE"; py "F"; py "NO"; py "N"; py "OFF"; py "0"].
Definition lower_char (c : char) : char := if ((65 <=? c) && (c <=? 90))%N then (c + 32)%N else c.
Definition same_letters (a b : str) : Prop := map lower_char a = map lower_char b.

(** INTEGER: optional sign and digits. *)
Inductive IntLit : str -> Z -> Prop :=
  | IL_plain ds v : number ds v -> IntLit ds v
  | IL_plus ds v : number ds v -> IntLit (py "+" ++ ds) v
  | IL_minus ds v : number ds v -> IntLit (py "-" ++ ds) (- v).

(** What is read as an integer: blanks, an optional sign, groups of digits joined by
    single underscores, blanks. *)
Definition blank (c : char) : Prop := In c [9; 10; 11; 12; 13; 32]%N.
Fixpoint underscored (g : str) (gs : list str) : str :=
  match gs with [] => g | h :: gs' => g ++ py "_" ++ underscored h gs' end.
Inductive IntText : str -> Z -> Prop :=
  IT pre sign k g gs post v :
    Forall blank pre -> Forall blank post ->
    (sign = py "+" \/ sign = []) /\ k = 1 \/ sign = py "-" /\ k = -1 ->
    (forall d, In d (g :: gs) -> d <> [] /\ forall c, In c d -> (48 <= c <= 57)%N) ->
    number (g ++ concat gs) v ->
    IntText (pre ++ sign ++ underscored g gs ++ post) (k * v).

(** What is read as base64: of the relevant characters those up to the end mark, which
    is two equal signs after two characters of a group of four, or one after three; other
    equal signs are ignored. Without an end mark the groups must be complete. *)
Definition b64_data (t : str) : str := filter (fun c => negb (N.eqb c 61)) t.
Definition b64_mark (t : str) : Prop :=
  (exists u, t = u ++ py "==" /\ (length (b64_data u) mod 4 = 2)%nat) \/
  (exists u, t = u ++ py "=" /\ (length (b64_data u) mod 4 = 3)%nat).

(** The base64 alphabet. *)
Definition alphabet : str :=
  py "ABCDEFGHIJKLMNOPQRSTUVWXYZabcdefghijklmnopqrstuvwxyz0123456789+/".
Definition byte (b : N) : Prop := (b < 256)%N.
(** RFC 4648: groups of 24 bits as four alphabet positions, the last one padded. *)
Definition sextet (v : N) (c : char) : Prop := (v < 64)%N /\ nth_error alphabet (N.to_nat v) = Some c.
Inductive Base64 : list N -> str -> Prop :=
  | B64_nil : Base64 [] []
  | B64_1 a c1 c2 : sextet (a / 4) c1 -> sextet (a mod 4 * 16) c2 ->
      Base64 [a] [c1; c2; 61%N; 61%N]
  | B64_2 a b c1 c2 c3 : sextet (a / 4) c1 -> sextet (a mod 4 * 16 + b / 16) c2 ->
      sextet (b mod 16 * 4) c3 -> Base64 [a; b] [c1; c2; c3; 61%N]
  | B64_3 a b c c1 c2 c3 c4 bs s : sextet (a / 4) c1 -> sextet (a mod 4 * 16 + b / 16) c2 ->
      sextet (b mod 16 * 4 + c / 64) c3 -> sextet (c mod 64) c4 -> Base64 bs s ->
      Base64 (a :: b :: c :: bs) (c1 :: c2 :: c3 :: c4 :: s).

(** Characters that matter when reading base64. *)
Definition relevant (c : char) : bool := (N.eqb c 61 || existsb (N.eqb c) alphabet)%bool.

(** The bytes of the data characters: four sextets are three bytes, two one and three two
    (their last bits are dropped). *)
Inductive b64_bytes : str -> list N -> Prop :=
  | BB_0 : b64_bytes [] []
  | BB_2 c1 c2 v1 v2 : sextet v1 c1 -> sextet v2 c2 -> b64_bytes [c1; c2] [(v1 * 4 + v2 / 16)%N]
  | BB_3 c1 c2 c3 v1 v2 v3 : sextet v1 c1 -> sextet v2 c2 -> sextet v3 c3 ->
      b64_bytes [c1; c2; c3] [(v1 * 4 + v2 / 16)%N; (v2 mod 16 * 16 + v3 / 4)%N]
  | BB_4 c1 c2 c3 c4 v1 v2 v3 v4 s bs : sextet v1 c1 -> sextet v2 c2 -> sextet v3 c3 -> sextet v4 c4 ->
      b64_bytes s bs ->
      b64_bytes (c1 :: c2 :: c3 :: c4 :: s) ((v1 * 4 + v2 / 16) :: (v2 mod 16 * 16 + v3 / 4) :: (v3 mod 4 * 64 + v4) :: bs)%N.
Inductive b64_reads (s : str) : list N -> Prop :=
  BR p q bs :
    (forall c, In c s -> (c < 128)%N) ->
    filter relevant s = p ++ q ->
    b64_mark p \/ q = [] /\ (length (b64_data p) mod 4 = 0)%nat ->
    (forall u w, p = u ++ w -> w <> [] -> ~ b64_mark u) ->
    b64_bytes (b64_data p) bs ->
    b64_reads s bs.
