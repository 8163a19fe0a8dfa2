(** * VTIMEZONE lookups (src/ics/timezone/__init__.py:93-230)

    An observance's recurrence set is dateutil's; it is represented by the function
    [rrule.before(dt, inc=True)]: the latest onset not after [dt], if any. Onsets are
    wall clock readings without zone. The zone's list of observances is not changed
    after construction. *)
From Verif Require Import M_Base M_Codec M_Cal.
Open Scope Z_scope.

(** [TimezoneObservance] (timezone/__init__.py:93-117). *)
Record obs := mk_obs {
  ob_from : Z; ob_to : Z; ob_dst : bool; ob_name : option str;
  ob_before : Z -> option Z
}.
Definition ob_diff (c : obs) : Z := ob_to c - ob_from c.

(** The loop of [_find_observance_cachable] (timezone/__init__.py:191-203) on the wall
    clock [w] with the given [fold]. [dt - comp.tzoffsetdiff] may be an OverflowError. *)
Definition onset_before (c : obs) (w : Z) (fold : bool) : res (option Z) :=
  if (ob_diff c <? 0) && fold then
    if wall_ok (w - ob_diff c) then Ok (ob_before c (w - ob_diff c)) else Err OverflowError
  else Ok (ob_before c w).
Fixpoint find_last (l : list obs) (w : Z) (fold : bool) (last : option (Z * obs)) : res (option (Z * obs)) :=
  match l with
  | [] => Ok last
  | c :: l' =>
      do o <- onset_before c w fold;
      find_last l' w fold
        match o with
        | Some x => match last with
                    | None => Some (x, c)
                    | Some (y, _) => if y <? x then Some (x, c) else last
                    end
        | None => last
        end
  end.
(** The rest of it (205-214). *)
Fixpoint first_standard (l : list obs) : option obs :=
  match l with [] => None | c :: l' => if ob_dst c then first_standard l' else Some c end.
Definition find_cachable (l : list obs) (w : Z) (fold : bool) : res obs :=
  do last <- find_last l w fold None;
  match last with
  | Some (_, c) => Ok c
  | None => match first_standard l with
            | Some c => Ok c
            | None => match l with c :: _ => Ok c | [] => Err IndexError end
            end
  end.

(** The cache [functools.lru_cache(10)] (167-174): most recently used first. Keys are
    compared like naive datetimes, that is, without [fold]. Exceptions are not stored. *)
Definition cache := list (Z * obs).
Fixpoint cache_get (k : Z) (m : cache) : option obs :=
  match m with [] => None | (k', c) :: m' => if k =? k' then Some c else cache_get k m' end.
Fixpoint cache_del (k : Z) (m : cache) : cache :=
  match m with [] => [] | (k', c) :: m' => if k =? k' then m' else (k', c) :: cache_del k m' end.
Definition CACHE_SIZE : nat := 10.
Definition cached (f : Z -> bool -> res obs) (m : cache) (w : Z) (fold : bool) : cache * res obs :=
  match cache_get w m with
  | Some c => ((w, c) :: cache_del w m, Ok c)
  | None => match f w fold with
            | Ok c => (firstn CACHE_SIZE ((w, c) :: m), Ok c)
            | Err e => (m, Err e)
            end
  end.

(** [_find_observance] (timezone/__init__.py:185-189). *)
Definition find_observance (l : list obs) (m : cache) (w : Z) (fold : bool) : cache * res obs :=
  match l with
  | [] => (m, Err IndexError)
  | [c] => (m, Ok c)
  | _ => cached (find_cachable l) m w fold
  end.
(** [utcoffset], [dst], [tzname] (216-230) of a datetime. *)
Inductive question := QOffset | QDst | QName.
Inductive answer := AOffset (us : Z) | ADst (us : Z) | AName (s : option str).
Definition answer_of (q : question) (c : obs) : answer :=
  match q with
  | QOffset => AOffset (ob_to c)
  | QDst => ADst (if ob_dst c then ob_diff c else 0)
  | QName => AName (ob_name c)
  end.
Definition ask (l : list obs) (m : cache) (q : question) (w : Z) (fold : bool) : cache * res answer :=
  let '(m', r) := find_observance l m w fold in (m', rmap (answer_of q) r).

(** A history of questions to one zone. *)
Fixpoint after (l : list obs) (m : cache) (h : list (question * Z * bool)) : cache :=
  match h with
  | [] => m
  | (q, w, f) :: h' => after l (fst (ask l m q w f)) h'
  end.
