(** * Model of the scopes [contentline_set_wrap] and [deterministic_event_data]

    src/ics/contentline/container.py:20-43, src/ics/event.py:35-51. *)
From Verif Require Import M_Base M_Codec M_Cal M_Time.
Open Scope Z_scope.

(** The state the scopes change: the width of [DEFAULT_LINE_WRAP] and the two context
    variables ([None] is the default factory, [Some v] is [lambda: v]). *)
Record gstate := mk_gs { g_width : Z; g_uid : option str; g_stamp : option datetime }.

Definition MAXSIZE : Z := 2 ^ 63 - 1.       (* sys.maxsize *)

(** Argument of [contentline_set_wrap]: None, an int, or something that is truthy and
    cannot be compared to 0. *)
Inductive warg := WNone | WInt (w : Z) | WBad.
(** [if not width or width <= 0: ... else: ...] (container.py:35-38) *)
Definition new_width (w : warg) : res Z :=
  match w with
  | WNone => Ok MAXSIZE
  | WInt w => Ok (if (w =? 0) || (w <=? 0) then MAXSIZE else w)
  | WBad => Err TypeError
  end.

Definition set_width (w : Z) (s : gstate) := mk_gs w (g_uid s) (g_stamp s).
Definition set_uid (u : option str) (s : gstate) := mk_gs (g_width s) u (g_stamp s).
Definition set_stamp (d : option datetime) (s : gstate) := mk_gs (g_width s) (g_uid s) d.

(** How a piece of code ends: normally, by an exception, or by leaving the block
    (return, break, continue), which runs [finally] as well. *)
Inductive outcome := Normal | Raised (e : exn) | Left.

(** Programs: scopes, arbitrarily nested, with exceptions anywhere, handlers, loops and
    choices. [PSet...] is code that changes the globals directly. *)
Inductive prog :=
  | PSkip
  | PRaise (e : exn)
  | PLeave
  | PSeq (p q : prog)
  | PTry (p q : prog)                         (* try: p  except: q *)
  | PChoice (p q : prog)
  | PLoop (p : prog)
  | PCall (p : prog)                          (* a function call: Left stops here *)
  | PSetWidth (w : Z)
  | PSetUid (u : option str)
  | PSetStamp (d : option datetime)
  | PWrap (w : warg) (p : prog)               (* with contentline_set_wrap(w): p *)
  | PDet (u : str) (d : datetime) (p : prog). (* with deterministic_event_data(u, d): p *)

Inductive exec : prog -> gstate -> gstate -> outcome -> Prop :=
  | ESkip s : exec PSkip s s Normal
  | ERaise e s : exec (PRaise e) s s (Raised e)
  | ELeave s : exec PLeave s s Left
  | ESeq p q s s1 s2 o : exec p s s1 Normal -> exec q s1 s2 o -> exec (PSeq p q) s s2 o
  | ESeqStop p q s s1 o : exec p s s1 o -> o <> Normal -> exec (PSeq p q) s s1 o
  | ETry p q s s1 s2 e o : exec p s s1 (Raised e) -> exec q s1 s2 o -> exec (PTry p q) s s2 o
  | ETryOk p q s s1 o : exec p s s1 o -> (forall e, o <> Raised e) -> exec (PTry p q) s s1 o
  | EChoiceL p q s s1 o : exec p s s1 o -> exec (PChoice p q) s s1 o
  | EChoiceR p q s s1 o : exec q s s1 o -> exec (PChoice p q) s s1 o
  | ELoopEnd p s : exec (PLoop p) s s Normal
  | ELoopStop p s s1 o : exec p s s1 o -> o <> Normal -> exec (PLoop p) s s1 (match o with Left => Normal | _ => o end)
  | ELoop p s s1 s2 o : exec p s s1 Normal -> exec (PLoop p) s1 s2 o -> exec (PLoop p) s s2 o
  | ECall p s s1 o : exec p s s1 o -> exec (PCall p) s s1 (match o with Left => Normal | _ => o end)
  | ESetWidth w s : exec (PSetWidth w) s (set_width w s) Normal
  | ESetUid u s : exec (PSetUid u) s (set_uid u s) Normal
  | ESetStamp d s : exec (PSetStamp d) s (set_stamp d s) Normal
  (* container.py:33-42 *)
  | EWrapBad w e p s : new_width w = Err e -> exec (PWrap w p) s s (Raised e)
  | EWrap w n p s s1 o : new_width w = Ok n ->
      exec p (set_width n s) s1 o -> exec (PWrap w p) s (set_width (g_width s) s1) o
  (* event.py:41-51: set, set, body, reset, reset; reset puts back the value its token
     remembers *)
  | EDet u d p s s1 o :
      exec p (set_stamp (Some d) (set_uid (Some u) s)) s1 o ->
      exec (PDet u d p) s (set_stamp (g_stamp s) (set_uid (g_uid s) s1)) o.

(** ** Two threads

    A trace is a sequence of scope entries and exits, each by one of two threads.
    [DEFAULT_LINE_WRAP] is shared; each thread keeps the [oldwidth] of its open scopes.
    Context variables belong to a thread. *)
Inductive event := Enter (w : Z) | Exit.
Definition trace := list (bool * event).

Record shared := mk_sh { sh_width : Z; sh_old : bool -> list Z }.
Definition put {A} (f : bool -> A) (t : bool) (x : A) : bool -> A :=
  fun u => if Bool.eqb u t then x else f u.
Definition sh_step (s : shared) (te : bool * event) : shared :=
  let (t, e) := te in
  match e with
  | Enter w => mk_sh w (put (sh_old s) t (sh_width s :: sh_old s t))
  | Exit => match sh_old s t with
            | [] => s
            | o :: r => mk_sh o (put (sh_old s) t r)
            end
  end.
Definition sh_run (s : shared) (tr : trace) : shared := fold_left sh_step tr s.

Record own := mk_own { ow_val : bool -> Z; ow_old : bool -> list Z }.
Definition ow_step (s : own) (te : bool * event) : own :=
  let (t, e) := te in
  match e with
  | Enter w => mk_own (put (ow_val s) t w) (put (ow_old s) t (ow_val s t :: ow_old s t))
  | Exit => match ow_old s t with
            | [] => s
            | o :: r => mk_own (put (ow_val s) t o) (put (ow_old s) t r)
            end
  end.
Definition ow_run (s : own) (tr : trace) : own := fold_left ow_step tr s.
