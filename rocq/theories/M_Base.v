(** * Python strings, exceptions, generators, dictionaries

    Conventions shared by all model files.

    - A Python [str] is the list of its code points ([list N]).
    - A Python exception is a value: [Err e] where [e] names the class that is
      raised (messages are not modelled).
    - A generator is the list of items it yields together with the exception
      that ends it, if any ([gen]): a consumer that stops early never sees the
      exception, exactly as in Python.
    - A [dict] is an association list in insertion order. *)
From Coq Require Import Ascii String.
From Coq Require Export NArith ZArith List Bool.
Export ListNotations StringSyntax.
Open Scope list_scope.
Open Scope N_scope.

Notation char := N (only parsing).
Notation str := (list N) (only parsing).

(** ASCII literals, e.g. [py "BEGIN"]. *)
Definition py (x : string) : str := map N_of_ascii (list_ascii_of_string x).

Inductive exn :=
  | ValueError        (* builtin ValueError *)
  | ParseError        (* ics.contentline.ParseError (container.py:45-71) *)
  | IndexError | KeyError | TypeError | AttributeError | AssertionError
  | OverflowError
  | OutOfFuel.        (* never a Python exception: marks exhausted model fuel;
                         theorems show it is never returned *)

Inductive res (A : Type) :=
  | Ok (a : A)
  | Err (e : exn).
Arguments Ok {A} a.
Arguments Err {A} e.

Definition bind {A B} (r : res A) (f : A -> res B) : res B :=
  match r with Ok a => f a | Err e => Err e end.
Notation "'do' x <- r ; k" := (bind r (fun x => k))
  (at level 200, x pattern, r at level 100, k at level 200).

Definition rmap {A B} (f : A -> B) (r : res A) : res B :=
  match r with Ok a => Ok (f a) | Err e => Err e end.

Definition is_ok {A} (r : res A) : bool :=
  match r with Ok _ => true | Err _ => false end.

(** Generators. *)
Definition gen (A : Type) := (list A * option exn)%type.
Definition gcons {A} (a : A) (g : gen A) : gen A := (a :: fst g, snd g).
Definition gnil {A} : gen A := ([], None).
Definition gfail {A} (e : exn) : gen A := ([], Some e).
(** [list(generator)] *)
Definition glist {A} (g : gen A) : res (list A) :=
  match snd g with None => Ok (fst g) | Some e => Err e end.

(** Code points used by the library. *)
Definition c_tab : char := 9.
Definition c_lf : char := 10.
Definition c_cr : char := 13.
Definition c_space : char := 32.
Definition c_dquote : char := 34.
Definition c_squote : char := 39.
Definition c_plus : char := 43.
Definition c_comma : char := 44.
Definition c_dash : char := 45.
Definition c_slash : char := 47.
Definition c_colon : char := 58.
Definition c_semi : char := 59.
Definition c_eq : char := 61.
Definition c_N : char := 78.
Definition c_R : char := 82.
Definition c_bslash : char := 92.
Definition c_caret : char := 94.
Definition c_n : char := 110.
Definition c_r : char := 114.

Definition mem (c : char) (l : list char) : bool := existsb (N.eqb c) l.

Fixpoint str_eqb (a b : str) : bool :=
  match a, b with
  | [], [] => true
  | x :: a', y :: b' => (x =? y) && str_eqb a' b'
  | _, _ => false
  end.

(** [str.upper], for ASCII letters; other code points are left alone
    (simplification: Python also maps non-ASCII letters). *)
Definition upper_char (c : char) : char :=
  if (97 <=? c) && (c <=? 122) then c - 32 else c.
Definition upper (s : str) : str := map upper_char s.

(** [str.split(sep)] for a one-character separator; never empty. *)
Fixpoint split_on (sep : char) (s : str) : list str :=
  match s with
  | [] => [[]]
  | c :: s' =>
      if c =? sep then [] :: split_on sep s'
      else match split_on sep s' with
           | [] => [[c]]            (* unreachable: split_on is never empty *)
           | w :: ws => (c :: w) :: ws
           end
  end.

(** [sep.join(l)] *)
Fixpoint join (sep : str) (l : list str) : str :=
  match l with
  | [] => []
  | [x] => x
  | x :: l' => x ++ sep ++ join sep l'
  end.

(** [str.translate] with a table given as a function. *)
Definition translate (f : char -> str) (s : str) : str := flat_map f s.

(** [str.index(c, start)] / [str.find(c, start)] as an option. *)
Fixpoint find_char (c : char) (s : str) : option nat :=
  match s with
  | [] => None
  | x :: s' => if x =? c then Some 0%nat
               else match find_char c s' with Some n => Some (S n) | None => None end
  end.
Definition index_from (c : char) (s : str) (start : nat) : option nat :=
  match find_char c (skipn start s) with
  | Some n => Some (start + n)%nat
  | None => None
  end.
(** [str.find(c, start, stop)] *)
Definition index_between (c : char) (s : str) (start stop : nat) : option nat :=
  match find_char c (skipn start (firstn stop s)) with
  | Some n => Some (start + n)%nat
  | None => None
  end.
(** [s[a:b]] for [0 <= a], [0 <= b]. *)
Definition slice (s : str) (a b : nat) : str := skipn a (firstn b s).

(** Dictionaries with string keys: insertion order is kept, assigning to an
    existing key keeps its position. *)
Definition dict (V : Type) := list (str * V).
Fixpoint dict_get {V} (k : str) (d : dict V) : option V :=
  match d with
  | [] => None
  | (k', v) :: d' => if str_eqb k k' then Some v else dict_get k d'
  end.
Fixpoint dict_set {V} (k : str) (v : V) (d : dict V) : dict V :=
  match d with
  | [] => [(k, v)]
  | (k', v') :: d' => if str_eqb k k' then (k', v) :: d' else (k', v') :: dict_set k v d'
  end.
Fixpoint dict_del {V} (k : str) (d : dict V) : dict V :=
  match d with
  | [] => []
  | (k', v') :: d' => if str_eqb k k' then d' else (k', v') :: dict_del k d'
  end.
Definition dict_mem {V} (k : str) (d : dict V) : bool :=
  match dict_get k d with Some _ => true | None => false end.
(** [d.update(e)] *)
Definition dict_update {V} (d e : dict V) : dict V :=
  fold_left (fun acc kv => dict_set (fst kv) (snd kv) acc) e d.
Definition keys {V} (d : dict V) : list str := map fst d.

(** Decimal printing ([str(n)] / ["%d" % n] for [n >= 0]) and reading. *)
Fixpoint dec_aux (fuel : nat) (n : N) (acc : str) : str :=
  match fuel with
  | O => acc
  | S f => let acc' := (48 + n mod 10) :: acc in
           if n / 10 =? 0 then acc' else dec_aux f (n / 10) acc'
  end.
Definition dec (n : N) : str := dec_aux (S (N.to_nat (N.size n))) n [].

Definition is_digit (c : char) : bool := (48 <=? c) && (c <=? 57).
Definition undec (s : str) : N := fold_left (fun a c => a * 10 + (c - 48)) s 0.

(** Zero padding: ["%0kd" % n] for [n >= 0]. *)
Definition pad (k : nat) (n : N) : str :=
  let d := dec n in repeat 48 (k - length d) ++ d.
