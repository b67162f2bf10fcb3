(** Model of the Python [str] operations used by PyMCNP.

    A Python string is a list of code points.  The model keeps the code points
    U+0000..U+00FF (Latin-1), one [ascii] each; text outside Latin-1 is not
    modelled.  Every definition below models a CPython builtin, cited by name;
    the lines of /repo that call it are given where it is used. *)

From Coq Require Import Ascii String NArith ZArith Bool Arith List.
Import ListNotations.
Open Scope list_scope.

(** A Python [str]. *)
Definition str := list ascii.

(** String literals: [L "abc"] is the Python literal ['abc']. *)
Definition L (x : string) : str := list_ascii_of_string x.

Definition code (c : ascii) : N := N_of_ascii c.
Definition chr (n : N) : ascii := ascii_of_N n.

Definition nl : ascii := chr 10.          (* '\n' *)
Definition sp : ascii := chr 32.          (* ' '  *)
Definition tab : ascii := chr 9.          (* '\t' *)

Definition ceqb (a b : ascii) : bool := Ascii.eqb a b.

Fixpoint seqb (a b : str) : bool :=
  match a, b with
  | [], [] => true
  | x :: a', y :: b' => ceqb x y && seqb a' b'
  | _, _ => false
  end.

(** [str.isspace] on one Latin-1 character; also the class [\s] of [re] on
    [str] patterns. *)
Definition is_space (c : ascii) : bool :=
  let n := code c in
  ((9 <=? n) && (n <=? 13) || (28 <=? n) && (n <=? 32) || (n =? 133) || (n =? 160))%N.

(** Decimal digits: the class [\d] of [re] restricted to Latin-1. *)
Definition is_digit (c : ascii) : bool :=
  let n := code c in ((48 <=? n) && (n <=? 57))%N.

(** [str.lower]/[str.upper] on ASCII letters (Latin-1 letters above U+007F are
    left alone: no pattern or keyword of the library contains one). *)
Definition lower (c : ascii) : ascii :=
  let n := code c in
  if ((65 <=? n) && (n <=? 90))%N then chr (n + 32) else c.
Definition upper (c : ascii) : ascii :=
  let n := code c in
  if ((97 <=? n) && (n <=? 122))%N then chr (n - 32) else c.
Definition slower (s : str) : str := map lower s.

(** [str.lstrip()], [str.rstrip()], [str.strip()]. *)
Fixpoint lstrip (s : str) : str :=
  match s with
  | c :: t => if is_space c then lstrip t else s
  | [] => []
  end.
Definition rstrip (s : str) : str := rev (lstrip (rev s)).
Definition strip (s : str) : str := rstrip (lstrip s).

(** [s.split(c)] for a one-character separator [c] (always at least one piece). *)
Fixpoint split_on (c : ascii) (s : str) : list str :=
  match s with
  | [] => [[]]
  | x :: t =>
      if ceqb x c then [] :: split_on c t
      else match split_on c t with
           | w :: ws => (x :: w) :: ws
           | [] => [[x]]
           end
  end.

(** [s.split(c, maxsplit=1)]: the part before the first [c] and, when [c]
    occurs, the part after it. *)
Fixpoint split1 (c : ascii) (s : str) : str * option str :=
  match s with
  | [] => ([], None)
  | x :: t =>
      if ceqb x c then ([], Some t)
      else let '(a, b) := split1 c t in (x :: a, b)
  end.

(** [s.split()]: maximal runs of non-whitespace characters. *)
Fixpoint words_aux (s : str) (cur : str) : list str :=
  match s with
  | [] => match cur with [] => [] | _ => [rev cur] end
  | c :: t =>
      if is_space c
      then match cur with [] => words_aux t [] | _ => rev cur :: words_aux t [] end
      else words_aux t (c :: cur)
  end.
Definition words (s : str) : list str := words_aux s [].

(** [sep.join(ws)]. *)
Fixpoint join (sep : str) (ws : list str) : str :=
  match ws with
  | [] => []
  | [w] => w
  | w :: ws' => w ++ sep ++ join sep ws'
  end.

(** [n * s]. *)
Fixpoint srepeat (n : nat) (s : str) : str :=
  match n with O => [] | S n' => s ++ srepeat n' s end.

(** [f'{s:>w}'] and [f'{s:<w}'] for a string [s]. *)
Definition rjust (w : nat) (s : str) : str := srepeat (w - length s) [sp] ++ s.
Definition ljust (w : nat) (s : str) : str := s ++ srepeat (w - length s) [sp].

(** [s.startswith(p)]. *)
Fixpoint starts_with (p s : str) : bool :=
  match p, s with
  | [], _ => true
  | x :: p', y :: s' => ceqb x y && starts_with p' s'
  | _, [] => false
  end.

(** Outcome of a call: a value, a library exception ([errors.Error] subclass:
    /repo/src/pymcnp/errors/_error.py) or any other Python exception. *)
Inductive liberr := TypesError | InpError | OutpError | PtracError | MeshtalError | CliError.
Inductive pyerr := IndexError | ValueError | TypeError | OverflowError | AssertionError
                 | KeyError | AttributeError | FileExistsError | StopIteration | RuntimeErr
                 | InvalidOperation | SyntaxErr | UnboundLocalError | ZeroDivisionError.
Inductive result (A : Type) : Type :=
| Ok (a : A)
| Lib (e : liberr)
| Py (e : pyerr).
Arguments Ok {A} a.
Arguments Lib {A} e.
Arguments Py {A} e.

Definition bind {A B} (r : result A) (f : A -> result B) : result B :=
  match r with Ok a => f a | Lib e => Lib e | Py e => Py e end.

Fixpoint mapM {A B} (f : A -> result B) (l : list A) : result (list B) :=
  match l with
  | [] => Ok []
  | x :: t => bind (f x) (fun y => bind (mapM f t) (fun ys => Ok (y :: ys)))
  end.

Definition is_ok {A} (r : result A) : bool := match r with Ok _ => true | _ => false end.
Definition is_lib {A} (r : result A) : bool := match r with Lib _ => true | _ => false end.
Definition is_py {A} (r : result A) : bool := match r with Py _ => true | _ => false end.
