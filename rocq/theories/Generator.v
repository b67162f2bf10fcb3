(** Lazy sequences (/repo/src/pymcnp/types/Generator.py) and the iterators over them. *)

From Coq Require Import Ascii String NArith ZArith Bool Arith List.
From Verif Require Import PyStr Regex RegexParse Types.
Import ListNotations.
Open Scope list_scope.

Section Gen.
  Variable A : Type.
  Variable to : A -> str.                   (* element.to_mcnp *)

  (** A [_Generator] and the iterators over it. [src] is what the generator
      expression of Generator.py:63 has still to give, [buf] what [itertools.tee]
      has kept, [its] the position of each iterator that [__iter__] has returned.
      [self.value] always stands at position 0: [__iter__] (Generator.py:76-79) keeps
      one copy of the tee object and hands out the other. Advancing [self.value]
      directly is not modelled. *)
  Record gen := { src : list (result A); buf : list A; its : list nat }.

  (** What [next()] does: a value, the end, or an exception. *)
  Inductive out := Yield (a : A) | Stop | Raise (e : result unit).

  (** One step of an iterator at position p. A generator expression that raised is
      finished, and [tee] does not keep the exception. *)
  Definition pull (g : gen) (p : nat) : gen * out :=
    match nth_error (buf g) p with
    | Some a => (g, Yield a)
    | None =>
        match src g with
        | [] => (g, Stop)
        | Ok a :: t => ({| src := t; buf := buf g ++ [a]; its := its g |}, Yield a)
        | Lib e :: _ => ({| src := []; buf := buf g; its := its g |}, Raise (Lib e))
        | Py e :: _ => ({| src := []; buf := buf g; its := its g |}, Raise (Py e))
        end
    end.
  Fixpoint set_nth (l : list nat) (i x : nat) : list nat :=
    match l, i with
    | [], _ => []
    | _ :: t, O => x :: t
    | y :: t, S j => y :: set_nth t j x
    end.

  (** [__iter__] (Generator.py:76-79). *)
  Definition new_iter (g : gen) : gen := {| src := src g; buf := buf g; its := its g ++ [0] |}.
  (** [next] of the i-th iterator. *)
  Definition next (g : gen) (i : nat) : gen * option out :=
    match nth_error (its g) i with
    | None => (g, None)
    | Some p =>
        match pull g p with
        | (g', Yield a) => ({| src := src g'; buf := buf g'; its := set_nth (its g') i (S p) |}, Some (Yield a))
        | (g', o) => (g', Some o)
        end
    end.
  (** [for val in self.__iter__()] with its own iterator. *)
  Fixpoint drain (fuel : nat) (g : gen) (p : nat) : gen * result (list A) :=
    match fuel with
    | O => (g, Py RuntimeErr)
    | S f =>
        match pull g p with
        | (g', Yield a) => let (g'', r) := drain f g' (S p) in (g'', bind r (fun l => Ok (a :: l)))
        | (g', Stop) => (g', Ok [])
        | (g', Raise (Lib e)) => (g', Lib e)
        | (g', Raise (Py e)) => (g', Py e)
        | (g', Raise (Ok _)) => (g', Py RuntimeErr)
        end
    end.
  (** [to_mcnp] (Generator.py:66-74). *)
  Definition gen_to_mcnp (g : gen) : gen * result str :=
    let (g', r) := drain (length (buf g) + length (src g) + 1) g 0 in (g', bind r (fun l => Ok (join [sp] (map to l)))).

  (** A program over one lazy sequence. *)
  Inductive op := Iter | Next (i : nat) | Text.
  Inductive event := ENew | ENext (i : nat) (o : out) | EText (r : result str) | ENone.
  Definition exec (s : gen * list event) (o : op) : gen * list event :=
    let (g, tr) := s in
    match o with
    | Iter => (new_iter g, tr ++ [ENew])
    | Next i => match next g i with (g', Some x) => (g', tr ++ [ENext i x]) | (g', None) => (g', tr ++ [ENone]) end
    | Text => let (g', r) := gen_to_mcnp g in (g', tr ++ [EText r])
    end.
  Definition run (g : gen) (ops : list op) : gen * list event := fold_left exec ops (g, []).

  (** [_Generator.__init__] (Generator.py:28-45) with a generator of these outcomes. *)
  Definition gen_new (l : list (result A)) : gen := {| src := l; buf := []; its := [] |}.
  (** [from_mcnp] (Generator.py:47-64) for an element with this pattern and reader. *)
  Definition gen_from_mcnp (pat : str) (from : str -> result A) (s : str) : gen :=
    gen_new (map (fun o => from (mtext o)) (finditer (compile true (slice 2 2 pat)) s)).
End Gen.
Arguments src {A}. Arguments buf {A}. Arguments its {A}.
Arguments Yield {A}. Arguments Stop {A}. Arguments Raise {A}.
Arguments pull {A}. Arguments next {A}. Arguments new_iter {A}. Arguments drain {A}. Arguments gen_to_mcnp {A}.
Arguments ENew {A}. Arguments ENext {A}. Arguments EText {A}. Arguments ENone {A}.
Arguments exec {A}. Arguments run {A}. Arguments gen_new {A}. Arguments gen_from_mcnp {A}.
