(** What walking a PTRAC file means, without the loops of the code. *)

From Coq Require Import Ascii String Bool List.
From Verif Require Import PyStr Types Ptrac Processors.
Import ListNotations.

(** The type announced for each event: by the I line for the first, by the
    event before it for the others. *)
Definition announced (h : history) : list str :=
  event_type (i_line h) :: map (fun e => next_type (j_line e)) (events h).

(** Which category a type belongs to. *)
Inductive in_category : str -> category -> Prop :=
| cat_source : in_category (L "1000") Source
| cat_surface : in_category (L "3000") Surface
| cat_collision : in_category (L "4000") Collision
| cat_terminal : in_category (L "5000") Terminal
| cat_bank t : ~ In t (map L ["1000"; "3000"; "4000"; "5000"]%string) -> in_category t Bank.

(** The events of a file in order, each with its category. *)
Inductive classified : list (str * event) -> list (category * event) -> Prop :=
| classified_nil : classified [] []
| classified_cons t c e l l' : in_category t c -> classified l l' ->
    classified ((t, e) :: l) ((c, e) :: l').
Definition typed_events (p : ptrac) : list (str * event) :=
  concat (map (fun h => combine (announced h) (events h)) (histories p)).

(** The hooks that only record the calls made. *)
Inductive call (A : Type) := Pre | Item (a : A) | Post.
Arguments Pre {A}.
Arguments Item {A} a.
Arguments Post {A}.
Definition record {A} (c : call A) : list (call A) -> result unit * list (call A) :=
  fun log => (Ok tt, log ++ [c]).
(** Hooks that record and fail at the calls in [bad]. *)
Definition record_or_raise {A} (bad : call A -> option pyerr) (c : call A)
  : list (call A) -> result unit * list (call A) :=
  fun log => (match bad c with Some x => Py x | None => Ok tt end, log ++ [c]).
Fixpoint upto {A} (stop : A -> bool) (l : list A) : list A :=
  match l with [] => [] | x :: t => if stop x then [x] else x :: upto stop t end.
