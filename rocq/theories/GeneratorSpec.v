(** Vocabulary for the properties of lazy sequences. *)

From Coq Require Import Ascii String Bool Arith List.
From Verif Require Import PyStr Generator.
Import ListNotations.
Open Scope list_scope.

Section Spec.
  Variable A : Type.
  (** What the i-th iterator has given, in order. *)
  Definition given (i : nat) (tr : list (event A)) : list (out A) :=
    flat_map (fun e => match e with ENext j o => if Nat.eqb i j then [o] else [] | _ => [] end) tr.
  (** The texts, in order. *)
  Definition texts_of (tr : list (event A)) : list (result str) :=
    flat_map (fun e => match e with EText r => [r] | _ => [] end) tr.
  (** The first n answers of an iterator over [vs] that goes on to [last] and then
      stays at its end. *)
  Definition answers (vs : list A) (last : list (out A)) (n : nat) : list (out A) :=
    firstn n (map Yield vs ++ last ++ repeat Stop n).
  (** How often the reader's exception came out, through any iterator or text. *)
  Definition is_ok {B} (r : result B) : bool := match r with Ok _ => true | _ => false end.
  Definition failure {B C} (r : result B) : result C :=
    match r with Lib e => Lib e | Py e => Py e | Ok _ => Py RuntimeErr end.
  Definition raised (e : event A) : bool :=
    match e with ENext _ (Raise _) => true | EText r => negb (is_ok r) | _ => false end.
  Definition raises (tr : list (event A)) : nat := length (filter raised tr).
End Spec.
Arguments given {A}. Arguments texts_of {A}. Arguments answers {A}. Arguments raises {A}. Arguments raised {A}.
