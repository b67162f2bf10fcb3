(** What it is for two elements to be the same. *)

From Coq Require Import Ascii String NArith ZArith QArith Bool List.
From Verif Require Import PyStr PyNum Types Cards ConstraintsSpec Equality.
Import ListNotations.
Open Scope list_scope.

(** Written the same way. *)
Definition same_text (a b : elem) : Prop := text_of a = text_of b.

(** Two Reals of the same value: equal numbers, equal infinities, or
    shorthands written the same way. *)
Definition same_value (x y : realv) : Prop :=
  match x, y with
  | RVal (Fin n c e), RVal (Fin n' c' e') => (dec_Q n c e == dec_Q n' c' e')%Q
  | RVal (Inf n), RVal (Inf n') => n = n'
  | RHor g, RHor h => horiz_to_mcnp g = horiz_to_mcnp h
  | _, _ => False
  end.
Definition a_number (x : realv) : Prop := match x with RVal (NaN _ _ _) => False | _ => True end.

(** Elements of the same class that can be compared. *)
Definition comparable (a b : elem) : Prop :=
  match a, b with
  | EInt _, EInt _ | EString _, EString _ | EPlain _, EPlain _ => True
  | EReal x, EReal y => a_number x /\ a_number y
  | _, _ => False
  end.
