(** What the cells of a problem are as point sets. *)

From Coq Require Import Ascii String Bool List.
From Verif Require Import PyStr Geometry GeometrySpec Visualize.
Import ListNotations.

Section Sets.
  Variable P : Type.
  (** Positive sides of the surfaces, by number. *)
  Variable surf : str -> P -> Prop.

  (** The last entry of a number. *)
  Definition last_of {A : Type} (l : list (str * A)) (n : str) (x : A) : Prop :=
    exists b a, l = b ++ (n, x) :: a /\ ~ In n (map fst a).

  (** [sets l before out]: the cells listed in [l], after those in [before], are the
      point sets [out].  A cell is the set of its geometry; a cell like another is the
      same set as the last cell of that number.  Numbers after [#] name earlier cells. *)
  Inductive sets : list entry -> list (str * (P -> Prop)) -> list (str * (P -> Prop)) -> Prop :=
  | sets_nil before : sets [] before []
  | sets_other l before out : sets l before out -> sets (EOther :: l) before out
  | sets_cell n g l before out (D : P -> Prop) :
      (forall p, D p <-> denote surf (fun m q => exists C, last_of before m C /\ C q) g p) ->
      sets l (before ++ [(n, D)]) out -> sets (ECell n g :: l) before ((n, D) :: out)
  | sets_like n m l before out C :
      last_of before m C ->
      sets l (before ++ [(n, C)]) out -> sets (ELike n m :: l) before ((n, C) :: out).

  (** Every surface named is there, no [#n], and a cell is like an earlier one. *)
  Fixpoint drawable (surfaces : list str) (l : list entry) (before : list str) : Prop :=
    match l with
    | [] => True
    | EOther :: l' => drawable surfaces l' before
    | ECell n g :: l' => no_cell g = true /\ Forall (fun s => In s surfaces) (names g) /\ drawable surfaces l' (n :: before)
    | ELike n m :: l' => In m before /\ drawable surfaces l' (n :: before)
    end.

  (** The point set of a drawn cell, and of the last surface of a number. *)
  Definition set_of (x : str * (P -> bool)) : str * (P -> Prop) := (fst x, fun p => snd x p = true).
  Definition surf_of (surfaces : list (str * (P -> bool))) (s : str) (p : P) : Prop := exists f, last_of surfaces s f /\ f p = true.
End Sets.
