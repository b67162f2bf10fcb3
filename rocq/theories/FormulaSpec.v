(** Vocabulary for the properties of the isotope table and of materials made from formulas. *)

From Coq Require Import Ascii String NArith ZArith QArith Bool List.
From Verif Require Import PyStr PyNum Types Elements Formula.
Import ListNotations.
Open Scope list_scope.

Definition qsum (l : list Q) : Q := fold_right Qplus 0%Q l.

(** * The table *)

(** The table has the symbol. *)
Definition known (sym : str) : Prop := exists e, In (sym, e) ELEMENTS.
(** Under the symbol, the table lists a natural isotope of atomic number [z], mass
    number [a] and abundance [q]. *)
Definition isotope (sym : str) (z a : Z) (q : Q) : Prop :=
  exists e, In (sym, e) ELEMENTS /\ e_z e = z /\ In (a, q) (e_fraction e).
(** The element occurs in nature. *)
Definition natural (sym : str) : Prop := exists z a q, isotope sym z a q.

(** * Formulas *)

(** Every element is in the table, and a formula weighs something. *)
Definition well_given (fs : list formula) : Prop :=
  forall f p, In f fs -> In p (f_parts f) -> known (p_symbol p) /\ ~ (f_mass f == 0)%Q.
(** What the composition of a formula says: masses add up to the formula's, and
    the fraction is the part of the mass. *)
Definition consistent (f : formula) : Prop :=
  (0 < f_mass f)%Q /\ (f_mass f == qsum (map p_mass (f_parts f)))%Q /\
  forall p, In p (f_parts f) -> (p_fraction p == p_mass p / f_mass f)%Q.
(** The part of the formula an element is given. *)
Definition share (is_weight : bool) (f : formula) (p : part) : Q :=
  if is_weight then p_fraction p else (p_mass p / f_mass f)%Q.
(** Some element of some formula has the natural isotope, in the amount [x]. *)
Inductive contributes (is_weight : bool) (fs : list formula) (z a : Z) (x : Q) : Prop :=
| contributes_part f p q :
    In f fs -> In p (f_parts f) -> isotope (p_symbol p) z a q ->
    (x == f_mixture f * share is_weight f p * q)%Q -> contributes is_weight fs z a x.
(** Weight fractions are written as negative numbers. *)
Definition signed (is_weight : bool) (x : Q) : Q := if is_weight then (- x)%Q else x.
(** What was asked for, summed over all elements of all formulas. *)
Definition asked (is_weight : bool) (fs : list formula) : Q :=
  qsum (flat_map (fun f => map (fun p => f_mixture f * share is_weight f p)%Q (f_parts f)) fs).
(** What the material holds. *)
Definition held (m : material) : Q := qsum (map snd (m_substances m)).

(** The part of the atoms of a formula that are of one element. *)
Definition atom_share (f : formula) (p : part) : Q := (p_count p / qsum (map p_count (f_parts f)))%Q.
(** The part of the mass of an element, found in nature, that one isotope has. *)
Definition isotope_weight (e : element) (a : Z) (q : Q) (r : Q) : Prop :=
  exists m l, In (a, m) (e_mass e) /\
    Forall2 (fun i x => exists m', In (fst i, m') (e_mass e) /\ (x == snd i * m')%Q) (e_fraction e) l /\
    (r * qsum l == q * m)%Q.

(** * Two formulas for the examples *)

Open Scope Q_scope.
(** Water, with the composition [molmass] gives for it. *)
Definition hydrogen : part := {| p_symbol := L "H"; p_count := 2; p_mass := 2.01588; p_fraction := 2.01588 / 18.01528 |}.
Definition oxygen : part := {| p_symbol := L "O"; p_count := 1; p_mass := 15.9994; p_fraction := 15.9994 / 18.01528 |}.
Definition water : formula := {| f_mixture := 1; f_mass := 18.01528; f_parts := [hydrogen; oxygen] |}.
(** The metal lithium. *)
Definition lithium : formula := {| f_mixture := 1; f_mass := 6.941; f_parts := [{| p_symbol := L "Li"; p_count := 1; p_mass := 6.941; p_fraction := 1 |}] |}.
