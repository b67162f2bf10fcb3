(** C46, C53: equality of elements. *)

From Coq Require Import Ascii String NArith ZArith QArith Bool Arith List.
From Verif Require Import PyStr PyNum Types Cards ConstraintsSpec Equality EqualitySpec EqualityFacts.
Import ListNotations.
Open Scope list_scope.

(** ** C46 *)

(** Integers, strings, and elements of the classes without a comparison of
    their own are equal exactly when they are written the same way. *)
Theorem C46_integers : forall same_object i j,
  exists r, py_eq same_object (EInt i) (EInt j) = Ok r /\ (r = true <-> same_text (EInt i) (EInt j)).
Proof. exact eq_integers. Qed.
Print Assumptions C46_integers.
Theorem C46_strings : forall same_object a b,
  exists r, py_eq same_object (EString a) (EString b) = Ok r /\ (r = true <-> same_text (EString a) (EString b)).
Proof. exact eq_strings. Qed.
Print Assumptions C46_strings.
Theorem C46_other_elements : forall same_object a b,
  exists r, py_eq same_object (EPlain a) (EPlain b) = Ok r /\ (r = true <-> same_text (EPlain a) (EPlain b)).
Proof. exact eq_plain. Qed.
Print Assumptions C46_other_elements.
(** Reals are equal when they have the same value, whatever their spelling. *)
Theorem C46_reals_partial : forall same_object x y, a_number x -> a_number y ->
  exists r, py_eq same_object (EReal x) (EReal y) = Ok r /\ (r = true <-> same_value x y).
Proof. exact eq_reals. Qed.
Print Assumptions C46_reals_partial.

(** Within a class equality is reflexive, symmetric and transitive. *)
Theorem C46_equivalence_partial : forall same_object,
  (forall a, comparable a a -> py_eq same_object a a = Ok true) /\
  (forall a b, comparable a b -> py_eq same_object a b = py_eq same_object b a) /\
  (forall a b c, comparable a b -> comparable b c ->
     py_eq same_object a b = Ok true -> py_eq same_object b c = Ok true -> py_eq same_object a c = Ok true).
Proof. intros s. exact (conj (eq_refl_ s) (conj (eq_sym_ s) (eq_trans_ s))). Qed.
Print Assumptions C46_equivalence_partial.
Example C46_case : comparable (EReal (RVal (Fin false 15 (-1)))) (EReal (RVal (Fin false 150 (-2)))) /\
  py_eq false (EReal (RVal (Fin false 15 (-1)))) (EReal (RVal (Fin false 150 (-2)))) = Ok true.
Proof. split; [cbn; auto|reflexivity]. Qed.

(** 1.5 and 1.50 are equal and written differently. *)
Theorem C46_real_text_refuted : exists a b, py_eq false a b = Ok true /\ ~ same_text a b.
Proof. exists (EReal (RVal (Fin false 15 (-1)))), (EReal (RVal (Fin false 150 (-2)))). split; [reflexivity|discriminate]. Qed.
Print Assumptions C46_real_text_refuted.
(** The Real read from "nan" differs from itself; the one from "snan" cannot be
    compared at all. *)
Theorem C46_reflexive_refuted : exists d d', real_from_mcnp (L "nan") = Ok d /\ py_eq true (EReal d) (EReal d) = Ok false /\
  real_from_mcnp (L "snan") = Ok d' /\ py_eq true (EReal d') (EReal d') = Py InvalidOperation.
Proof. exists (RVal (NaN false false [])), (RVal (NaN false true [])). vm_compute. auto. Qed.
Print Assumptions C46_reflexive_refuted.
(** A sequence holding 5 equals the Integer 5, which does not equal it. *)
Theorem C46_symmetric_refuted : exists a b, py_eq false a b = Ok true /\ py_eq false b a = Ok false.
Proof. exists (EPlain (L "5")), (EInt (IVal 5)). split; reflexivity. Qed.
Print Assumptions C46_symmetric_refuted.
(** A sequence holding 1.5 equals the Real 1.5, which equals 1.50, which the
    sequence does not equal. *)
Theorem C46_transitive_refuted : exists a b c, py_eq false a b = Ok true /\ py_eq false b c = Ok true /\ py_eq false a c = Ok false.
Proof. exists (EPlain (L "1.5")), (EReal (RVal (Fin false 15 (-1)))), (EReal (RVal (Fin false 150 (-2)))). repeat split; reflexivity. Qed.
Print Assumptions C46_transitive_refuted.
(** Comparing a sequence with the shorthand 2j raises. *)
Theorem C46_total_refuted : exists a b, is_py (py_eq false a b) = true.
Proof. exists (EPlain (L "2j")), (EInt (IHor (HJump (Some 2%N)))). reflexivity. Qed.
Print Assumptions C46_total_refuted.

(** ** C53 *)

(** Within a class [!=] is the opposite of [==]. *)
Theorem C53_opposite_partial : forall same_object a b, comparable a b ->
  exists r, py_eq same_object a b = Ok r /\ py_ne same_object a b = Ok (negb r).
Proof. exact ne_opposite. Qed.
Print Assumptions C53_opposite_partial.
(** The Integer 5 and the Real 5 are neither equal nor unequal. *)
Theorem C53_opposite_refuted : exists a b, py_eq false a b = Ok false /\ py_ne false a b = Ok false.
Proof. exists (EInt (IVal 5)), (EReal (RVal (Fin false 5 0))). split; reflexivity. Qed.
Print Assumptions C53_opposite_refuted.
