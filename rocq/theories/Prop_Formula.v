(** Properties C48, C61 and C62: the isotope table and materials made from formulas. *)

From Coq Require Import Ascii String NArith ZArith QArith Bool List.
From Verif Require Import PyStr PyNum Types Elements Formula FormulaSpec FormulaFacts.
Import ListNotations.
Open Scope list_scope.

(** * C48: the table is consistent, and formulas do not fail because of it *)

(** Symbols are keys; each element has a possible atomic number; each isotope a mass
    within one half of its mass number; each natural isotope a mass and a fraction in
    (0, 1]; and the fractions of an element found in nature add up to exactly 1. *)
Theorem C48_table : NoDup (map fst ELEMENTS) /\ forall s e, In (s, e) ELEMENTS ->
  (1 <= e_z e <= 999)%Z /\
  (forall a m, In (a, m) (e_mass e) -> (1 <= a <= 999)%Z /\ (inject_Z a - (1 # 2) <= m <= inject_Z a + (1 # 2))%Q) /\
  (forall a q, In (a, q) (e_fraction e) -> (exists m, In (a, m) (e_mass e)) /\ (0 < q <= 1)%Q) /\
  NoDup (map fst (e_mass e)) /\ NoDup (map fst (e_fraction e)) /\
  (e_fraction e = [] \/ (qsum (map snd (e_fraction e)) == 1)%Q).
Proof. exact (conj symbols_once table). Qed.
(** [Zaid] accepts every isotope. *)
Theorem C48_zaids : forall s z a q, isotope s z a q -> exists x, mk_zaid z a None = Ok x /\ Z.of_N (zz x) = z /\ Z.of_N (za x) = a.
Proof. exact isotope_zaid. Qed.
(** If the table has all the elements, a material is made.  It holds a nuclide
    exactly for every natural isotope of every element whose amount is above the cutoff. *)
Theorem C48_from_formula_partial : forall n fs w c, well_given fs -> (n < 100000000)%Z ->
  exists m, from_formula n fs w c = ((n + 1)%Z, Ok m) /\ m_suffix m = n /\
    (forall x r, In (x, r) (m_substances m) -> zabx x = None /\
       exists amount, contributes w fs (Z.of_N (zz x)) (Z.of_N (za x)) amount /\ (c < amount)%Q /\ (r == signed w amount)%Q) /\
    (forall z a amount, contributes w fs z a amount -> (c < amount)%Q ->
       exists x r, In (x, r) (m_substances m) /\ Z.of_N (zz x) = z /\ Z.of_N (za x) = a /\ zabx x = None /\ (r == signed w amount)%Q).
Proof. exact formula_contents. Qed.

Example C48_nontrivial : well_given [water] /\ consistent water /\
  map (fun x => zaid_to_mcnp (fst x)) (match snd (from_formula 7 [water] true 0.01) with Ok m => m_substances m | _ => [] end) = [L "001001"; L "008016"].
Proof. split; [exact water_given|]. split; [exact water_consistent|]. vm_compute. reflexivity. Qed.

(** A symbol the table has not, such as the one [molmass] uses for deuterium, is a KeyError. *)
Theorem C48_refuted : (forall n fs w c, (forall f, In f fs -> ~ (f_mass f == 0)%Q) ->
    (exists f p, In f fs /\ In p (f_parts f) /\ ~ known (p_symbol p)) -> from_formula n fs w c = (n, Py KeyError)) /\
  ~ known (L "2H") /\ ~ known (L "D") /\ ~ known (L "e-").
Proof. exact (conj unknown_raises unknown_symbols). Qed.

(** * C61: nothing is lost or added *)

(** With natural elements only and every amount above the cutoff. *)
Theorem C61_total_partial : forall n fs w c m n', well_given fs ->
  (forall f p, In f fs -> In p (f_parts f) -> natural (p_symbol p)) ->
  (forall z a amount, contributes w fs z a amount -> (c < amount)%Q) ->
  from_formula n fs w c = (n', Ok m) -> (held m == signed w (asked w fs))%Q.
Proof. exact formula_total. Qed.
(** Nothing is ever added. *)
Theorem C61_bounded_partial : forall n fs w c m n', well_given fs ->
  (forall f p, In f fs -> In p (f_parts f) -> (0 <= f_mixture f * share w f p)%Q) ->
  from_formula n fs w c = (n', Ok m) -> (0 <= signed w (held m) <= asked w fs)%Q.
Proof. exact formula_bounded. Qed.
Example C61_nontrivial : natural (L "H") /\ natural (L "O") /\ (asked true [water] == 1)%Q /\
  exists m, from_formula 1 [water] true 0 = (2%Z, Ok m) /\ length (m_substances m) = 5%nat /\ (held m == -(1))%Q.
Proof.
  split; [|split; [|split]].
  - exists 1%Z, 1%Z, (0.999885)%Q, el_H. split; [left; reflexivity|]. split; [reflexivity | left; reflexivity].
  - exists 8%Z, 16%Z, (0.99757)%Q, el_O. split; [do 7 right; left; reflexivity|]. split; [reflexivity | left; reflexivity].
  - vm_compute. reflexivity.
  - eexists. split; [vm_compute; reflexivity|]. split; vm_compute; reflexivity.
Qed.
(** An element with no natural isotope is left out without a word, whatever the cutoff;
    the default cutoff loses a part of the water. *)
Theorem C61_refuted :
  (forall n f p w c, (n < 100000000)%Z -> ~ (f_mass f == 0)%Q -> f_parts f = [p] -> known (p_symbol p) -> ~ natural (p_symbol p) ->
     from_formula n [f] w c = ((n + 1)%Z, Ok {| m_suffix := n; m_substances := [] |})) /\
  (known (L "Pu") /\ ~ natural (L "Pu")) /\
  exists m, from_formula 1 [water] true 0.01 = (2%Z, Ok m) /\ ~ (held m == -(1))%Q.
Proof. split; [exact unnatural_lost|]. split; [exact plutonium|]. eexists. split; [vm_compute; reflexivity|]. vm_compute. discriminate. Qed.

(** * C62: the numbers are the fractions asked for *)

(** Atom fractions, for formulas of one element. *)
Theorem C62_atoms_partial : forall n fs c m n', well_given fs -> (forall f, In f fs -> consistent f) ->
  (forall f, In f fs -> exists p, f_parts f = [p] /\ ~ (p_count p == 0)%Q) ->
  from_formula n fs false c = (n', Ok m) ->
  forall x r, In (x, r) (m_substances m) -> exists f p q, In f fs /\ In p (f_parts f) /\
    isotope (p_symbol p) (Z.of_N (zz x)) (Z.of_N (za x)) q /\ (r == f_mixture f * atom_share f p * q)%Q.
Proof. exact one_element. Qed.
Example C62_nontrivial : well_given [lithium] /\ consistent lithium /\
  exists m, from_formula 1 [lithium] false 0 = (2%Z, Ok m) /\ map snd (m_substances m) <> [].
Proof.
  split; [|split].
  - intros f p [<-|[]] [<-|[]]. split; [exists el_Li; right; right; left; reflexivity | vm_compute; discriminate].
  - split; [reflexivity|]. split; [vm_compute; reflexivity|]. intros p [<-|[]]. vm_compute. reflexivity.
  - eexists. split; [vm_compute; reflexivity|]. discriminate.
Qed.
(** The two modes give the same nuclides and the same numbers, up to the sign: what
    is written as an atom fraction is a weight fraction. *)
Theorem C62_modes : forall n fs c m n' m' k, well_given fs -> (forall f, In f fs -> consistent f) ->
  from_formula n fs true c = (n', Ok m) -> from_formula n fs false c = (k, Ok m') ->
  Forall2 (fun x y => fst x = fst y /\ (snd y == - snd x)%Q) (m_substances m) (m_substances m').
Proof. exact modes_agree. Qed.
(** So hydrogen is a ninth of the atoms of water, not two thirds of them; and lithium
    6, 7.59 percent of the atoms of lithium, is the same part of its weight. *)
Theorem C62_refuted :
  (exists m x r, from_formula 1 [water] false 0.01 = (2%Z, Ok m) /\ In (x, r) (m_substances m) /\ zz x = 1%N /\
     (atom_share water hydrogen == 2 # 3)%Q /\ (r < 1 # 8)%Q) /\
  (exists m x r, from_formula 1 [lithium] true 0 = (2%Z, Ok m) /\ In (x, r) (m_substances m) /\ zz x = 3%N /\ za x = 6%N /\
     ~ isotope_weight el_Li 6 0.0759 (- r)).
Proof. exact (conj atoms_wrong weights_wrong). Qed.

Print Assumptions C48_table.
Print Assumptions C48_zaids.
Print Assumptions C48_from_formula_partial.
Print Assumptions C48_refuted.
Print Assumptions C61_total_partial.
Print Assumptions C61_bounded_partial.
Print Assumptions C61_refuted.
Print Assumptions C62_atoms_partial.
Print Assumptions C62_modes.
Print Assumptions C62_refuted.
