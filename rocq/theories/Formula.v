(** Model of [M_0.from_formula] (inp/M_0.py:163-208).

    [molmass] is an external library: a formula arrives here as the mass and the
    composition [molmass] gives for it.  Fractions, masses and the cutoff are
    exact rationals where Python has floats, so a product is never rounded. *)

From Coq Require Import Ascii String NArith ZArith QArith Bool List.
From Verif Require Import PyStr PyNum Types Cards Geometry Numbered Elements.
Import ListNotations.
Open Scope list_scope.

(** One item of [molmass.Formula(formula).composition()] (M_0.py:181-183): the
    symbol, how many atoms, their mass and their part of the mass.  The code does
    not look at the count. *)
Record part := { p_symbol : str; p_count : Q; p_mass : Q; p_fraction : Q }.
(** One entry of [formulas], with [formula.mass] and its composition (M_0.py:178-181). *)
Record formula := { f_mixture : Q; f_mass : Q; f_parts : list part }.
(** The material made, with the attributes from_formula gives it (M_0.py:205). *)
Record material := { m_suffix : Z; m_substances : list (zaid * Q) }.

(** [_elements.ELEMENTS[element]] (M_0.py:187-190). *)
Definition find_element (s : str) : result element :=
  match find (fun x => seqb (fst x) s) ELEMENTS with
  | Some x => Ok (snd x)
  | None => Py KeyError
  end.
(** M_0.py:183 *)
Definition compound_fraction (is_weight : bool) (f : formula) (p : part) : result Q :=
  if is_weight then Ok (p_fraction p)
  else if Qeq_bool (f_mass f) 0 then Py ZeroDivisionError
  else Ok (p_mass p / f_mass f)%Q.
(** The list [zaids] (M_0.py:185-191). *)
Definition zaids (e : element) : result (list (zaid * Q)) :=
  mapM (fun i => bind (mk_zaid (e_z e) (fst i) None) (fun z => Ok (z, snd i))) (e_fraction e).
(** [x > cutoff] *)
Definition above (cutoff x : Q) : bool := negb (Qle_bool x cutoff).
(** The list [entries] (M_0.py:192-199). *)
Definition entries (is_weight : bool) (cutoff mixture compound : Q) (l : list (zaid * Q)) : list (zaid * Q) :=
  map (fun i => (fst i, (if is_weight then - (1) else 1) * mixture * compound * snd i)%Q)
    (filter (fun i => above cutoff (mixture * compound * snd i)%Q) l).
(** One element of one formula (M_0.py:182-201). *)
Definition part_entries (is_weight : bool) (cutoff : Q) (f : formula) (p : part) : result (list (zaid * Q)) :=
  bind (compound_fraction is_weight f p) (fun c =>
  bind (find_element (p_symbol p)) (fun e =>
  bind (zaids e) (fun l => Ok (entries is_weight cutoff (f_mixture f) c l)))).
(** The two loops (M_0.py:178-201). *)
Definition formula_entries (is_weight : bool) (cutoff : Q) (f : formula) : result (list (zaid * Q)) :=
  bind (mapM (part_entries is_weight cutoff f) (f_parts f)) (fun l => Ok (concat l)).
Definition all_entries (is_weight : bool) (cutoff : Q) (fs : list formula) : result (list (zaid * Q)) :=
  bind (mapM (formula_entries is_weight cutoff) fs) (fun l => Ok (concat l)).
(** M_0.py:163-208.  [n] is the state of the number generator, which the
    constructor asks for the suffix (M_0.py:44-45); [types.Tuple] refuses an empty
    tuple, not the empty list it gets here (Tuple.py:40). *)
Definition from_formula (n : Z) (fs : list formula) (is_weight : bool) (cutoff : Q) : Z * result material :=
  match all_entries is_weight cutoff fs with
  | Ok l =>
      match next_number n with
      | Some (z, n') => (n', Ok {| m_suffix := z; m_substances := l |})
      | None => (n, Py StopIteration)
      end
  | Lib e => (n, Lib e)
  | Py e => (n, Py e)
  end.
