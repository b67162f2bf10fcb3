(** Model of [==] and [!=] between the library's elements. *)

From Coq Require Import Ascii String NArith ZArith Bool Arith List.
From Verif Require Import PyStr PyNum Types Cards.
Import ListNotations.
Open Scope list_scope.

(** An element: an Integer, a Real, a String, or an element of any other class.
    Those have no comparison, truth or length of their own ([grep] for [__eq__],
    [__bool__], [__len__] over /repo/src/pymcnp finds only these three classes
    and the two of _symbol.py): all that counts of them is their text. *)
Inductive elem := EInt (i : intv) | EReal (r : realv) | EString (s : str) | EPlain (text : str).

(** [str(e)]: _symbol.py:58-59, Integer.py:94-102, Real.py:94-102, String.py:55-63. *)
Definition text_of (e : elem) : str :=
  match e with
  | EInt i => integer_to_mcnp i
  | EReal r => real_to_mcnp r
  | EString s => s
  | EPlain t => t
  end.

(** [bool(e)]: Integer.py:116-117, Real.py:116-117 (a shorthand has no
    [__bool__] to call), String.py:71-72 ([__len__]), otherwise true. *)
Definition truth_of (e : elem) : result bool :=
  match e with
  | EInt (IVal z) => Ok (negb (z =? 0)%Z)
  | EReal (RVal (Fin _ c _)) => Ok (negb (c =? 0)%N)
  | EReal (RVal _) => Ok true
  | EInt (IHor _) | EReal (RHor _) => Py AttributeError
  | EString s => Ok (negb (seqb s []))
  | EPlain _ => Ok true
  end.

(** What a comparison method returns. *)
Inductive answer := Yes | No | ReturnsNone | NotImpl.
Definition ans (b : bool) : answer := if b then Yes else No.

(** _symbol.py:61-62: [(str(a) if a else None) == (str(b) if b else None)] for
    an [a] that is true and has the text [t]. *)
Definition text_eq (t : str) (truth : result bool) (u : str) : result answer :=
  bind truth (fun b => Ok (ans (b && seqb t u))).

(** [h == z] and [h == d] for a shorthand [h]: _symbol.py:61-62. *)
Definition hor_eq_Z (h : horiz) (z : Z) : bool := negb (z =? 0)%Z && seqb (horiz_to_mcnp h) (str_of_Z z).
Definition hor_eq_dec (h : horiz) (d : dec) : bool :=
  negb (match d with Fin _ c _ => (c =? 0)%N | _ => false end) && seqb (horiz_to_mcnp h) (dec_str d).
Definition hor_eq (g h : horiz) : bool := seqb (horiz_to_mcnp g) (horiz_to_mcnp h).

(** [a.value == b.value] on two Reals' values (Real.py:173-175): [Decimal] does
    not know shorthands, so the shorthand's method answers. *)
Definition real_values_eq (x y : realv) : result bool :=
  match x, y with
  | RVal a, RVal b => cmp_dec OEq a b
  | RVal a, RHor h | RHor h, RVal a => Ok (hor_eq_dec h a)
  | RHor g, RHor h => Ok (hor_eq g h)
  end.

(** [a.__eq__(b)]: Integer.py:152-156, Real.py:173-179, String.py:101-105 and
    _symbol.py:61-62. *)
Definition eq_method (a b : elem) : result answer :=
  match a, b with
  | EInt (IVal x), EInt (IVal y) => Ok (ans (x =? y)%Z)
  | EInt (IVal _), EInt (IHor _) => Ok NotImpl
  | EInt (IHor g), EInt (IVal y) => Ok (ans (hor_eq_Z g y))
  | EInt (IHor g), EInt (IHor h) => Ok (ans (hor_eq g h))
  | EInt _, _ => Ok ReturnsNone
  | EReal x, EReal y => bind (real_values_eq x y) (fun b => Ok (ans b))
  | EReal _, _ => Ok ReturnsNone
  | EString s, EString t => Ok (ans (seqb s t))
  | EString _, _ => Ok NotImpl
  | EPlain t, b => text_eq t (truth_of b) (text_of b)
  end.

(** [a.__ne__(b)]: Integer.py:158-162, Real.py:181-187, String.py:107-111; the
    other classes inherit [object.__ne__], which turns [__eq__] around. *)
Definition turn (x : answer) : answer := match x with Yes => No | No => Yes | ReturnsNone => Yes | NotImpl => NotImpl end.
Definition ne_method (a b : elem) : result answer :=
  match a, b with
  | EInt (IVal x), EInt (IVal y) => Ok (ans (negb (x =? y)%Z))
  | EInt (IVal _), EInt (IHor _) => Ok NotImpl
  | EInt (IHor g), EInt (IVal y) => Ok (ans (negb (hor_eq_Z g y)))
  | EInt (IHor g), EInt (IHor h) => Ok (ans (negb (hor_eq g h)))
  | EInt _, _ => Ok ReturnsNone
  | EReal (RVal x), EReal (RVal y) => bind (cmp_dec ONe x y) (fun b => Ok (ans b))
  | EReal x, EReal y => bind (real_values_eq x y) (fun b => Ok (ans (negb b)))
  | EReal _, _ => Ok ReturnsNone
  | EString s, EString t => Ok (ans (negb (seqb s t)))
  | EString _, _ => Ok NotImpl
  | EPlain _, _ => bind (eq_method a b) (fun x => Ok (turn x))
  end.

(** The operators: when the left method is not implemented the right one is
    asked, then the objects' identity.  [same_object] says that [a] and [b] are
    one object.  The result is the truth of what the operator returns ([None]
    counts as false). *)
Definition operator (method : elem -> elem -> result answer) (identical : bool) (a b : elem) : result bool :=
  bind (method a b) (fun x =>
  match x with
  | Yes => Ok true
  | No | ReturnsNone => Ok false
  | NotImpl =>
      bind (method b a) (fun y =>
      match y with
      | Yes => Ok true
      | No | ReturnsNone => Ok false
      | NotImpl => Ok identical
      end)
  end).
Definition py_eq (same_object : bool) (a b : elem) : result bool := operator eq_method same_object a b.
Definition py_ne (same_object : bool) (a b : elem) : result bool := operator ne_method (negb same_object) a b.
