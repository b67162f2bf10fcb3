(** Vocabulary for the properties of geometries: the grammar of the texts, the
    point set of a tree, and the point set MCNP gives to the same text. *)

From Coq Require Import Ascii String NArith ZArith Bool Arith List.
From Verif Require Import PyStr Regex Geometry.
Import ListNotations.
Open Scope list_scope.

Definition some_digits (s : str) : Prop := s <> [] /\ Forall (fun c => is_digit c = true) s.
(** [12] or [12.3]. *)
Definition number (s : str) : Prop :=
  some_digits s \/ exists a b, some_digits a /\ some_digits b /\ s = a ++ "."%char :: b.

(** * The grammar of token lists *)
Inductive r_prim : list str -> geo -> Prop :=
| prim_digit d : number d -> r_prim [d] (GDigit d)
| prim_paren ts g : r_inter ts g -> r_prim (L "(" :: ts ++ [L ")"]) (GParen g)
with r_atom : list str -> geo -> Prop :=
| atom_prim ts g : r_prim ts g -> r_atom ts g
| atom_unary op ts g : In op ["+"; "-"; "#"]%char -> r_prim ts g -> r_atom ([op] :: ts) (GUnary op g)
with r_union : list str -> geo -> Prop :=
| union_atom ts g : r_atom ts g -> r_union ts g
| union_more ts1 g1 ts2 g2 : r_union ts1 g1 -> r_atom ts2 g2 -> r_union (ts1 ++ L ":" :: ts2) (GUnion g1 g2)
with r_inter : list str -> geo -> Prop :=
| inter_union ts g : r_union ts g -> r_inter ts g
| inter_blank ts1 g1 b ts2 g2 : r_inter ts1 g1 -> (b = [] \/ b = [sp]) -> r_union ts2 g2 ->
    r_inter (ts1 ++ b :: ts2) (GInter g1 g2)
| inter_open ts1 g1 ts2 g2 : r_inter ts1 g1 -> r_union (L "(" :: ts2) g2 ->
    r_inter (ts1 ++ L "(" :: ts2) (GInter g1 g2).

(** * The grammar of texts *)
Definition blanks (b : str) : Prop := Forall (fun c => is_space c = true) b.
Inductive t_prim : str -> geo -> Prop :=
| t_digit d : number d -> t_prim d (GDigit d)
| t_paren b s g : blanks b -> t_inter s g -> t_prim ("("%char :: b ++ s ++ L ")") (GParen g)
with t_atom : str -> geo -> Prop :=
| t_plain s g : t_prim s g -> t_atom s g
| t_unary op b s g : In op ["+"; "-"; "#"]%char -> blanks b -> t_prim s g -> t_atom (op :: b ++ s) (GUnary op g)
with t_union : str -> geo -> Prop :=
| t_single s g : t_atom s g -> t_union s g
| t_colon s1 g1 b b' s2 g2 : t_union s1 g1 -> blanks b -> blanks b' -> t_atom s2 g2 -> t_union (s1 ++ b ++ ":"%char :: b' ++ s2) (GUnion g1 g2)
with t_inter : str -> geo -> Prop :=
| t_alone s g : t_union s g -> t_inter s g
| t_blank s1 g1 b s2 g2 : t_inter s1 g1 -> blanks b -> b <> [] -> t_union s2 g2 -> t_inter (s1 ++ b ++ s2) (GInter g1 g2)
| t_open s1 g1 s2 g2 : t_inter s1 g1 -> t_union ("("%char :: s2) g2 -> t_inter (s1 ++ "("%char :: s2) (GInter g1 g2).

(** * MCNP's grammar of the same token lists *)

(** A blank, or an opening parenthesis after a factor, binds tighter than a colon. *)
Inductive k_prim : list str -> geo -> Prop :=
| k_digit d : number d -> k_prim [d] (GDigit d)
| k_paren ts g : k_union ts g -> k_prim (L "(" :: ts ++ [L ")"]) (GParen g)
with k_atom : list str -> geo -> Prop :=
| k_plain ts g : k_prim ts g -> k_atom ts g
| k_unary op ts g : In op ["+"; "-"; "#"]%char -> k_prim ts g -> k_atom ([op] :: ts) (GUnary op g)
with k_inter : list str -> geo -> Prop :=
| k_one ts g : k_atom ts g -> k_inter ts g
| k_blank ts1 g1 b ts2 g2 : k_inter ts1 g1 -> (b = [] \/ b = [sp]) -> k_atom ts2 g2 ->
    k_inter (ts1 ++ b :: ts2) (GInter g1 g2)
| k_open ts1 g1 ts2 g2 : k_inter ts1 g1 -> k_atom (L "(" :: ts2) g2 ->
    k_inter (ts1 ++ L "(" :: ts2) (GInter g1 g2)
with k_union : list str -> geo -> Prop :=
| k_factors ts g : k_inter ts g -> k_union ts g
| k_colon ts1 g1 ts2 g2 : k_union ts1 g1 -> k_inter ts2 g2 -> k_union (ts1 ++ L ":" :: ts2) (GUnion g1 g2).

(** * Point sets *)
Section Denote.
  Variable P : Type.
  (** Where each surface has positive sense, and the points of each cell. *)
  Variables surf cell : str -> P -> Prop.

  (** The point set of a tree: a blank intersects, a colon unites, [-] is the other
      side, [#n] all but cell n, [#(...)] the complement. *)
  Fixpoint denote (g : geo) (p : P) : Prop :=
    match g with
    | GInter l r => denote l p /\ denote r p
    | GUnion l r => denote l p \/ denote r p
    | GUnary op g =>
        if ceqb op "+" then denote g p
        else if ceqb op "-" then ~ denote g p
        else match g with GDigit n => ~ cell n p | _ => ~ denote g p end
    | GParen g => denote g p
    | GDigit s => surf s p
    end.

  (** MCNP's rule for the text of the tree: outside parentheses, split the text at
      the colons, and each piece at the blanks; a point is in the set if it is in
      every factor of some piece. *)
  Definition in_some (l : list (list Prop)) : Prop := Exists (fun piece => Forall (fun f => f) piece) l.
  Fixpoint glue (a b : list (list Prop)) : list (list Prop) :=
    match a, b with
    | [], b => b
    | [x], y :: b => (x ++ y) :: b
    | x :: a, b => x :: glue a b
    end.
  Fixpoint pieces (g : geo) (p : P) : list (list Prop) :=
    match g with
    | GInter l r => glue (pieces l p) (pieces r p)
    | GUnion l r => pieces l p ++ pieces r p
    | GUnary op g =>
        [[if ceqb op "+" then in_some (pieces g p)
          else if ceqb op "-" then ~ in_some (pieces g p)
          else match g with GDigit n => ~ cell n p | _ => ~ in_some (pieces g p) end]]
    | GParen g => [[in_some (pieces g p)]]
    | GDigit s => [[surf s p]]
    end.
  Definition mcnp_denote (g : geo) (p : P) : Prop := in_some (pieces g p).
End Denote.
Arguments denote {P}.
Arguments mcnp_denote {P}.

(** Blanks and colons do not meet outside parentheses. *)
Definition is_union (g : geo) : bool := match g with GUnion _ _ => true | _ => false end.
Definition is_inter (g : geo) : bool := match g with GInter _ _ => true | _ => false end.
Fixpoint unmixed (g : geo) : bool :=
  match g with
  | GInter l r => negb (is_union l) && negb (is_union r) && unmixed l && unmixed r
  | GUnion l r => unmixed l && unmixed r
  | GUnary _ g | GParen g => unmixed g
  | GDigit _ => true
  end.

(** No [#n]. *)
Fixpoint no_cell (g : geo) : bool :=
  match g with
  | GInter l r | GUnion l r => no_cell l && no_cell r
  | GUnary op (GDigit _) => ceqb op "+" || ceqb op "-"
  | GUnary _ g | GParen g => no_cell g
  | GDigit _ => true
  end.
(** The surface numbers of a geometry, without those after [#]. *)
Fixpoint names (g : geo) : list str :=
  match g with
  | GInter l r | GUnion l r => names l ++ names r
  | GUnary op (GDigit s) => if ceqb op "+" || ceqb op "-" then [s] else []
  | GUnary _ g | GParen g => names g
  | GDigit s => [s]
  end.

(** The reader gives back a tree written. *)
Definition readable (g : geo) : Prop := geo_from_mcnp (geo_to_mcnp g) = Ok g.
(** Alone or in parentheses. *)
Definition is_prim (g : geo) : bool := match g with GDigit _ | GParen _ => true | _ => false end.
