(** Vocabulary for the properties of lattice specifications: the grammar of the
    texts, and the items a tree names in order. *)

From Coq Require Import Ascii String NArith ZArith Bool Arith List.
From Verif Require Import PyStr Regex Geometry GeometrySpec Lattice.
Import ListNotations.
Open Scope list_scope.

(** [12], [+12] or [-12]. *)
Definition signed (s : str) : Prop :=
  some_digits s \/ exists c d, some_digits d /\ s = c :: d /\ In c ["+"; "-"]%char.

Definition is_index (l : lat) : bool := match l with LIndex _ _ => true | _ => false end.

(** * The tokens of a text *)

(** Blanks may stand anywhere between tokens; a number is not followed by a digit. *)
Definition no_digit (s : str) : Prop := forall c t, s = c :: t -> is_digit c = false.
Inductive spread : list str -> str -> Prop :=
| spread_end b : blanks b -> spread [] b
| spread_number b d ts s : blanks b -> signed d -> no_digit s -> spread ts s -> spread (d :: ts) (b ++ d ++ s)
| spread_mark b c ts s : blanks b -> In c [":"; "<"; ")"; "("; "["; "]"; "|"]%char -> spread ts s -> spread ([c] :: ts) (b ++ c :: s).

(** * The grammar of token lists *)
Inductive g_digit : list str -> lat -> Prop :=
| digit_one d : signed d -> g_digit [d] (LDigit d).
(** [i] or [i:j]. *)
Inductive g_place : list str -> lat -> Prop :=
| place_one ts l : g_digit ts l -> g_place ts l
| place_range ts1 lo ts2 hi : g_digit ts1 lo -> g_digit ts2 hi -> g_place (ts1 ++ L ":" :: ts2) (LIndex lo hi).
Inductive g_item : list str -> lat -> Prop :=
| item_digit ts l : g_digit ts l -> g_item ts l
(** [cell[i j k]]; if k is a range then so is j. *)
| item_range tc c ti i tj j tk k : g_digit tc c -> g_place ti i -> g_place tj j -> g_place tk k ->
    (is_index k = true -> is_index j = true) ->
    g_item (tc ++ L "[" :: ti ++ tj ++ tk ++ [L "]"]) (LRange c i j k)
| item_paren ts l : g_chain ts l -> g_item (L "(" :: ts ++ [L ")"]) (LParen l)
(** [a<b<c]. *)
with g_chain : list str -> lat -> Prop :=
| chain_one ts l : g_item ts l -> g_chain ts l
| chain_more ts1 l1 ts2 l2 : g_chain ts1 l1 -> g_item ts2 l2 -> g_chain (ts1 ++ L "<" :: ts2) (LEmb l1 l2).
(** Chains one after the other, each a bin of its own. *)
Inductive g_bins : list str -> lat -> Prop :=
| bins_one ts l : g_chain ts l -> g_bins ts l
| bins_more ts1 l1 ts2 l2 : g_bins ts1 l1 -> g_chain ts2 l2 -> g_bins (ts1 ++ ts2) (LEmb l1 l2).

(** The items of a tree outside parentheses, in order. *)
Fixpoint items (l : lat) : list lat := match l with LEmb a b => items a ++ items b | l => [l] end.
