(** C77: preparing a text that has been prepared. *)

From Coq Require Import Ascii String NArith ZArith Bool Arith List.
From Verif Require Import PyStr Regex RegexParse PyNum Types CardText Cards Tables CardTextSpec PiecesSpec CaseSpec TwiceFacts.
Import ListNotations.

(** A text of words is changed by the first preparation only, if no counted word but [nJ] stands beside another of its
    kind, no count is zero and the uncounted shorthands are in small letters.
    Partial: the full statement is about every text; see the refutations. *)
Theorem C77_twice_partial : forall w ws vss, clean w -> Forall clean ws -> Forall2 stands_for ws vss ->
  (forall v k, In v ws -> ~ counted k 0 v) -> (forall k, k <> Sj -> ~ crowded k ws) -> (forall v k, In v ws -> is_short k v = true -> v = short_name k) ->
  preprocess (preprocess (join [sp] (w :: ws))) = preprocess (join [sp] (w :: ws)).
Proof. exact twice_exact. Qed.
(** With shorthands in capitals, all but the case of their letters stays. *)
Theorem C77_letters_partial : forall w ws vss, clean w -> Forall clean ws -> Forall2 stands_for ws vss ->
  (forall v k, In v ws -> ~ counted k 0 v) -> (forall k, k <> Sj -> ~ crowded k ws) ->
  same_letters (preprocess (preprocess (join [sp] (w :: ws)))) (preprocess (join [sp] (w :: ws))).
Proof. exact twice_letters. Qed.
(** So an option or entry is read in the same way from the text of a card as it stands and from the text as the card
    reader passes it on: the same object of the same class, or the same error. *)
Theorem C77_options_partial : forall n w ws vss, clean w -> Forall clean ws -> Forall2 stands_for ws vss ->
  (forall v k, In v ws -> ~ counted k 0 v) -> (forall k, k <> Sj -> ~ crowded k ws) -> (forall v k, In v ws -> is_short k v = true -> v = short_name k) ->
  family_from_mcnp ext fam (fam n) (preprocess (join [sp] (w :: ws))) = family_from_mcnp ext fam (fam n) (join [sp] (w :: ws)).
Proof. exact twice_option. Qed.
(** The same for cards. *)
Theorem C77_cards_partial : forall c w ws vss, clean w -> Forall clean ws -> Forall2 stands_for ws vss ->
  (forall v k, In v ws -> ~ counted k 0 v) -> (forall k, k <> Sj -> ~ crowded k ws) -> (forall v k, In v ws -> is_short k v = true -> v = short_name k) ->
  card_from_mcnp ext fam c (preprocess (join [sp] (w :: ws))) = card_from_mcnp ext fam c (join [sp] (w :: ws)).
Proof. exact twice_card. Qed.

(** Crowded counted words, capitals and two equal signs: the second preparation changes the text once more. *)
Theorem C77_texts_refuted : forall x, In x [(L "imp:n 1r 2r 3r", L "imp:n r 2r r r r", L "imp:n r r r 3r"); (L "x J 2j", L "x J j j", L "x j j j"); (L "x = = 3", L "x  3", L "x 3")] ->
  preprocess (fst (fst x)) = snd (fst x) /\ preprocess (snd (fst x)) = snd x /\ snd (fst x) <> snd x.
Proof. exact twice_texts. Qed.
(** An option that is refused alone and read from a text that was prepared before. *)
Theorem C77_options_refuted : family_from_mcnp ext fam (fam "cell_CellOption") (L "imp:n = = 1") = Lib InpError /\
  exists c o, family_from_mcnp ext fam (fam "cell_CellOption") (preprocess (L "imp:n = = 1")) = Ok (c, o).
Proof. exact twice_read. Qed.

(** A text with a counted word that meets the conditions. *)
Example C77_case : exists w ws vss, clean w /\ Forall clean ws /\ Forall2 stands_for ws vss /\
  (forall v k, In v ws -> ~ counted k 0 v) /\ (forall k, k <> Sj -> ~ crowded k ws) /\ (forall v k, In v ws -> is_short k v = true -> v = short_name k) /\
  preprocess (join [sp] (w :: ws)) <> join [sp] (w :: ws).
Proof. exact twice_case. Qed.

Print Assumptions C77_twice_partial.
Print Assumptions C77_letters_partial.
Print Assumptions C77_options_partial.
Print Assumptions C77_texts_refuted.
Print Assumptions C77_options_refuted.
Print Assumptions C77_cards_partial.
