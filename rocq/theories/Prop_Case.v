(** C76: the case of letters. *)

From Coq Require Import Ascii String NArith ZArith Bool Arith List.
From Verif Require Import PyStr Regex RegexParse PyNum Types CardText Cards Tables PiecesSpec CaseSpec CaseFacts3 CaseFacts5 CaseFacts6 CaseFacts7.
Import ListNotations.

(** A card that is read is read from its text in small letters too, as the same card with its texts in small letters.
    Partial: the full statement also says that every other spelling of a text that is read is read; see the
    refutations below. *)
Theorem C76_small_partial : forall c s o comments, In c classes -> card_from_mcnp ext fam c s = Ok (o, comments) ->
  card_from_mcnp ext fam c (slower s) = Ok (small_obj o, map slower comments).
Proof. exact card_small. Qed.
(** Two spellings of a card that are both read are read as the same card but for the case of the letters in its texts. *)
Theorem C76_same_partial : forall c s t o comments o' comments', In c classes -> same_letters s t ->
  card_from_mcnp ext fam c s = Ok (o, comments) -> card_from_mcnp ext fam c t = Ok (o', comments') ->
  small_obj o = small_obj o' /\ map slower comments = map slower comments'.
Proof. exact card_same. Qed.
(** The same for options and entries: the class that is chosen does not depend on the spelling. *)
Theorem C76_options_partial : forall n s c o, family_from_mcnp ext fam (fam n) s = Ok (c, o) ->
  family_from_mcnp ext fam (fam n) (slower s) = Ok (c, small_obj o).
Proof. exact option_small. Qed.
Theorem C76_same_options_partial : forall n s t c o c' o', same_letters s t ->
  family_from_mcnp ext fam (fam n) s = Ok (c, o) -> family_from_mcnp ext fam (fam n) t = Ok (c', o') -> c = c' /\ small_obj o = small_obj o'.
Proof. exact option_same. Qed.
(** Whether the pattern of a class fits a text does not depend on the case of its letters: for every pattern that is
    compiled with [re.IGNORECASE]. *)
Theorem C76_patterns : forall p s t, same_letters s t -> (re_match (compile true p) s = None <-> re_match (compile true p) t = None).
Proof. exact pattern_same. Qed.
(** Blanks, continuation lines and shorthands are treated in the same way in every spelling. *)
Theorem C76_text : forall s t, same_letters s t -> same_letters (preprocess s) (preprocess t).
Proof. exact preprocess_same. Qed.

(** What is read in one spelling is read in every spelling without a capital E, and as the same card, for all classes
    but three: those whose setters compare a word with its spelling in small letters.
    Partial: the full statement has no condition on the classes and on E; see the refutations below. *)
Theorem C76_both_partial : forall c s t o comments, In c classes -> ~ In (c_name c) ["F_1"; "F_2"; "Totnu"]%string -> ~ In "E"%char t -> same_letters s t ->
  card_from_mcnp ext fam c s = Ok (o, comments) ->
  exists o' comments', card_from_mcnp ext fam c t = Ok (o', comments') /\ small_obj o = small_obj o' /\ map slower comments = map slower comments'.
Proof. exact card_both. Qed.
Theorem C76_both_options_partial : forall n s t c o, ~ In "E"%char t -> same_letters s t -> family_from_mcnp ext fam (fam n) s = Ok (c, o) ->
  exists o', family_from_mcnp ext fam (fam n) t = Ok (c, o') /\ small_obj o = small_obj o'.
Proof. exact option_both. Qed.
(** A number that does not begin with a capital E is the same number, or the same error, in every spelling. *)
Theorem C76_numbers_partial : forall s t, (forall u, s <> "E"%char :: u) -> (forall u, t <> "E"%char :: u) -> same_letters s t ->
  integer_from_mcnp s = integer_from_mcnp t /\ real_from_mcnp s = real_from_mcnp t.
Proof. exact numbers_both. Qed.
(** One that does is always refused. *)
Theorem C76_capital_E : forall s, integer_from_mcnp ("E"%char :: s) = Lib TypesError /\ real_from_mcnp ("E"%char :: s) = Lib TypesError.
Proof. exact numbers_E. Qed.

(** A number of particles [e5] is read, [E5] is not. *)
Theorem C76_numbers_refuted : exists o, same_letters (L "nps e5") (L "nps E5") /\
  card_from_mcnp ext fam k_Nps (L "nps e5") = Ok (o, []) /\ card_from_mcnp ext fam k_Nps (L "nps E5") = Lib TypesError.
Proof. exact number_case. Qed.
(** [totnu no] is read, [totnu NO] is not; nor is the [ND] of a detector tally. *)
Theorem C76_words_refuted : forall x, In x [(k_Totnu, L "totnu no", L "totnu NO"); (k_F_1, L "f5:p 1 2 3 4 nd", L "f5:p 1 2 3 4 ND")] ->
  In (fst (fst x)) classes /\ same_letters (snd (fst x)) (snd x) /\
  (exists o, card_from_mcnp ext fam (fst (fst x)) (snd (fst x)) = Ok (o, [])) /\ card_from_mcnp ext fam (fst (fst x)) (snd x) = Lib InpError.
Proof. exact word_case. Qed.

(** The third class with such a word. *)
Theorem C76_rings_refuted : In k_F_2 classes /\ (exists o, card_from_mcnp ext fam k_F_2 (L "f5x:p 1 2 3 nd") = Ok (o, [])) /\
  card_from_mcnp ext fam k_F_2 (L "f5x:p 1 2 3 ND") = Lib InpError.
Proof. exact ring_case. Qed.

(** Cards in capitals that are read, with a nested option, a shorthand and a comment. *)
Example C76_sdef : exists c s o cm, In c classes /\ slower s <> s /\ card_from_mcnp ext fam c s = Ok (o, cm) /\ small_obj o <> o /\ cm <> [].
Proof. exact sdef_case. Qed.
Example C76_nps : exists o, card_from_mcnp ext fam k_Nps (L "NPS 1E5") = Ok (o, []) /\ card_from_mcnp ext fam k_Nps (L "nps 1e5") = Ok (o, []).
Proof. exact nps_case. Qed.
Example C76_both : exists c s t o o' cm cm', In c classes /\ ~ In (c_name c) ["F_1"; "F_2"; "Totnu"]%string /\ ~ In "E"%char t /\ same_letters s t /\ s <> t /\ slower t <> t /\
  card_from_mcnp ext fam c s = Ok (o, cm) /\ card_from_mcnp ext fam c t = Ok (o', cm') /\ o <> o'.
Proof. exact both_case. Qed.
Example C76_e : integer_from_mcnp (L "e5") = Ok (IVal 100000) /\ real_from_mcnp (L "-1.5D+3") = real_from_mcnp (L "-1.5d+3") /\ real_from_mcnp (L "-1.5E+3") = Ok (RVal (Fin true 15 2)).
Proof. exact small_e. Qed.

Print Assumptions C76_small_partial.
Print Assumptions C76_same_partial.
Print Assumptions C76_options_partial.
Print Assumptions C76_same_options_partial.
Print Assumptions C76_patterns.
Print Assumptions C76_text.
Print Assumptions C76_numbers_refuted.
Print Assumptions C76_words_refuted.
Print Assumptions C76_both_partial.
Print Assumptions C76_both_options_partial.
Print Assumptions C76_numbers_partial.
Print Assumptions C76_capital_E.
Print Assumptions C76_rings_refuted.
