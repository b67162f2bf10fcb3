(** C76: the case of letters in cells, surfaces, data cards and files. *)

From Coq Require Import Ascii String NArith ZArith Bool Arith List.
From Verif Require Import PyStr Regex RegexParse PyNum Types CardText Cards Tables PiecesSpec Numbered Problem InpFile CaseSpec CaseInpSpec CaseFacts10.
Import ListNotations.

(** Two spellings of a card without a capital E are both read, as the same card but for the case of the letters in its
    texts and comments, or both refused with the same error.
    Partial: all classes but the three whose setters compare a word with its small letters, and no capital E; both
    conditions are needed, see Prop_Case.v. *)
Theorem C76_cards_partial : forall c s t, In c classes -> ~ In (c_name c) ["F_1"; "F_2"; "Totnu"]%string -> ~ In "E"%char s -> ~ In "E"%char t -> same_letters s t ->
  outcome (fun x => (small_obj (fst x), map slower (snd x))) (card_from_mcnp ext fam c s) = outcome (fun x => (small_obj (fst x), map slower (snd x))) (card_from_mcnp ext fam c t).
Proof. exact two_cards. Qed.
(** The same for options and entries, with the class that is chosen. *)
Theorem C76_entries_partial : forall n s t, ~ In "E"%char s -> ~ In "E"%char t -> same_letters s t ->
  outcome (fun x => (fst x, small_obj (snd x))) (family_from_mcnp ext fam (fam n) s) = outcome (fun x => (fst x, small_obj (snd x))) (family_from_mcnp ext fam (fam n) t).
Proof. exact two_options. Qed.
(** The same for the lines of the three blocks of a file: which class reads the line does not depend on its spelling. *)
Theorem C76_cells_partial : forall s t, ~ In "E"%char s -> ~ In "E"%char t -> same_letters s t ->
  outcome small_remarked (read_cell_card s) = outcome small_remarked (read_cell_card t).
Proof. exact two_cells. Qed.
Theorem C76_surfaces_partial : forall s t, ~ In "E"%char s -> ~ In "E"%char t -> same_letters s t ->
  outcome small_remarked (read_surface_card s) = outcome small_remarked (read_surface_card t).
Proof. exact two_surfaces. Qed.
Theorem C76_data_partial : forall s t, ~ In "E"%char s -> ~ In "E"%char t -> same_letters s t -> (forall c, In c [k_F_1; k_F_2; k_Totnu] -> ~ fits c s) ->
  outcome small_remarked (read_data_card s) = outcome small_remarked (read_data_card t).
Proof. exact two_data. Qed.
(** Every file is cut into the same blocks and lines in every spelling. *)
Theorem C76_blocks : forall s t, same_letters s t ->
  option_map small_blocks (cut_blocks (inp_preprocess s)) = option_map small_blocks (cut_blocks (inp_preprocess t)).
Proof. exact two_blocks. Qed.
(** Two spellings of a file without a capital E and without a detector tally or a [totnu] card are read as the same
    problem but for the case of the letters in its texts, or refused with the same error. *)
Theorem C76_files_partial : forall s t b, ~ In "E"%char s -> ~ In "E"%char t -> same_letters s t -> cut_blocks (inp_preprocess s) = Some b ->
  (forall l c, In l (b_data b) -> In c [k_F_1; k_F_2; k_Totnu] -> ~ fits c l) -> outcome small_inp (read_inp s) = outcome small_inp (read_inp t).
Proof. exact two_files. Qed.
(** In a file no other class takes the cards with such a word. *)
Theorem C76_lines_refuted : forall x, In x [(L "totnu no", L "totnu NO"); (L "f5:p 1 2 3 4 nd", L "f5:p 1 2 3 4 ND")] ->
  same_letters (fst x) (snd x) /\ (exists y, read_data_card (fst x) = Ok y) /\ read_data_card (snd x) = Lib TypesError.
Proof. exact words_file. Qed.

(** A file with an option, a comment and a shorthand, in two spellings. *)
Example C76_file : exists s t b x, ~ In "E"%char s /\ ~ In "E"%char t /\ s <> t /\ same_letters s t /\ cut_blocks (inp_preprocess s) = Some b /\
  (forall l c, In l (b_data b) -> In c [k_F_1; k_F_2; k_Totnu] -> ~ fits c l) /\ read_inp s = Ok x /\ small_inp x <> x.
Proof. exact file_case. Qed.

Print Assumptions C76_cards_partial.
Print Assumptions C76_entries_partial.
Print Assumptions C76_cells_partial.
Print Assumptions C76_surfaces_partial.
Print Assumptions C76_data_partial.
Print Assumptions C76_blocks.
Print Assumptions C76_files_partial.
Print Assumptions C76_lines_refuted.
