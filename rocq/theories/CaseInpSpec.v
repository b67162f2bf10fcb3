(** C76: what is left of the cards and blocks of a file when capitals are made small. *)

From Coq Require Import Ascii String NArith ZArith Bool List.
From Verif Require Import PyStr Regex RegexParse Types CardText Cards Numbered Problem InpFile CaseSpec.
Import ListNotations.

Definition small_cell (c : cellobj) : cellobj :=
  mkcell (option_map small (ce_number c)) (option_map small (ce_material c)) (option_map small (ce_density c)) (ce_geometry c) (option_map small (ce_options c)).
Definition small_surf (c : surfobj) : surfobj :=
  mksurf (option_map small (su_prefix c)) (option_map small (su_number c)) (option_map small (su_transform c)) (option_map small (su_option c)).
Definition small_card (c : card) : card :=
  match c with
  | CCell c => CCell (small_cell c)
  | CLike o => CLike (small_obj o)
  | CSurface c => CSurface (small_surf c)
  | CComment t => CComment (option_map slower t)
  | CData k o => CData k (small_obj o)
  end.
(** A card with its comments. *)
Definition small_remarked (x : remarked) : remarked := (small_card (fst x), map slower (snd x)).
Definition small_blocks (b : blocks) : blocks :=
  {| b_message := option_map slower (b_message b); b_title := slower (b_title b); b_cells := map slower (b_cells b);
     b_surfaces := map slower (b_surfaces b); b_data := map slower (b_data b); b_other := option_map slower (b_other b) |}.
(** The outcome of a reader with what it read in small letters; errors are as they were. *)
Definition outcome {A} (f : A -> A) (r : result A) : result A := match r with Ok x => Ok (f x) | Lib e => Lib e | Py e => Py e end.
Definition small_inp (x : inp) : inp :=
  mkinp (slower (i_title x)) (map small_remarked (i_cells x)) (map small_remarked (i_surfaces x)) (map small_remarked (i_data x))
    (option_map slower (i_message x)) (option_map slower (i_other x)).
(** The pattern of a class fits a card. *)
Definition fits (c : cls) (s : str) : Prop := re_match (compile true (c_pat c)) (fst (card_preprocess s)) <> None.
