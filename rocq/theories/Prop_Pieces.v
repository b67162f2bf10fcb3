(** C27: each attribute is read from its own text. [classes] are the 676 modelled classes of cards, options
    and entries; [class_layout] is how the pattern of a class lays out its texts (PiecesSpec.v). *)

From Coq Require Import Ascii String NArith ZArith Bool Arith List Lia.
From Verif Require Import PyStr Regex RegexParse PyNum Types CardText Cards Tables Numbered Problem InpFile CardsFacts2 PiecesSpec PiecesFacts.
Import ListNotations.
Open Scope char_scope.

(** Every text that is read is laid out in pieces, one for each attribute, and each attribute is read from its
    own piece: all classes but four. *)
Theorem C27_cards_partial : forall ext fam c s o comments, In c classes -> ~ In (c_name c) ["M_0"; "Fmult"; "ds_2_Variables"; "pikmt_Photonbias"]%string ->
  card_from_mcnp ext fam c s = Ok (o, comments) ->
  exists gs, follows (class_layout c) (fst (card_preprocess s)) gs /\ length gs = length (c_attrs c) /\ from_pieces ext fam c gs o.
Proof.
  intros ext fam c s o cm HI HN H. destruct (card_pieces ext fam c s o cm HI H) as (gs & A & B & C & _). exists gs. split; [exact A|]. split; [exact B|exact (C HN)].
Qed.
Theorem C27_options_partial : forall ext fam cs c s o, (forall d, In d cs -> In d classes) -> ~ In (c_name c) ["M_0"; "Fmult"; "ds_2_Variables"; "pikmt_Photonbias"]%string ->
  family_from_mcnp ext fam cs s = Ok (c, o) ->
  In c cs /\ exists gs, follows (class_layout c) (preprocess s) gs /\ length gs = length (c_attrs c) /\ from_pieces ext fam c gs o.
Proof.
  intros ext fam cs c s o HI HN H. destruct (family_pieces ext fam cs c s o HI H) as (HC & gs & A & B & C & _). split; [exact HC|].
  exists gs. split; [exact A|]. split; [exact B|exact (C HN)].
Qed.

(** The four: whatever the text, the last attribute is read from inside the piece of the attribute before it
    (or not at all), and its own piece is not looked at. *)
Theorem C27_cards_refuted : forall ext fam c s o comments, In c classes -> In (c_name c) ["M_0"; "Fmult"; "ds_2_Variables"; "pikmt_Photonbias"]%string ->
  card_from_mcnp ext fam c s = Ok (o, comments) ->
  exists gs, follows (class_layout c) (fst (card_preprocess s)) gs /\ length gs = length (c_attrs c) /\ from_wrong_pieces ext fam c gs o.
Proof.
  intros ext fam c s o cm HI HN H. destruct (card_pieces ext fam c s o cm HI H) as (gs & A & B & _ & C). exists gs. split; [exact A|]. split; [exact B|exact (C HN)].
Qed.
Theorem C27_options_refuted : forall ext fam cs c s o, (forall d, In d cs -> In d classes) -> In (c_name c) ["M_0"; "Fmult"; "ds_2_Variables"; "pikmt_Photonbias"]%string ->
  family_from_mcnp ext fam cs s = Ok (c, o) ->
  In c cs /\ exists gs, follows (class_layout c) (preprocess s) gs /\ length gs = length (c_attrs c) /\ from_wrong_pieces ext fam c gs o.
Proof.
  intros ext fam cs c s o HI HN H. destruct (family_pieces ext fam cs c s o HI H) as (HC & gs & A & B & _ & C). split; [exact HC|].
  exists gs. split; [exact A|]. split; [exact B|exact (C HN)].
Qed.

(** Beside the pieces there is nothing in the text that could be lost: with the same pieces it is the same text, up to the case of letters. *)
Theorem C27_nothing_beside : forall c s t gs, In c classes -> follows (class_layout c) s gs -> follows (class_layout c) t gs -> slower s = slower t.
Proof. exact class_pieces_fix. Qed.

(** What the layouts are: that of the generic writer, or one of [other_layouts]. *)
Theorem C27_layouts : forall c, In c classes ->
  show (class_layout c) = match assoc (c_name c) other_layouts with Some l => L l | None => full_text c end.
Proof.
  assert (H : forallb (fun c => seqb (show (class_layout c)) (match assoc (c_name c) other_layouts with Some l => L l | None => full_text c end)) classes = true)
    by (vm_compute; reflexivity).
  intros c HI. rewrite forallb_forall in H. apply seqb_eq. exact (H c HI).
Qed.

(** Materials lose their options, dependent values become the numbers of the distributions before them, and
    biases the first digits of the nuclide. *)
Definition rewritten (s : string) : option str := match read_data_card (L s) with Ok (x, _) => match card_text x with Ok t => Some t | _ => None end | _ => None end.
Theorem C27_shifted_refuted :
  rewritten "m1 1001 1 8016 2 nlib=70c" = Some (L "m1 001001 1 008016 2") /\
  rewritten "ds1 q d1 0.5 d3 0.25" = Some (L "ds1 q d1 1 d3 3") /\
  rewritten "pikmt 92235 2 8016 3" = Some (L "pikmt 092235 92 008016 8") /\
  rewritten "fmult 92235 width 1" = Some (L "fmult 092235").
Proof. split; [vm_compute; reflexivity|]. split; [vm_compute; reflexivity|]. split; vm_compute; reflexivity. Qed.

(** The hypotheses are met. *)
Lemma at_place n c : nth_error classes n = Some c -> In c classes. Proof. apply nth_error_In. Qed.
Example C27_card_case : In k_Wwn classes /\ ~ In (c_name k_Wwn) shifted /\ (exists x, card_from_mcnp ext fam k_Wwn (L "wwn2:n 1 j 0.5") = Ok x) /\
  follows (class_layout k_Wwn) (L "wwn2:n 1 j 0.5") [Some (L "2"); Some (L "n"); Some (L " 1 j 0.5")].
Proof.
  split; [apply (at_place 552); vm_compute; reflexivity|]. split; [intros H; apply listed_in in H; vm_compute in H; discriminate|].
  split; [eexists; vm_compute; reflexivity|].
  replace (class_layout k_Wwn) with (Then Nothing (Then (Letter "w") (Then (Letter "w") (Then (Letter "n") (Then Piece (Then (Letter ":") (Then Piece (Then Piece Nothing)))))))) by (vm_compute; reflexivity).
  assert (T : forall a b s u v gs hs is, follows a u gs -> follows b v hs -> s = u ++ v -> is = gs ++ hs -> follows (Then a b) s is) by (intros; subst; now constructor).
  eapply T; [constructor| |reflexivity|reflexivity]. do 2 (eapply (T _ _ _ (L "w")); [apply f_letter; reflexivity| |reflexivity|reflexivity]). eapply (T _ _ _ (L "n")); [apply f_letter; reflexivity| |reflexivity|reflexivity].
  eapply (T _ _ _ (L "2")); [constructor| |reflexivity|reflexivity]. eapply (T _ _ _ (L ":")); [apply f_letter; reflexivity| |reflexivity|reflexivity].
  eapply (T _ _ _ (L "n")); [constructor| |reflexivity|reflexivity]. eapply (T _ _ _ (L " 1 j 0.5")); [constructor|constructor|reflexivity|reflexivity].
Qed.
Example C27_shifted_case : In k_Fmult classes /\ In (c_name k_Fmult) shifted /\ (exists x, card_from_mcnp ext fam k_Fmult (L "fmult 92235 width 1") = Ok x) /\
  In k_ds_2_Variables classes /\ In (c_name k_ds_2_Variables) shifted /\ (exists x, family_from_mcnp ext fam [k_ds_2_Variables] (L "d1 0.5") = Ok x).
Proof.
  split; [apply (at_place 206); vm_compute; reflexivity|]. split; [right; now left|]. split; [eexists; vm_compute; reflexivity|].
  split; [apply (at_place 120); vm_compute; reflexivity|]. split; [right; right; now left|]. eexists; vm_compute; reflexivity.
Qed.

Print Assumptions C27_cards_partial.
Print Assumptions C27_options_partial.
Print Assumptions C27_cards_refuted.
Print Assumptions C27_options_refuted.
Print Assumptions C27_nothing_beside.
Print Assumptions C27_layouts.
Print Assumptions C27_shifted_refuted.
