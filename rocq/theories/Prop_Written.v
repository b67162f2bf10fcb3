(** C21, C25 and C27 for the data cards of a problem ([data_entries]: the classes tried for a card of the
    data block), those with a writer of their own among them. *)

From Coq Require Import Ascii String NArith ZArith Bool Arith Lia List.
From Verif Require Import PyStr Regex RegexParse PyNum Types TypesSpec CardText CardTextSpec Cards Tables CardsSpec Problem InpFile WrittenFacts.
Import ListNotations.
Open Scope char_scope.

(** ** C21 *)

(** Four classes write their cards on one line, however long. *)
Theorem C21_own_writers_refuted : forall c o, In (Known c) data_entries -> In (c_name c) ["Ds_1"; "Ds_2"; "Ds_3"; "F_2"]%string ->
  (forall n v, In (n, Some v) o -> ~ In nl (write v)) -> lines (card_to_mcnp c o) = [card_to_mcnp c o].
Proof. exact own_one_line. Qed.
Print Assumptions C21_own_writers_refuted.

(** A card of three lines is read; it is written on one, of 116 columns. *)
Definition long_ds : str := join [nl] [join [sp] (L "ds7 s" :: repeat (L "d1") 18); L "      " ++ join [sp] (repeat (L "d2") 18)].
Theorem C21_written_long_refuted : exists o,
  Forall (fun l => length l <= 80) (lines long_ds) /\ card_from_mcnp ext fam k_Ds_3 long_ds = Ok (o, []) /\
  read_data_card long_ds = Ok (CData k_Ds_3 o, []) /\
  map (@length ascii) (lines (card_to_mcnp k_Ds_3 o)) = [113].
Proof.
  assert (H : forallb (fun l => Nat.leb (length l) 80) (lines long_ds) = true) by (vm_compute; reflexivity).
  eexists. split; [|split; [vm_compute; reflexivity|split; vm_compute; reflexivity]].
  rewrite forallb_forall in H. apply Forall_forall. intros l HL. apply Nat.leb_le. exact (H l HL).
Qed.
Print Assumptions C21_written_long_refuted.

(** The data cards of all other classes are wrapped: no line is wider than 81 columns unless one of its words alone is longer than 72. *)
Theorem C21_data_cards_partial : forall c o, In (Known c) data_entries -> ~ In (c_name c) ["Ds_1"; "Ds_2"; "Ds_3"; "F_2"]%string ->
  (forall n v, In (n, Some v) o -> ~ In nl (write v)) -> Forall (fits 81) (lines (card_to_mcnp c o)).
Proof. exact others_wrapped. Qed.
Print Assumptions C21_data_cards_partial.

(** ** C25: what these writers write is not always read back. *)

(** A distribution numbered above 9 that is not alone on its card loses its last digits, and comes back as another one. *)
Theorem C25_dependent_refuted : exists o o',
  card_from_mcnp ext fam k_Ds_3 (L "ds3 s d1 d2 d12") = Ok (o, []) /\ card_to_mcnp k_Ds_3 o = L "ds3 s d1 d2 d1" /\
  card_from_mcnp ext fam k_Ds_3 (L "ds3 s d1 d2 d1") = Ok (o', []) /\ o = o'.
Proof. eexists. eexists. split; [vm_compute; reflexivity|]. split; [vm_compute; reflexivity|]. split; [vm_compute; reflexivity|reflexivity]. Qed.
Print Assumptions C25_dependent_refuted.
(** A ring detector without numbers is accepted as a card without rings, and what is written for it is refused. *)
Theorem C25_rings_refuted : exists o,
  card_from_mcnp ext fam k_F_2 (L "f5x:n a b c") = Ok (o, []) /\ card_to_mcnp k_F_2 o = L "f5x:n  ".
Proof. eexists. split; vm_compute; reflexivity. Qed.
Print Assumptions C25_rings_refuted.
