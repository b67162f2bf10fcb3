(** Specification vocabulary for INP files, continued: the cards that are made of
    proper values. *)

From Coq Require Import Ascii String NArith ZArith Bool Arith List.
From Verif Require Import PyStr Types TypesSpec CardText CardTextSpec PyNum Cards Tables CardsSpec Geometry Numbered Problem InpFile InpSpec.
Import ListNotations.
Open Scope char_scope.
Open Scope list_scope.

(** A reader of cards looks only at the text as the text layer gives it. *)
Definition through_layer {A} (rd : str -> A) : Prop := forall s s', card_preprocess s = card_preprocess s' -> rd s = rd s'.

(** A line without blanks at its end, one blank between its words, shows only itself. *)
Definition settled (r : row) : Prop := row_text r = join [sp] (row_words r) /\ r_tail r = [].

(** The classes that share texts with an earlier one. *)
Definition ambiguous_cards : list string := ["Df_1"; "Ds_3"; "F_4"; "Phys_4"; "Si_1"; "Si_2"; "Tf_1"; "Tr_2"]%string.

(** A card of the data block: a comment of plain words, or an object of a data card
    class of regular form made of proper values. *)
Definition plain_remark (c : remarked) : Prop := exists ws, ws <> [] /\ Forall plain_word ws /\ c = (CComment (Some (join [sp] ws)), []).

Definition plain_data (c : remarked) : Prop := exists k f vs o,
  In (Known k) data_entries /\ ~ In (c_name k) ambiguous_cards /\ has_form k f /\ c_kind k = KCard /\ values_ok f vs /\
  construct ext fam k (map to_arg vs) = Ok o /\ length (head_text (c_kw k) (texts o)) <= 78 /\ c = (CData k o, []).

Definition comes_back (rd : str -> result remarked) (c : remarked) : Prop := forall t, card_text (fst c) = Ok t -> (exists r, row_ok r /\ row_text r = t) /\ rd t = Ok c.

Definition int_val (z : Z) : val := VInt (IVal z).

(** A surface made from an option of regular form, a number, and perhaps a
    transformation and a prefix. *)
Definition plain_surface (c : remarked) : Prop :=
  exists p z t k f vs o m m' s,
    In k f_surface_SurfaceOption /\ has_form k f /\ values_ok f vs /\ construct ext fam k (map to_arg vs) = Ok o /\
    (p = None \/ p = Some "+" \/ p = Some "*") /\ int_seq (IVal z) = true /\ length (str_of_Z z) <= 76 /\
    (forall x, t = Some x -> int_seq (IVal x) = true) /\
    surf_new m {| sa_option := AVal (obj_val k o); sa_number := AVal (int_val z); sa_transform := to_arg (option_map int_val t);
                  sa_prefix := to_arg (option_map (fun x => VStr [x]) p) |} = (m', Ok s) /\
    c = (CSurface s, []).
