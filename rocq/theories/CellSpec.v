(** Specification vocabulary for cells. *)

From Coq Require Import Ascii String NArith ZArith Bool Arith List.
From Verif Require Import PyStr Types TypesSpec CardText CardTextSpec PyNum Cards Tables CardsSpec Geometry GeometrySpec Numbered Problem InpFile InpSpec InpSpec2 OptSpec.
Import ListNotations.
Open Scope char_scope.
Open Scope list_scope.

(** No line of the text is empty, or of blanks only. *)
Definition no_blank_line (t : str) : Prop := Forall (fun l => strip l <> []) (split_on nl t).

(** Options, or none. *)
Definition options_in (cs : list cls) (os : option (list val)) : Prop :=
  match os with Some l => l <> [] /\ Forall (plain_option cs) l | None => True end.

(** A cell made from two numbers, perhaps a density, a geometry that is read as it
    is written, and perhaps options.  If it has no options, its text has no blank
    line. *)
Definition plain_cell (c : remarked) : Prop :=
  exists z m d g os j j' k,
    int_seq (IVal z) = true /\ length (str_of_Z z) <= 75 /\ int_seq (IVal m) = true /\
    (forall x, d = Some x -> real_seq x = true) /\ readable g /\ options_in f_cell_CellOption os /\
    cell_new j {| ca_number := AVal (int_val z); ca_material := MArg (AVal (int_val m)); ca_density := to_arg (option_map VReal d);
                  ca_geometry := GGeo (CTree g); ca_options := to_arg (option_map VTup os) |} = (j', Ok k) /\
    (os = None -> forall t, cell_to_mcnp k = Ok t -> no_blank_line t) /\
    c = (CCell k, []).

(** A cell that is like another one but for some options. *)
Definition plain_like (c : remarked) : Prop :=
  exists z m os o,
    int_seq (IVal z) = true /\ length (str_of_Z z) <= 78 /\ int_seq (IVal m) = true /\ options_in f_like_LikeOption os /\
    construct ext fam k_Like [AVal (int_val z); AVal (int_val m); to_arg (option_map VTup os)] = Ok o /\
    (os = None -> no_blank_line (like_to_mcnp o)) /\
    c = (CLike o, []).

(** A cell, or a cell like another one, that has options. *)
Definition with_options (c : remarked) : Prop :=
  match fst c with CCell k => ce_options k <> None | CLike o => attr_of "options" o <> None | _ => False end.

(** The cards that C71 is proved for. *)
Definition unbroken (c : remarked) : Prop :=
  plain_remark c \/ ((plain_cell c \/ plain_like c) /\ with_options c) \/ plain_surface c \/ plain_data c \/ listed_data c.

(** The blocks of a text, as MCNP counts them: a blank line ends a block. *)
Fixpoint blocks (ls : list str) : list (list str) :=
  match ls with
  | [] => [[]]
  | l :: ls => match strip l with
               | [] => [] :: blocks ls
               | _ => match blocks ls with b :: bs => (l :: b) :: bs | [] => [[l]] end
               end
  end.
Definition lines (t : str) : list str := split_on nl t.
