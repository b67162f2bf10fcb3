(** C27: the layout of the texts a class reads, and the pieces of a text laid out so. *)

From Coq Require Import Ascii String NArith ZArith Bool Arith List.
From Verif Require Import PyStr Regex RegexParse PyNum Types CardText Cards Tables Numbered.
Import ListNotations.
Open Scope list_scope.

(** A layout: fixed letters, places for pieces, parts that may be absent. *)
Inductive layout := Nothing | Letter (c : ascii) | Piece | Then (a b : layout) | Maybe (a : layout).
Fixpoint places (l : layout) : nat :=
  match l with Piece => 1 | Then a b => places a + places b | Maybe a => places a | _ => 0 end.

(** [follows l s gs]: the text [s] is laid out as [l], with [gs] in the places, from left to right ([None] in
    a place of an absent part). Fixed letters may be of either case. *)
Inductive follows : layout -> str -> list (option str) -> Prop :=
| f_nothing : follows Nothing [] []
| f_letter c x : lower x = c -> follows (Letter c) [x] []
| f_piece g : follows Piece g [Some g]
| f_then a b s t gs hs : follows a s gs -> follows b t hs -> follows (Then a b) (s ++ t) (gs ++ hs)
| f_absent a : follows (Maybe a) [] (repeat None (places a))
| f_present a s gs : follows a s gs -> follows (Maybe a) s gs.

(** The layout of a pattern: its outermost groups are the places, optional parts are the parts that may be
    absent, all else is fixed letters. Other patterns have none. *)
Definition all_letters : str := Eval vm_compute in map ascii_of_nat (seq 0 256).
Definition letters (cs : cset) : str := filter (inset cs) all_letters.
Definition letter_of (cs : cset) : option ascii :=
  match letters cs with
  | c :: l => if forallb (fun d => ceqb (lower c) (lower d)) l then Some (lower c) else None
  | [] => None
  end.
Fixpoint layout_of (r : re) : option layout :=
  match r with
  | REps | RBeg | REnd => Some Nothing
  | RSet cs => match letter_of cs with Some c => Some (Letter c) | None => None end
  | RCat a b =>
      match layout_of a with
      | Some x => match layout_of b with Some y => Some (Then x y) | None => None end
      | None => None
      end
  | RRep _ 0 (Some 1) a => match layout_of a with Some x => Some (Maybe x) | None => None end
  | RGrp _ _ => Some Piece
  | _ => None
  end.
Definition class_layout (c : cls) : layout := match layout_of (compile true (c_pat c)) with Some l => l | None => Nothing end.

(** The modelled classes: those of Tables.v and the materials. *)
Definition classes : list cls := k_M_0 :: all_classes.
(** In these the group of one piece has groups inside it, and the pieces after it are not read. *)
Definition shifted : list string := ["M_0"; "Fmult"; "ds_2_Variables"; "pikmt_Photonbias"]%string.

(** What a layout looks like, [#] for a place. *)
Fixpoint show (l : layout) : str :=
  match l with Nothing => [] | Letter c => [c] | Piece => L "#" | Then a b => show a ++ show b | Maybe a => show a end.
(** What the generic writer (_card.py:37-57, _option.py:41-57) writes when all attributes are set. *)
Definition full_text (c : cls) : str :=
  let l := map (fun a => (a_name a, Some (L "#"))) (c_attrs c) in
  head_text (c_kw c) l ++ concat (flat_map (fun x => if head_attr (fst x) then [] else [L "#"]) l).
(** The classes whose texts are laid out otherwise: most have their blanks outside the pieces. *)
Definition other_layouts : list (string * string) :=
  [("act_dneb_Bias", "# #"); ("act_dgeb_Bias", "# #"); ("dd_Diagnostic", "# #"); ("ds_1_Variables", "# #"); ("Ds_1", "ds# t#");
   ("ds_2_Variables", "# #"); ("Ds_2", "ds# q#"); ("Ds_3", "ds# s#"); ("dxt_Shell", "# # # # #"); ("embed_matcell_Entry", "# #");
   ("f_1_Sphere", "# # # #"); ("f_2_Ring", "# # #"); ("F_2", "#f##:###"); ("files_File", "# # # # #"); ("fmesh_Geom", "geom #");
   ("Fu", "fu## # #"); ("ksrc_Location", "# # #"); ("mplot_File", "file #"); ("mplot_Reset", "reset #");
   ("Phys_2", "phys:e # # # # # # # # # # # # # # #"); ("pikmt_Photonbias", "# #"); ("ptrac_File", "file #"); ("ptrac_Write", "write #");
   ("ptrac_Conic", "conic #"); ("ptrac_filter_Entry", "#,#,#"); ("uran_Stochastic", "# # # #"); ("Vol", "vol ##");
   ("cell_Fill_0", "#fill # # ## (#)"); ("like_Fill_0", "#fill # # ## (#)")]%string.

(** One text lies inside another. *)
Definition inside (x s : str) : Prop := exists u v, s = u ++ x ++ v.

(** Every part that may be absent has a place that is always taken when it is present. *)
Fixpoint firm (l : layout) : bool := match l with Piece => true | Then a b => if firm a then true else firm b | _ => false end.
Fixpoint settled (l : layout) : bool :=
  match l with Then a b => if settled a then settled b else false | Maybe a => if firm a then settled a else false | _ => true end.

(** The object whose attributes are read, one by one, from the texts [gs]. *)
Definition from_pieces (ext : string -> str -> result val) (fam : string -> list cls) (c : cls) (gs : list (option str)) (o : obj) : Prop := exists vs,
  Forall2 (fun x v => read_attr ext (a_ty (fst x)) (snd x) = Ok v) (combine (c_attrs c) gs) vs /\ construct ext fam c (map to_arg vs) = Ok o.
(** The same, but the last attribute from a text inside the piece before the last. *)
Definition from_wrong_pieces (ext : string -> str -> result val) (fam : string -> list cls) (c : cls) (gs : list (option str)) (o : obj) : Prop :=
  exists before prev last x, gs = before ++ [prev; last] /\ from_pieces ext fam c (before ++ [prev; x]) o /\
    forall y, x = Some y -> exists p, prev = Some p /\ inside y p.
