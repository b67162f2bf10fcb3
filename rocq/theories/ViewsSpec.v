(** What the command that draws a problem is asked for. *)

From Coq Require Import Ascii String NArith ZArith Bool List.
From Verif Require Import PyStr PyNum Geometry GeometrySpec Visualize VisualizeSpec Cli Commands CommandsSpec Views.
Import ListNotations.

(** A wish: cells or surfaces, and which numbers of them. *)
Inductive wish := Cells (which : str -> Prop) | Surfaces (which : str -> Prop).
Definition any (n : str) : Prop := True.
(** [a,b,c] as numbers. *)
Definition listed (t : str) (n : str) : Prop := In n (split_on "," t).
(** [t] is the numbers [ns], separated by commas, in their plain spelling. *)
Definition numbers (t : str) (ns : list Z) : Prop := ns <> [] /\ t = join (L ",") (map str_of_Z ns).
Definition among (ns : list Z) (n : str) : Prop := In n (map str_of_Z ns).

(** The wishes of the arguments, in order; all cells and all surfaces if there are none. *)
Definition wishes (a : args) (cs ss : list (list Z)) : list wish :=
  let asked :=
    (if cells a then [Cells any] else []) ++ (if surfaces a then [Surfaces any] else []) ++
    map (fun ns => Cells (fun n => ~ among ns n)) cs ++ map (fun ns => Surfaces (fun n => ~ among ns n)) ss ++
    map (fun t => Cells (listed t)) (cell a) ++ map (fun t => Surfaces (listed t)) (surface a) in
  match asked with [] => [Cells any; Surfaces any] | _ => asked end.

Section Asked.
  Variable P : Type.
  (** What was wished for, in a window or in a file: the cells of the problem as point sets
      (C60), or its surfaces; those of the right numbers, in order. *)
  Definition granted (frame : wish -> picture P -> view P) (s : list (str * shape P)) (l : list entry) (w : wish) (v : view P) : Prop :=
    exists pic, v = frame w pic /\
    match w with
    | Cells which => exists all, sets P (surf_of P s) l [] all /\ picked (fun x => which (fst x)) all (map (set_of P) pic)
    | Surfaces which => picked (fun x => which (fst x)) s pic
    end.
  Definition in_window (w : wish) (p : picture P) : view P := Window p.
  Definition in_file (base : str) (w : wish) (p : picture P) : view P :=
    Pdf (base ++ match w with Cells _ => L "-cells.pdf" | Surfaces _ => L "-surfaces.pdf" end) p.
  (** The surfaces, none of which fails to be shown. *)
  Definition shown_all (s : list (str * shape P)) : surfs P := map (fun x => (fst x, Ok (snd x))) s.
End Asked.

(** No cell that is left is like one that is skipped. *)
Definition closed (ns : list Z) (l : list entry) : Prop :=
  forall n m, In (ELike n m) l -> ~ among ns n -> ~ among ns m.

(** The arguments of one option. *)
Definition plain_args (p : bool) : args := Build_args false false [] [] [] [] p.
Definition args_cells (p : bool) : args := Build_args true false [] [] [] [] p.
Definition args_surfaces (p : bool) : args := Build_args false true [] [] [] [] p.
Definition args_cells_skip (t : str) (p : bool) : args := Build_args false false [t] [] [] [] p.
Definition args_surfaces_skip (t : str) (p : bool) : args := Build_args false false [] [t] [] [] p.
Definition args_cell (t : str) (p : bool) : args := Build_args false false [] [] [t] [] p.
Definition args_surface (t : str) (p : bool) : args := Build_args false false [] [] [] [t] p.
