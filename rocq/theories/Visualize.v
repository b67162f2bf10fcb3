(** Model of the loop that draws the cells of a problem: /repo/src/pymcnp/Visualize.py.
    The plotter, the grid and the meshes are not modelled: drawing a cell is recording
    its number and its shape. *)

From Coq Require Import Ascii String Bool List.
From Verif Require Import PyStr Geometry.
Import ListNotations.

Section Draw.
  Variable P : Type.

  (** The entries of [inpt.cells]: Cell (number and geometry), Like (number and the
      cell it is like), or anything else, which is skipped.  A number is the text
      [str(cell.number)]. *)
  Inductive entry := ECell (number : str) (geometry : geo) | ELike (number cell : str) | EOther.

  (** A dictionary as the list of its assignments, the latest first. *)
  Definition dict := list (str * shape P).
  Fixpoint lookup_dict (d : dict) (k : str) : option (shape P) :=
    match d with
    | [] => None
    | (k', v) :: d' => if seqb k k' then Some v else lookup_dict d' k
    end.

  (** The loop of Visualize.to_show_cells, Visualize.py:63-76, with nothing skipped;
      the same as that of to_show_cell, 112-128, for all numbers.  The outcome is the
      drawn cells in order, before the exception if there is one.  Cell.to_show is
      inp/Cell.py:74-86. *)
  Fixpoint draw (surfaces : dict) (l : list entry) (cells : dict) : list (str * shape P) * result unit :=
    match l with
    | [] => ([], Ok tt)
    | EOther :: l' => draw surfaces l' cells
    | ECell n g :: l' =>
        match to_show P (lookup_dict surfaces) (lookup_dict cells) g with
        | Ok f => let (out, r) := draw surfaces l' ((n, f) :: cells) in ((n, f) :: out, r)
        | Lib e => ([], Lib e)
        | Py e => ([], Py e)
        end
    | ELike n m :: l' =>
        match lookup_dict cells m with
        | Some f => let (out, r) := draw surfaces l' ((n, f) :: cells) in ((n, f) :: out, r)
        | None => ([], Py KeyError)
        end
    end.

  (** Visualize.py:60: later surfaces replace earlier ones of the same number. *)
  Definition surface_dict (l : list (str * shape P)) : dict := rev l.

  (** Visualize.to_show_cells, Visualize.py:52-78 *)
  Definition show_cells (surfaces : list (str * shape P)) (l : list entry) : list (str * shape P) * result unit :=
    draw (surface_dict surfaces) l [].
End Draw.
Arguments lookup_dict {P}.
Arguments draw {P}.
Arguments surface_dict {P}.
Arguments show_cells {P}.
