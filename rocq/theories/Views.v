(** Model of what is drawn of a problem, and of the command that draws it:
    /repo/src/pymcnp/Visualize.py and /repo/src/pymcnp/_cli/visualize.py, after docopt has
    read the arguments and outside of pytest.  The plotter, the grid and the meshes are not
    modelled: a picture is the numbers and the shapes drawn, in order. *)

From Coq Require Import Ascii String NArith ZArith Bool List.
From Verif Require Import PyStr PyNum Geometry Visualize Cli Commands.
Import ListNotations.

(** Python's [int] of a text: spaces around it, a sign, digits, and single underscores
    between digits.  ASCII only; the limit on the number of digits is left out. *)
Definition no_underscore (t : str) : str := match t with "_" :: u => u | _ => t end%char.
Fixpoint int_digits (s : str) : option str :=
  match s with
  | [] => None
  | [c] => if is_digit c then Some [c] else None
  | c :: t =>
      if is_digit c then
        match int_digits (no_underscore t) with Some d => Some (c :: d) | None => None end
      else None
  end.
Definition py_int (s : str) : result Z :=
  let '(neg, t) := match strip s with
                   | "-" :: t => (true, t)
                   | "+" :: t => (false, t)
                   | t => (false, t)
                   end%char in
  match int_digits t with
  | Some d => Ok (if neg then - Z.of_N (N_of_digits d) else Z.of_N (N_of_digits d))%Z
  | None => Py ValueError
  end.

Section Views.
  Variable P : Type.
  (** [inpt.surfaces]: the number of each, as a text, and what [surface.to_show()] gives
      (Shapes.v); comments are left out. *)
  Definition surfs := list (str * result (shape P)).
  Definition picture := list (str * shape P).

  (** Visualize.py:60 and 109: every surface is shown; later ones replace earlier ones. *)
  Definition dict_of (l : surfs) : result (dict P) :=
    bind (mapM (fun x => bind (snd x) (fun f => Ok (fst x, f))) l) (fun d => Ok (surface_dict d)).

  (** [cell.number in skip], with the equality of Integer and int (types/Integer.py);
      the number of a cell is the text of an integer. *)
  Definition skips (skip : list Z) (n : str) : bool := existsb (fun z => seqb n (str_of_Z z)) skip.
  (** [str(cell.number) in number] *)
  Definition names (number : list str) (n : str) : bool := existsb (seqb n) number.

  (** The shape of an entry, Visualize.py:64-67 and 113-116; [None] for what is neither a
      cell nor like one. *)
  Definition shape_of (surfaces cells : dict P) (e : entry) : option (str * result (shape P)) :=
    match e with
    | ECell n g => Some (n, to_show P (lookup_dict surfaces) (lookup_dict cells) g)
    | ELike n m => Some (n, match lookup_dict cells m with Some f => Ok f | None => Py KeyError end)
    | EOther => None
    end.
  Definition number_of (e : entry) : str := match e with ECell n _ | ELike n _ => n | EOther => [] end.

  (** The loop of to_show_cells, Visualize.py:63-76: what is skipped is not built.  The grid
      (73-75) draws all surfaces again, which did not fail before. *)
  Fixpoint draw_but (skip : list Z) (surfaces : dict P) (l : list entry) (cells : dict P) : result picture :=
    match l with
    | [] => Ok []
    | e :: l' =>
        match (if skips skip (number_of e) then None else shape_of surfaces cells e) with
        | None => draw_but skip surfaces l' cells
        | Some (n, r) => bind r (fun f => bind (draw_but skip surfaces l' ((n, f) :: cells)) (fun out => Ok ((n, f) :: out)))
        end
    end.
  (** The loop of to_show_cell, 112-128: what is not listed is built and not drawn. *)
  Fixpoint draw_only (number : list str) (surfaces : dict P) (l : list entry) (cells : dict P) : result picture :=
    match l with
    | [] => Ok []
    | e :: l' =>
        match shape_of surfaces cells e with
        | None => draw_only number surfaces l' cells
        | Some (n, r) =>
            bind r (fun f => bind (draw_only number surfaces l' ((n, f) :: cells)) (fun out =>
              Ok (if names number n then (n, f) :: out else out)))
        end
    end.
  (** Visualize.py:52-78 *)
  Definition to_show_cells (skip : list Z) (s : surfs) (l : list entry) : result picture :=
    bind (dict_of s) (fun d => draw_but skip d l []).
  (** 98-130 *)
  Definition to_show_cell (number : list str) (s : surfs) (l : list entry) : result picture :=
    bind (dict_of s) (fun d => draw_only number d l []).
  (** 80-96 *)
  Definition to_show_surfaces (skip : list Z) (s : surfs) : result picture :=
    mapM (fun x => bind (snd x) (fun f => Ok (fst x, f))) (filter (fun x => negb (skips skip (fst x))) s).
  (** 132-152 *)
  Definition to_show_surface (number : list str) (s : surfs) : result picture :=
    mapM (fun x => bind (snd x) (fun f => Ok (fst x, f))) (filter (fun x => names number (fst x)) s).

  (** What the command does: a window, or a PDF file. *)
  Inductive view := Window (p : picture) | Pdf (path : str) (p : picture).
  (** The arguments (visualize.py:1-13, 34).  An option with a value may be repeated and is
      the list of its values. *)
  Record args := { cells : bool; surfaces : bool; cells_skip : list str; surfaces_skip : list str; cell : list str; surface : list str; pdf : bool }.

  (** Statements one after the other, up to the first that raises. *)
  Definition seen := (list view * result unit)%type.
  Definition then_ (x y : seen) : seen := match snd x with Ok _ => (fst x ++ fst y, snd y) | _ => x end.
  Definition each {A} (f : A -> seen) (l : list A) : seen := fold_right (fun a r => then_ (f a) r) ([], Ok tt) l.
  Definition raised {A} (r : result A) (k : A -> seen) : seen :=
    match r with Ok x => k x | Lib e => ([], Lib e) | Py e => ([], Py e) end.
  Definition window (p : result picture) : seen := raised p (fun x => ([Window x], Ok tt)).
  (** The path is computed before the picture; then [save_graphic] (Visualize.py:162-165). *)
  Definition save (path : result str) (p : result picture) : seen :=
    raised path (fun f => raised p (fun x => ([Pdf f x], Ok tt))).
  (** [str] of a list of texts without quotes and backslashes. *)
  Definition list_text (l : list str) : str := L "[" ++ join (L ", ") (map (fun s => L "'" ++ s ++ L "'") l) ++ L "]".

  Section Main.
    Variable file : str.
    Variables (s : surfs) (l : list entry).
    Definition out_pdf (i : str) : result str := get_outfile file (L "pdf") (Some i).
    Definition ints (t : str) : result (list Z) := mapM py_int (split_on "," t).

    (** visualize.py:57-64, 66-73 *)
    Definition all_cells (p : bool) : seen :=
      if p then save (out_pdf (L "cells")) (to_show_cells [] s l) else window (to_show_cells [] s l).
    Definition all_surfaces (p : bool) : seen :=
      if p then save (out_pdf (L "surfaces")) (to_show_surfaces [] s) else window (to_show_surfaces [] s).
    (** 75-84, 86-95: the PDF files do not see the numbers. *)
    Definition cells_but (p : bool) (t : str) : seen :=
      raised (ints t) (fun n => if p then save (out_pdf (L "cells")) (to_show_cells [] s l) else window (to_show_cells n s l)).
    Definition surfaces_but (p : bool) (t : str) : seen :=
      raised (ints t) (fun n => if p then save (out_pdf (L "surfaces")) (to_show_surfaces [] s) else window (to_show_surfaces n s)).
    (** 97-106: with [--pdf] no [plot] was ever assigned. *)
    Definition these_cells (p : bool) (t : str) : seen :=
      let number := split_on "," t in
      if p then then_ (save (out_pdf (L "cell_" ++ list_text number)) (to_show_cell number s l)) ([], Py UnboundLocalError)
      else window (to_show_cell number s l).
    (** 108-117: [to_pdf_cells] takes one argument. *)
    Definition these_surfaces (p : bool) (t : str) : seen :=
      let number := split_on "," t in
      if p then raised (out_pdf (L "surface_" ++ list_text number)) (fun _ => ([], Py TypeError))
      else window (to_show_surface number s).

    Definition none {A} (l : list A) : bool := match l with [] => true | _ => false end.
    (** 51-53 *)
    Definition nothing (a : args) : bool :=
      negb (cells a) && negb (surfaces a) && none (cells_skip a) && none (surfaces_skip a) && none (cell a) && none (surface a).
    (** 51-117 *)
    Definition views (a : args) : seen :=
      then_ (if cells a || nothing a then all_cells (pdf a) else ([], Ok tt))
     (then_ (if surfaces a || nothing a then all_surfaces (pdf a) else ([], Ok tt))
     (then_ (each (cells_but (pdf a)) (cells_skip a))
     (then_ (each (surfaces_but (pdf a)) (surfaces_skip a))
     (then_ (each (these_cells (pdf a)) (cell a))
            (each (these_surfaces (pdf a)) (surface a)))))).
  End Main.

  (** visualize.py:26-122.  [problem] is the outcome of reading the file (37-39). *)
  Definition visualize_main (file : str) (problem : result (surfs * list entry)) (a : args) : list view * shown :=
    match problem with
    | Ok (s, l) =>
        let '(acts, r) := views file s l a in
        (acts, command (match r with Lib TypesError => stop TypesError 3 | r => bare r (fun _ => finish) end))
    | r => ([], command (guarded r (fun _ => finish)))
    end.
End Views.
Arguments to_show_cells {P}.
Arguments to_show_cell {P}.
Arguments to_show_surfaces {P}.
Arguments to_show_surface {P}.
Arguments Window {P}.
Arguments Pdf {P}.
Arguments visualize_main {P}.
