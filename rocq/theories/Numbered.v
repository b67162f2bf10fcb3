(** The numbered cards: cells (/repo/src/pymcnp/inp/Cell.py), surfaces
    (inp/Surface.py) and materials (inp/M_0.py), with their automatic numbers. *)

From Coq Require Import Ascii String NArith ZArith Bool Arith List.
From Verif Require Import PyStr Regex RegexParse PyNum Types CardText Cards Tables Geometry.
Import ListNotations.
Open Scope list_scope.

(** * Automatic numbers *)

(** [NUMBER = iter(range(1, 100000000))] (Cell.py:12, Surface.py:10, M_0.py:12), one
    for each of the three modules, shared by all objects of the process; a counter
    is the number it gives next. *)
Definition first_number : Z := 1.
Definition next_number (n : Z) : option (Z * Z) :=
  if (n <? 100000000)%Z then Some (n, (n + 1)%Z) else None.
(** [if number is None: number = next(NUMBER)] (Cell.py:52-53, Surface.py:52-53,
    M_0.py:45-46): the argument for the setter, and the counter afterwards. *)
Definition take_number (n : Z) (a : arg) : Z * result arg :=
  match a with
  | ANone => match next_number n with
             | Some (z, n') => (n', Ok (AInt z))
             | None => (n, Py StopIteration)
             end
  | _ => (n, Ok a)
  end.

(** * Cells *)

(** A geometry as stored in a cell: a tree, or the text that [Geometry(str(...))]
    wraps when a surface is given (Cell.py:226-227). *)
Inductive cgeo := CTree (g : geo) | CText (s : str).
Record cellobj := mkcell { ce_number : option val; ce_material : option val; ce_density : option val;
                           ce_geometry : option cgeo; ce_options : option val }.

(** Arguments for [material]: also a material card, given by its suffix. *)
Inductive marg := MArg (a : arg) | MCard (suffix : option val).
(** Arguments for [geometry]: nothing, a text, a geometry, a surface (its number). *)
Inductive garg := GNone | GStr (s : str) | GGeo (g : cgeo) | GSurf (number : option val).
Definition write_opt (v : option val) : str := match v with Some v => write v | None => L "None" end.

(** Cell.py:118: [number is None or not (1 <= number <= 99_999_999)]; the same test
    with 0 for [material] (Cell.py:154). *)
Definition range_test (lo hi : Z) : bexp :=
  BOr (BIsNone EX) (BNot (BAnd (BCmp OLe (EZ lo) EX) (BCmp OLe EX (EZ hi)))).
(** Cell.py:190. *)
Definition density_test : bexp :=
  BOr (BAnd (BNot (BIsNone EX)) (BCmp OEq (ESelf "material") (EZ 0)))
      (BAnd (BIsNone EX) (BCmp ONe (ESelf "material") (EZ 0))).

(** Assignments to the attributes of a cell. *)
Inductive cellset := SNumber (a : arg) | SMaterial (a : marg) | SDensity (a : arg) | SGeometry (a : garg) | SOptions (a : arg).

Definition cell_tail {A} (c : cellobj) (r : result A) (f : A -> cellobj) : cellobj * result unit :=
  match r with Ok x => (f x, Ok tt) | Lib e => (c, Lib e) | Py e => (c, Py e) end.
Definition checked (o : obj) (l : list bexp) (r : result (option val)) : result (option val) :=
  bind r (fun x => bind (run_checks o x l) (fun _ => Ok x)).
(** The setters: Cell.py:96-121 ([number]), 132-157 ([material]), 168-193 ([density]),
    204-234 ([geometry]), 245-276 ([options]). *)
Definition cell_set (s : cellset) (c : cellobj) : cellobj * result unit :=
  let '(mkcell n m d g o) := c in
  match s with
  | SNumber a => cell_tail c (checked [] [range_test 1 99999999] (conv ext fam (One TInt) a)) (fun x => mkcell x m d g o)
  | SMaterial a =>
      cell_tail c (checked [] [range_test 0 99999999] (match a with MArg a => conv ext fam (One TInt) a | MCard s => Ok s end))
        (fun x => mkcell n x d g o)
  | SDensity a => cell_tail c (checked [("material"%string, m)] [density_test] (conv ext fam (One TReal) a)) (fun x => mkcell n m x g o)
  | SGeometry a =>
      cell_tail c (match a with
                   | GNone => Lib InpError
                   | GStr s => bind (geo_from_mcnp s) (fun t => Ok (CTree t))
                   | GGeo t => Ok t
                   | GSurf x => Ok (CText (write_opt x))
                   end) (fun x => mkcell n m d (Some x) o)
  | SOptions a => cell_tail c (conv ext fam (Tup (TExt "cell_CellOption" pat_cell_CellOption)) a) (fun x => mkcell n m d g x)
  end.

(** Assignments one after the other; the first that raises ends it. *)
Fixpoint cell_sets (l : list cellset) (c : cellobj) : result cellobj :=
  match l with
  | [] => Ok c
  | s :: l' => match cell_set s c with
               | (c', Ok _) => cell_sets l' c'
               | (_, Lib e) => Lib e
               | (_, Py e) => Py e
               end
  end.
(** [Cell.__init__] (Cell.py:29-60), with the counter before and after. *)
Record cellargs := { ca_number : arg; ca_material : marg; ca_density : arg; ca_geometry : garg; ca_options : arg }.
Definition cell_new (n : Z) (a : cellargs) : Z * result cellobj :=
  let '(n', r) := take_number n (ca_number a) in
  (n', bind r (fun num =>
       cell_sets [SNumber num; SMaterial (ca_material a); SDensity (ca_density a); SGeometry (ca_geometry a); SOptions (ca_options a)]
         (mkcell None None None None None))).

(** [str(x)] and [f'{x if x is not None else ""}']. *)
Definition or_empty (v : option val) : str := match v with Some v => write v | None => [] end.
(** [Cell.to_mcnp] (Cell.py:62-73).  A geometry that wraps a text has no
    [to_mcnp]: AttributeError. *)
Definition cell_to_mcnp (c : cellobj) : result str :=
  match ce_geometry c with
  | Some (CTree g) =>
      Ok (postprocess (write_opt (ce_number c) ++ [sp] ++ write_opt (ce_material c) ++ [sp] ++ or_empty (ce_density c) ++ [sp]
                       ++ geo_to_mcnp g ++ [sp] ++ or_empty (ce_options c)))
  | Some (CText _) => Py AttributeError
  | None => Py AttributeError
  end.

(** * Surfaces *)

Record surfobj := mksurf { su_prefix : option val; su_number : option val; su_transform : option val; su_option : option val }.
(** Surface.py:174: the condition is [(1 <= number <= 99_999_999) if not self.transform else 999]. *)
Definition surface_number_test : bexp :=
  BOr (BIsNone EX) (BNot (BIte (BNot (BTruth (ESelf "transform"))) (BAnd (BCmp OLe (EZ 1) EX) (BCmp OLe EX (EZ 99999999))) (BConst true))).
(** Surface.py:208. *)
Definition transform_test : bexp :=
  BAnd (BNot (BIsNone EX)) (BNot (BAnd (BCmp OLe (EZ 0) EX) (BCmp OLe EX (EZ 999)))).
(** Surface.py:282. *)
Definition prefix_test : bexp :=
  BAnd (BNot (BIsNone EX)) (BNot (BIn (ELower EX) [ES (L "*"); ES (L "+")])).
Inductive surfset := UNumber (a : arg) | UTransform (a : arg) | UOption (a : arg) | UPrefix (a : arg).
Definition surf_tail {A} (c : surfobj) (r : result A) (f : A -> surfobj) : surfobj * result unit :=
  match r with Ok x => (f x, Ok tt) | Lib e => (c, Lib e) | Py e => (c, Py e) end.
(** The setters: Surface.py:153-177, 188-211, 222-244, 255-285. *)
Definition surf_set (s : surfset) (c : surfobj) : surfobj * result unit :=
  let '(mksurf p n t o) := c in
  match s with
  | UNumber a => surf_tail c (checked [("transform"%string, t)] [surface_number_test] (conv ext fam (One TInt) a)) (fun x => mksurf p x t o)
  | UTransform a => surf_tail c (checked [] [transform_test] (conv ext fam (One TInt) a)) (fun x => mksurf p n x o)
  | UOption a => surf_tail c (checked [] [BIsNone EX] (conv ext fam (One (TExt "surface_SurfaceOption" pat_surface_SurfaceOption)) a)) (fun x => mksurf p n t x)
  | UPrefix a => surf_tail c (checked [] [prefix_test] (conv ext fam (One TStr) a)) (fun x => mksurf x n t o)
  end.
Fixpoint surf_sets (l : list surfset) (c : surfobj) : result surfobj :=
  match l with
  | [] => Ok c
  | s :: l' => match surf_set s c with
               | (c', Ok _) => surf_sets l' c'
               | (_, Lib e) => Lib e
               | (_, Py e) => Py e
               end
  end.
(** [Surface.__init__] (Surface.py:27-58). *)
Record surfargs := { sa_option : arg; sa_number : arg; sa_transform : arg; sa_prefix : arg }.
Definition surf_new (n : Z) (a : surfargs) : Z * result surfobj :=
  let '(n', r) := take_number n (sa_number a) in
  (n', bind r (fun num =>
       surf_sets [UTransform (sa_transform a); UNumber num; UOption (sa_option a); UPrefix (sa_prefix a)] (mksurf None None None None))).
(** [Surface.to_mcnp] (Surface.py:60-71). *)
Definition surf_to_mcnp (c : surfobj) : str :=
  postprocess (or_empty (su_prefix c) ++ write_opt (su_number c) ++ [sp] ++ or_empty (su_transform c) ++ [sp] ++ write_opt (su_option c)).
(** The operators (Surface.py:83-137). *)
Definition surf_and (a b : surfobj) : result geo := geo_from_mcnp (write_opt (su_number a) ++ L ":" ++ write_opt (su_number b)).
Definition surf_or (a b : surfobj) : result geo := geo_from_mcnp (write_opt (su_number a) ++ [sp] ++ write_opt (su_number b)).
Definition surf_neg (a : surfobj) : result geo := geo_from_mcnp (L "-" ++ write_opt (su_number a)).
Definition surf_pos (a : surfobj) : result geo := geo_from_mcnp (L "+" ++ write_opt (su_number a)).
Definition surf_inv (a : surfobj) : result geo := geo_from_mcnp (L "#" ++ write_opt (su_number a)).

(** * Materials *)

(** M_0.py:15-27, 57-160. *)
Definition k_M_0 : cls :=
  {| c_name := "M_0"; c_kind := KCard; c_kw := L "m";
     c_pat := L "\Am(\d+)((?: " ++ slice 2 2 pat_substance ++ L ")+?)((?: (?:" ++ slice 2 2 pat_m_0_MOption_0 ++ L "))+?)?\Z";
     c_attrs := [{| a_name := "suffix"; a_ty := One TInt; a_checks := [BIsNone EX] |};
                 {| a_name := "substances"; a_ty := Tup TSub; a_checks := [BIsNone EX] |};
                 {| a_name := "options"; a_ty := Tup (TExt "m_0_MOption_0" pat_m_0_MOption_0); a_checks := [] |}] |}.
(** [M_0.__init__] (M_0.py:29-50). *)
Definition mat_new (n : Z) (substances suffix options : arg) : Z * result obj :=
  let '(n', r) := take_number n suffix in
  (n', bind r (fun x => construct ext fam k_M_0 [x; substances; options])).
