(** Vocabulary for the properties of cells, surfaces, materials and their numbers. *)

From Coq Require Import Ascii String NArith ZArith QArith Bool List.
From Verif Require Import PyStr PyNum Types Cards Tables ConstraintsSpec Geometry Numbered.
Import ListNotations.
Open Scope list_scope.

(** The value is a number between [lo] and [hi]. *)
Definition in_range (lo hi : Z) (v : option val) : Prop :=
  exists q, meant v = Some (TQ q) /\ (inject_Z lo <= q <= inject_Z hi)%Q.
Definition is_zero (v : option val) : Prop := exists q, meant v = Some (TQ q) /\ (q == 0)%Q.

(** * Cells *)

(** A void cell has material 0. *)
Definition void (c : cellobj) : Prop := is_zero (ce_material c).
Definition has_density (c : cellobj) : Prop := ce_density c <> None.
(** The cells a caller can have: built, then assigned to, whether or not an
    assignment is refused. *)
Inductive cell_reach : cellobj -> Prop :=
| cell_made n a n' c : cell_new n a = (n', Ok c) -> cell_reach c
| cell_assigned s c : cell_reach c -> cell_reach (fst (cell_set s c)).
(** The same, where no assignment turns a void cell into a filled one or back. *)
Inductive cell_steady : cellobj -> Prop :=
| steady_made n a n' c : cell_new n a = (n', Ok c) -> cell_steady c
| steady_assigned s c : cell_steady c -> (void (fst (cell_set s c)) <-> void c) -> cell_steady (fst (cell_set s c)).
(** The same, where no geometry is given by a surface. *)
Definition by_surface (s : cellset) : bool :=
  match s with SGeometry (GSurf _) | SGeometry (GGeo (CText _)) => true | _ => false end.
Inductive cell_plain : cellobj -> Prop :=
| plain_made n a n' c : cell_new n a = (n', Ok c) -> by_surface (SGeometry (ca_geometry a)) = false -> cell_plain c
| plain_assigned s c : cell_plain c -> by_surface s = false -> cell_plain (fst (cell_set s c)).

(** * Surfaces *)
Inductive surf_reach : surfobj -> Prop :=
| surf_made n a n' c : surf_new n a = (n', Ok c) -> surf_reach c
| surf_assigned s c : surf_reach c -> surf_reach (fst (surf_set s c)).
(** No transformation, or number 0. *)
Definition unmoved (c : surfobj) : Prop := su_transform c = None \/ is_zero (su_transform c).
(** A transformation is not assigned, other than 0. *)
Inductive surf_still : surfobj -> Prop :=
| still_made n a n' c : surf_new n a = (n', Ok c) -> unmoved c -> surf_still c
| still_assigned s c : surf_still c -> unmoved (fst (surf_set s c)) -> surf_still (fst (surf_set s c)).

(** * Creation histories *)

(** A program creates cells, surfaces and materials in some order. *)
Inductive creation :=
| NewCell (a : cellargs)
| NewSurface (a : surfargs)
| NewMaterial (substances suffix options : arg).
Inductive kind := KCell | KSurface | KMaterial.
Definition kind_eqb (a b : kind) : bool :=
  match a, b with KCell, KCell | KSurface, KSurface | KMaterial, KMaterial => true | _, _ => false end.
Definition kind_of (e : creation) : kind :=
  match e with NewCell _ => KCell | NewSurface _ => KSurface | NewMaterial _ _ _ => KMaterial end.
(** No number is given. *)
Definition automatic (e : creation) : bool :=
  match (match e with NewCell a => ca_number a | NewSurface a => sa_number a | NewMaterial _ x _ => x end) with
  | ANone => true | _ => false
  end.
(** The numbers each kind gives next. *)
Definition counters := kind -> Z.
Definition fresh : counters := fun _ => first_number.
Definition step (k : counters) (e : creation) : counters * result (option val) :=
  let put n x := if kind_eqb x (kind_of e) then n else k x in
  match e with
  | NewCell a => let '(n, r) := cell_new (k KCell) a in
                 (put n, bind r (fun c => Ok (ce_number c)))
  | NewSurface a => let '(n, r) := surf_new (k KSurface) a in
                    (put n, bind r (fun c => Ok (su_number c)))
  | NewMaterial s x o => let '(n, r) := mat_new (k KMaterial) s x o in
                         (put n, bind r (fun c => Ok (match assoc "suffix"%string c with Some v => v | None => None end)))
  end.
(** The objects created: kind, whether the number was automatic, the number. *)
Fixpoint created (k : counters) (l : list creation) : list (kind * bool * option val) :=
  match l with
  | [] => []
  | e :: l' => match step k e with
               | (k', Ok v) => (kind_of e, automatic e, v) :: created k' l'
               | (k', _) => created k' l'
               end
  end.
(** The automatic numbers of a kind, and those the program chose. *)
Definition numbers (auto : bool) (x : kind) (l : list (kind * bool * option val)) : list (option val) :=
  map snd (filter (fun e => kind_eqb (fst (fst e)) x && Bool.eqb (snd (fst e)) auto) l).
