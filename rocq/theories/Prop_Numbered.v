(** C17 (surfaces), C30-C32, C49, C50: cells, surfaces, materials and their numbers. *)

From Coq Require Import Ascii String NArith ZArith QArith Bool List.
From Verif Require Import PyStr PyNum Types Cards Tables ConstraintsSpec Geometry GeometrySpec Numbered NumberedSpec NumberedFacts.
Import ListNotations.
Open Scope list_scope.

(** A void cell and a filled one: [Cell(1, 0, None, '-1')], [Cell(2, 3, -1.5, '1 -2')]. *)
Definition void_args : cellargs :=
  {| ca_number := ANone; ca_material := MArg (AInt 0); ca_density := ANone; ca_geometry := GStr (L "-1"); ca_options := ANone |}.
Definition void_cell : cellobj :=
  mkcell (Some (VInt (IVal 1))) (Some (VInt (IVal 0))) None (Some (CTree (GUnary "-"%char (GDigit (L "1"))))) None.
Definition filled_args : cellargs :=
  {| ca_number := AInt 2; ca_material := MArg (AStr (L "3")); ca_density := AStr (L "-1.5"); ca_geometry := GStr (L "1 -2"); ca_options := ANone |}.
Definition filled_cell : cellobj :=
  mkcell (Some (VInt (IVal 2))) (Some (VInt (IVal 3))) (Some (VReal (RVal (Fin true 15 (-1)))))
    (Some (CTree (GInter (GDigit (L "1")) (GUnary "-"%char (GDigit (L "2")))))) None.
Example void_made : cell_new first_number void_args = (2%Z, Ok void_cell).
Proof. vm_compute. reflexivity. Qed.
Example filled_made : cell_new first_number filled_args = (1%Z, Ok filled_cell).
Proof. vm_compute. reflexivity. Qed.
Example void_void : void void_cell.
Proof. exists 0%Q. split; reflexivity. Qed.
Example filled_not_void : ~ void filled_cell.
Proof. intros (q & [= <-] & H). discriminate H. Qed.

(** ** C30 *)

(** A cell has a density exactly if it is not void. Missing: histories in which an
    assignment to [material] makes a void cell a filled one or a filled one void,
    for which it is false. *)
Theorem C30_density_partial : forall c, cell_steady c -> (has_density c <-> ~ void c).
Proof. exact density_iff_filled. Qed.
Print Assumptions C30_density_partial.
Example C30_case : cell_steady void_cell /\ cell_steady filled_cell /\
  cell_steady (fst (cell_set (SMaterial (MArg (AInt 7))) filled_cell)) /\
  ce_material (fst (cell_set (SMaterial (MArg (AInt 7))) filled_cell)) = Some (VInt (IVal 7)).
Proof.
  repeat split; [exact (steady_made _ _ _ _ void_made)|exact (steady_made _ _ _ _ filled_made)|].
  apply steady_assigned; [exact (steady_made _ _ _ _ filled_made)|].
  split; intros (q & [= <-] & H); discriminate H.
Qed.
(** After an accepted assignment to [density] it is so whatever happened before. *)
Theorem C30_assigned : forall c a c', cell_reach c -> cell_set (SDensity a) c = (c', Ok tt) -> (has_density c' <-> ~ void c').
Proof. exact density_assigned. Qed.
Print Assumptions C30_assigned.
(** [cell.material = 3] on a void cell, [cell.material = 0] on a filled one. *)
Theorem C30_refuted : (exists c, cell_reach c /\ ~ void c /\ ~ has_density c) /\ (exists c, cell_reach c /\ void c /\ has_density c).
Proof.
  split.
  - exists (fst (cell_set (SMaterial (MArg (AInt 3))) void_cell)). split; [apply cell_assigned, (cell_made _ _ _ _ void_made)|]. split.
    + intros (q & [= <-] & H). discriminate H.
    + intros H. apply H. reflexivity.
  - exists (fst (cell_set (SMaterial (MArg (AInt 0))) filled_cell)). split; [apply cell_assigned, (cell_made _ _ _ _ filled_made)|]. split.
    + exists 0%Q. split; reflexivity.
    + intros H. discriminate H.
Qed.
Print Assumptions C30_refuted.

(** ** C50: along every history the numbers of cells and their materials are in range. *)
Theorem C50_ranges : forall c, cell_reach c -> in_range 1 99999999 (ce_number c) /\ in_range 0 99999999 (ce_material c).
Proof. exact cell_ranges. Qed.
Print Assumptions C50_ranges.
(** Every integer in range is accepted and stored, every other refused. *)
Theorem C50_accepts : forall c z,
  cell_set (SNumber (AInt z)) c =
    (if ((1 <=? z) && (z <=? 99999999))%Z
     then (mkcell (Some (VInt (IVal z))) (ce_material c) (ce_density c) (ce_geometry c) (ce_options c), Ok tt) else (c, Lib InpError)) /\
  cell_set (SMaterial (MArg (AInt z))) c =
    (if ((0 <=? z) && (z <=? 99999999))%Z
     then (mkcell (ce_number c) (Some (VInt (IVal z))) (ce_density c) (ce_geometry c) (ce_options c), Ok tt) else (c, Lib InpError)).
Proof. intros c z. split; [apply number_accepted|apply material_accepted]. Qed.
Print Assumptions C50_accepts.
Example C50_case : cell_reach filled_cell /\ cell_set (SNumber (AInt 100000000)) filled_cell = (filled_cell, Lib InpError) /\
  cell_set (SNumber (AInt 0)) filled_cell = (filled_cell, Lib InpError) /\ snd (cell_set (SNumber (AInt 99999999)) filled_cell) = Ok tt.
Proof. repeat split; [exact (cell_made _ _ _ _ filled_made)|..]; vm_compute; reflexivity. Qed.

(** ** C49 *)

(** A cell whose geometry was given as a text or a tree can be written. Missing:
    geometries given by a surface, for which it is false. *)
Theorem C49_written_partial : forall c, cell_plain c -> exists s, cell_to_mcnp c = Ok s.
Proof. exact plain_written. Qed.
Print Assumptions C49_written_partial.
Example C49_case : cell_plain filled_cell /\ cell_to_mcnp filled_cell = Ok (L "2 3 -1.5 1 -2 ").
Proof. split; [exact (plain_made _ _ _ _ filled_made eq_refl)|vm_compute; reflexivity]. Qed.
(** [cell.geometry = surface] is always accepted, and the cell can then not be written. *)
Theorem C49_refuted : forall c x, let '(c', r) := cell_set (SGeometry (GSurf x)) c in r = Ok tt /\ cell_to_mcnp c' = Py AttributeError.
Proof. exact surface_unwritten. Qed.
Print Assumptions C49_refuted.

(** ** C31 *)

(** [Surface('so 5', 7)] and [Surface('so 5', 5000, 3)]. *)
Definition plain_args : surfargs := {| sa_option := AStr (L "so 5"); sa_number := AInt 7; sa_transform := ANone; sa_prefix := ANone |}.
Definition moved_args : surfargs := {| sa_option := AStr (L "so 5"); sa_number := AInt 5000; sa_transform := AInt 3; sa_prefix := AStr (L "*") |}.
Definition moved_again : surfargs := {| sa_option := AStr (L "so 5"); sa_number := AInt (-5); sa_transform := AInt 3; sa_prefix := ANone |}.

(** The number is within 1..99999999 while the surface has no transformation (or
    number 0). Missing: surfaces with a transformation, for which it is false. *)
Theorem C31_number_partial : forall c, surf_still c -> in_range 1 99999999 (su_number c).
Proof. exact number_range. Qed.
Print Assumptions C31_number_partial.
Theorem C31_transform : forall c, surf_reach c -> su_transform c = None \/ in_range 0 999 (su_transform c).
Proof. exact transform_range. Qed.
Print Assumptions C31_transform.
Example C31_case : exists c, surf_new first_number plain_args = (1%Z, Ok c) /\ surf_still c /\ su_number c = Some (VInt (IVal 7)) /\
  surf_to_mcnp c = L "7  so 5" /\ surf_set (UNumber (AInt 0)) c = (c, Lib InpError).
Proof.
  destruct (surf_new first_number plain_args) as [n [c| |]] eqn:E; [|vm_compute in E; discriminate E|vm_compute in E; discriminate E].
  exists c. pose proof E as E'. vm_compute in E'. injection E' as <- <-.
  split; [reflexivity|]. split; [apply (still_made _ _ _ _ E); left; reflexivity|]. repeat split; vm_compute; reflexivity.
Qed.
(** With a transformation every number is accepted. *)
Theorem C31_unchecked : forall c z, surf_reach c -> ~ unmoved c ->
  exists c', surf_set (UNumber (AInt z)) c = (c', Ok tt) /\ su_number c' = Some (VInt (IVal z)).
Proof. exact moved_unchecked. Qed.
Print Assumptions C31_unchecked.
Theorem C31_refuted : exists c c' n n', surf_new first_number moved_args = (n, Ok c) /\ surf_new first_number moved_again = (n', Ok c') /\
  ~ unmoved c /\ su_number c = Some (VInt (IVal 5000)) /\ su_number c' = Some (VInt (IVal (-5))).
Proof.
  destruct (surf_new first_number moved_args) as [n [c| |]] eqn:E; [|vm_compute in E; discriminate E|vm_compute in E; discriminate E].
  destruct (surf_new first_number moved_again) as [n' [c'| |]] eqn:E'; [|vm_compute in E'; discriminate E'|vm_compute in E'; discriminate E'].
  exists c, c', n, n'. split; [reflexivity|]. split; [reflexivity|].
  vm_compute in E, E'. injection E as <- <-. injection E' as <- <-.
  split; [|split; reflexivity]. intros [H|(q & [= <-] & H)]; discriminate H.
Qed.
Print Assumptions C31_refuted.

(** ** C32 *)

(** The automatic numbers of one kind are pairwise distinct, whatever is created in
    between and whichever creations fail. *)
Theorem C32_automatic_distinct : forall l x, NoDup (numbers true x (created fresh l)).
Proof. intros l. apply auto_distinct. Qed.
Print Assumptions C32_automatic_distinct.
(** No automatic number equals a number larger than the count of automatic creations
    of its kind. Missing: smaller numbers chosen by the program, for which it is false. *)
Theorem C32_chosen_partial : forall l x v z, In v (numbers true x (created fresh l)) ->
  (Z.of_nat (length (filter (fun e => kind_eqb (kind_of e) x && automatic e) l)) < z)%Z ->
  v <> Some (VInt (IVal z)).
Proof. exact no_clash. Qed.
Print Assumptions C32_chosen_partial.
Definition history : list creation :=
  [NewCell filled_args; NewCell void_args; NewSurface {| sa_option := AStr (L "so 5"); sa_number := ANone; sa_transform := ANone; sa_prefix := ANone |};
   NewCell {| ca_number := ANone; ca_material := MArg (AInt 5); ca_density := ANone; ca_geometry := GStr (L "1"); ca_options := ANone |};
   NewMaterial (AStr (L "")) ANone ANone; NewCell void_args].
(** A cell that is refused uses up its number; the last cell gets 3. *)
Example C32_case : created fresh history =
  [(KCell, false, Some (VInt (IVal 2))); (KCell, true, Some (VInt (IVal 1))); (KSurface, true, Some (VInt (IVal 1)));
   (KMaterial, true, Some (VInt (IVal 1))); (KCell, true, Some (VInt (IVal 3)))].
Proof. vm_compute. reflexivity. Qed.
(** [Cell(2, ...)], then two cells without number. *)
Theorem C32_refuted : exists l v, In v (numbers true KCell (created fresh l)) /\ In v (numbers false KCell (created fresh l)).
Proof.
  exists [NewCell filled_args; NewCell void_args; NewCell void_args], (Some (VInt (IVal 2))).
  split; vm_compute; tauto.
Qed.
Print Assumptions C32_refuted.

(** ** C17 for surfaces *)

Theorem C17_surface_binary : forall a b y z, su_number a = Some (VInt (IVal y)) -> su_number b = Some (VInt (IVal z)) ->
  (0 <= y)%Z -> (0 <= z)%Z ->
  surf_and a b = Ok (GUnion (GDigit (write (VInt (IVal y)))) (GDigit (write (VInt (IVal z))))) /\
  surf_or a b = Ok (GInter (GDigit (write (VInt (IVal y)))) (GDigit (write (VInt (IVal z))))).
Proof. exact surf_binary. Qed.
Print Assumptions C17_surface_binary.
Theorem C17_surface_unary : forall c z, su_number c = Some (VInt (IVal z)) -> (0 <= z)%Z ->
  surf_neg c = Ok (GUnary "-"%char (GDigit (write (VInt (IVal z))))) /\
  surf_pos c = Ok (GUnary "+"%char (GDigit (write (VInt (IVal z))))).
Proof. intros c z H HZ. split; refine (surf_unary _ c z H HZ _); cbn; tauto. Qed.
Print Assumptions C17_surface_unary.
(** [~surface] is written [#n], which stands for the complement of the cell with
    that number. *)
Theorem C17_surface_invert_refuted : forall c z, su_number c = Some (VInt (IVal z)) -> (0 <= z)%Z ->
  exists g, surf_inv c = Ok g /\ forall (P : Type) (surf cell : str -> P -> Prop) p,
    denote surf cell g p <-> ~ cell (write (VInt (IVal z))) p.
Proof.
  intros c z H HZ. eexists. split; [refine (surf_unary "#"%char c z H HZ _); cbn; tauto|].
  intros P surf cell p. reflexivity.
Qed.
Print Assumptions C17_surface_invert_refuted.
Example C17_surface_case : exists c, snd (surf_new first_number plain_args) = Ok c /\ su_number c = Some (VInt (IVal 7)).
Proof.
  destruct (surf_new first_number plain_args) as [n [c| |]] eqn:E; [|vm_compute in E; discriminate E|vm_compute in E; discriminate E].
  exists c. split; [reflexivity|]. vm_compute in E. injection E as _ <-. reflexivity.
Qed.
