(** Properties C47, C59 and C60: shapes, surfaces and cells as they are drawn. *)

From Coq Require Import QArith Bool Ascii String List.
From Verif Require Import PyStr Geometry GeometrySpec Shapes ShapesSpec ShapesFacts Visualize VisualizeSpec VisualizeFacts.
Import ListNotations.
Open Scope Q_scope.

(** * C47: operators on shapes are operations on point sets *)

(** For shapes that answer a boolean everywhere. *)
Theorem C47_operators_partial f g : boolean f -> boolean g ->
  (boolean (s_and f g) /\ forall p, points (s_and f g) p <-> points f p /\ points g p) /\
  (boolean (s_or f g) /\ forall p, points (s_or f g) p <-> points f p \/ points g p) /\
  (boolean (s_add f g) /\ forall p, points (s_add f g) p <-> points f p \/ points g p) /\
  (boolean (s_not f) /\ forall p, points (s_not f) p <-> ~ points f p).
Proof. intros F G. exact (conj (and_points f g F G) (conj (or_points f g F G) (conj (add_points f g F G) (not_points f F)))). Qed.
Theorem C47_translate_partial v f : boolean f ->
  boolean (s_translate v f) /\ forall p, points (s_translate v f) p <-> points f (moved p v).
Proof. exact (translate_points v f). Qed.
Example C47_nontrivial : boolean (Sphere 1) /\ boolean (CylinderUnbounded (1 # 2)) /\
  points (s_and (Sphere 1) (CylinderUnbounded (1 # 2))) (P3 0 0 2) /\ ~ points (s_not (Sphere 1)) (P3 0 0 2).
Proof.
  split; [intros p; unfold Sphere; eauto|]. split; [intros p; unfold CylinderUnbounded; eauto|]. split; [reflexivity|].
  unfold points. vm_compute. discriminate.
Qed.
(** The torus answers floats and the wedge raises: no operator applies. *)
Theorem C47_refuted : forall f p, boolean f ->
  s_not (Torus 1 1 3) p = Py TypeError /\ s_and f (Torus 1 1 3) p = Py TypeError /\
  s_not (Wedge 1 1 1) p = Py ValueError /\ s_and f (Wedge 1 1 1) p = Py ValueError.
Proof. intros f p F. unfold s_and. destruct (F p) as [b ->]. repeat split. Qed.
(** A rotated shape keeps its point set; so turning the cylinder about z by a quarter
    turn about y does not give the cylinder about x. *)
Theorem C47_rotate_refuted : (forall axis angle center f p, s_rotate axis angle center f p = f p) /\
  ~ (forall p, points (s_rotate (P3 0 1 0) 90 O (CylinderUnbounded 1)) p <-> points (CylinderUnbounded 1) (turned p)).
Proof.
  split; [reflexivity|]. intros H. destruct (H (P3 5 0 0)) as [_ H1]. assert (G : points (CylinderUnbounded 1) (turned (P3 5 0 0))) by reflexivity.
  apply H1 in G. vm_compute in G. discriminate.
Qed.

(** * C59: a surface is drawn as its positive side *)

Theorem C59_sense_partial s : plain s -> drawn_right s.
Proof. exact (plain_right s). Qed.
Example C59_nontrivial : plain (P_0 1 2 0 (3 # 2)) /\ plain (S (P3 1 2 3) 4) /\ plain (RPP (-1) 1 (-1) 1 (Some 0) (Some 5)) /\
  plain (BOX (P3 1 1 1) (P3 2 0 0) (P3 0 3 0) (P3 0 0 4)) /\ plain (RCC (P3 1 1 1) (P3 0 0 2) 1).
Proof.
  repeat split; try reflexivity. intros (H & _). discriminate.
Qed.
(** A cylinder along z is drawn as its inside, whatever its place and radius. *)
Theorem C59_cylinders x y r : exists f, Shapes.to_show (C_z x y r) = Ok f /\ boolean f /\
  forall p P, positive (C_z x y r) p = Some P -> (points f p <-> ~ P).
Proof. exact (cylinder_inverted x y r). Qed.
(** Cylinders along any axis, cones, a cylinder or box off the axes: drawn wrong. *)
Theorem C59_refuted :
  ~ drawn_right (CZ 1) /\ ~ drawn_right (CX 1) /\ ~ drawn_right (KZ 0 1 1) /\
  ~ drawn_right (RCC (P3 0 0 0) (P3 4 0 0) 1) /\ ~ drawn_right (BOX (P3 0 0 0) (P3 0 2 0) (P3 1 0 0) (P3 0 0 1)).
Proof.
  split; [|split; [|split; [|split]]].
  - intros (f & E & _ & H). injection E as <-. destruct (H (P3 0 0 0) _ eq_refl) as [H1 _]. specialize (H1 eq_refl). discriminate H1.
  - intros (f & E & _ & H). injection E as <-. destruct (H (P3 0 0 0) _ eq_refl) as [H1 _]. specialize (H1 eq_refl). discriminate H1.
  - intros (f & E & _ & H). injection E as <-. destruct (H (P3 0 0 1) _ eq_refl) as [H1 _]. specialize (H1 eq_refl). apply H1. split; discriminate.
  - intros (f & E & _ & H). injection E as <-. destruct (H (P3 3 0 0) _ eq_refl) as [H1 _]. specialize (H1 eq_refl). apply H1. repeat split; discriminate.
  - intros (f & E & _ & H). injection E as <-. destruct (H (P3 (1 # 2) 2 0) _ eq_refl) as [H1 _]. specialize (H1 eq_refl). apply H1. repeat split; discriminate.
Qed.
(** Drawing can raise: a plane without a normal, a box open in z, a quadric, an
    ellipsoid of radius 0. *)
Theorem C59_errors_refuted :
  Shapes.to_show (P_0 0 0 0 1) = Py ZeroDivisionError /\ Shapes.to_show (RPP 0 1 0 1 None None) = Py TypeError /\
  Shapes.to_show GQ = Py AttributeError /\ Shapes.to_show (ELL O (P3 1 0 0) 0) = Py UnboundLocalError.
Proof. repeat split. Qed.
(** A sphere moved by a transformation, here by 5 along x, is drawn where it was. *)
Theorem C59_transform_refuted : let tr1 := P3 5 0 0 in
  ~ (exists f, surface_to_show {| option_of := SO 1; transform := Some 1%Z |} = Ok f /\
     forall p P, positive (SO 1) (moved p tr1) = Some P -> (points f p <-> P)).
Proof.
  intros tr1 (f & E & H). injection E as <-. destruct (H (P3 5 0 0) _ eq_refl) as [H1 _]. specialize (H1 eq_refl). discriminate H1.
Qed.
(** Three points: the side of the origin must have negative sense; which side is drawn
    depends on the order of the points instead. *)
Theorem C59_points_refuted : exists p1 p2 p3 f g, Shapes.to_show (P_1 p1 p2 p3) = Ok f /\ Shapes.to_show (P_1 p1 p3 p2) = Ok g /\
  points f O /\ ~ points g O.
Proof.
  exists (P3 0 0 1), (P3 0 1 1), (P3 1 0 1). eexists. eexists. split; [reflexivity|]. split; [reflexivity|]. split; [reflexivity|].
  vm_compute. discriminate.
Qed.

(** * C60: the cells drawn are the cells of the problem *)

(** In order, each as the point set of its geometry, or of the cell it is like. *)
Theorem C60_cells_partial (P : Type) (surfaces : list (str * (P -> bool))) l : drawable (map fst surfaces) l [] ->
  exists out, show_cells surfaces l = (out, Ok tt) /\ sets P (surf_of P surfaces) l [] (map (set_of P) out).
Proof. exact (cells_drawn P surfaces l). Qed.
Definition geo1 : geo := GInter (GUnary "-"%char (GDigit (L "1"))) (GUnary "#"%char (GParen (GDigit (L "2")))).
Example C60_nontrivial : drawable [L "1"; L "2"] [ECell (L "10") geo1; EOther; ELike (L "11") (L "10")] [].
Proof. cbn. repeat split; auto; repeat constructor; cbn; auto. Qed.
(** Everything but cell [m] is drawn as cell [m] itself if that came before, and as
    surface [m] if it comes later; here both are the same set. *)
Theorem C60_refuted (P : Type) n m (f : P -> bool) :
  show_cells [(m, f)] [ECell n (GUnary "#"%char (GDigit m)); ECell m (GDigit m)] = ([(n, f); (m, f)], Ok tt) /\
  show_cells [(m, f)] [ECell m (GDigit m); ECell n (GUnary "#"%char (GDigit m))] = ([(m, f); (n, f)], Ok tt).
Proof. unfold show_cells, surface_dict, show_digit. cbn. unfold show_digit. cbn. now rewrite !(VisualizeFacts.seqb_refl m). Qed.

Print Assumptions C47_operators_partial.
Print Assumptions C47_translate_partial.
Print Assumptions C47_refuted.
Print Assumptions C47_rotate_refuted.
Print Assumptions C59_sense_partial.
Print Assumptions C59_cylinders.
Print Assumptions C59_refuted.
Print Assumptions C59_errors_refuted.
Print Assumptions C59_transform_refuted.
Print Assumptions C59_points_refuted.
Print Assumptions C60_cells_partial.
Print Assumptions C60_refuted.
