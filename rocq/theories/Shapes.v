(** Model of the shapes that surfaces are drawn with: the point predicates of
    /repo/src/pymcnp/_show/pyvista/*.py and the [to_show] methods of
    /repo/src/pymcnp/inp/surface/*.py.

    Simplified: numpy floats are rationals and arithmetic is exact; a length given by
    a square root is represented by its square.  The predicates take an array of
    points and answer an array; here they take one point.  The meshes are not
    modelled, nor are [Empty] (used by no surface) and [Trc.to_show], whose predicate
    needs the square root itself. *)

From Coq Require Import QArith Bool List.
From Verif Require Import PyStr.
Import ListNotations.
Open Scope Q_scope.

Record pt := P3 { px : Q; py : Q; pz : Q }.
Definition sub (p v : pt) : pt := P3 (px p - px v) (py p - py v) (pz p - pz v).
Definition dot (u v : pt) : Q := px u * px v + py u * py v + pz u * pz v.

(** What a predicate answers at a point: a numpy boolean, or a float. *)
Inductive value := VBool (b : bool) | VFloat.
Definition shape := pt -> result value.

Definition leb (a b : Q) : bool := Qle_bool a b.
Definition ltb (a b : Q) : bool := negb (Qle_bool b a).
(** [a <= sqrt s] for [0 <= s]. *)
Definition leb_sqrt (a s : Q) : bool := leb a 0 || leb (a * a) s.

(** ** Operators: _show/pyvista/_shape.py *)

(** [&], [|] and [~] on float arrays raise TypeError. *)
Definition v_and (a b : value) : result value :=
  match a, b with VBool x, VBool y => Ok (VBool (x && y)) | _, _ => Py TypeError end.
Definition v_or (a b : value) : result value :=
  match a, b with VBool x, VBool y => Ok (VBool (x || y)) | _, _ => Py TypeError end.
Definition v_not (a : value) : result value :=
  match a with VBool x => Ok (VBool (negb x)) | VFloat => Py TypeError end.

(** PyvistaShape.__add__, 18-30; __and__, 32-44; __or__, 46-58; __invert__, 60-68 *)
Definition s_add (f g : shape) : shape := fun p => bind (f p) (fun a => bind (g p) (fun b => v_or a b)).
Definition s_and (f g : shape) : shape := fun p => bind (f p) (fun a => bind (g p) (fun b => v_and a b)).
Definition s_or (f g : shape) : shape := fun p => bind (f p) (fun a => bind (g p) (fun b => v_or a b)).
Definition s_not (f : shape) : shape := fun p => bind (f p) v_not.
(** rotate, 70-86: both branches keep the predicate. *)
Definition s_rotate (axis : pt) (angle : Q) (center : pt) (f : shape) : shape := fun p => f p.
(** translate, 88-99 *)
Definition s_translate (v : pt) (f : shape) : shape := fun p => f (sub p v).

(** ** Shapes *)

Definition sq (a : Q) : Q := a * a.
(** Box.py:22-25; the lengths by their squares. *)
Definition Box (a2 b2 c2 : Q) : shape := fun p => Ok (VBool (negb
  ((leb 0 (px p) && leb_sqrt (px p) a2) && (leb 0 (py p) && leb_sqrt (py p) b2) && (leb 0 (pz p) && leb_sqrt (pz p) c2)))).
(** Sphere.py:19 *)
Definition Sphere (r : Q) : shape := fun p => Ok (VBool (negb (leb (sq (px p) + sq (py p) + sq (pz p)) (sq r)))).
(** Parallelipiped.py:25-28 *)
Definition Parallelipiped (xmin xmax ymin ymax zmin zmax : Q) : shape := fun p => Ok (VBool (negb
  ((leb xmin (px p) && leb (px p) xmax) && (leb ymin (py p) && leb (py p) ymax) && (leb zmin (pz p) && leb (pz p) zmax)))).
(** Plane.py:22-40.  The point for the mesh is found by dividing Python floats. *)
Definition Plane (a b c d : Q) : result shape :=
  if Qeq_bool a 0 && Qeq_bool b 0 && Qeq_bool c 0 then Py ZeroDivisionError
  else Ok (fun p => Ok (VBool (ltb 0 (a * px p + b * py p + c * pz p - d)))).
(** CylinderUnbounded.py:19-22 *)
Definition CylinderUnbounded (r : Q) : shape := fun p => Ok (VBool (leb (sq (px p) + sq (py p)) (sq r))).
(** CylinderCircular.py:20; the height by its square. *)
Definition CylinderCircular (h2 r : Q) : shape := fun p => Ok (VBool (negb
  (leb 0 (pz p) && leb_sqrt (pz p) h2 && leb (sq (px p) + sq (py p)) (sq r)))).
(** CylinderElliptical.py:21-24; the lengths by their squares. *)
Definition CylinderElliptical (h2 a2 b2 : Q) : shape := fun p => Ok (VBool (negb
  (leb 0 (pz p) && leb_sqrt (pz p) h2 && leb (sq (px p) / a2 + sq (py p) / b2) 1))).
(** Ellipsoid.py:20; the lengths by their squares. *)
Definition Ellipsoid (a2 b2 : Q) : shape := fun p => Ok (VBool (leb (sq (px p) / a2 + sq (py p) / b2 + sq (pz p) / b2) 1)).
(** ConeUnbounded.py:20-25, [m] by its square, assumed not negative.  The mesh divides by [m]. *)
Definition ConeUnbounded (m2 sign : Q) : result shape :=
  if Qeq_bool m2 0 then Py ZeroDivisionError
  else Ok (fun p => Ok (VBool (negb (Qeq_bool (sq (px p) + sq (py p)) (sign * m2 * sq (pz p)))))).
(** ConeTruncated.py:21-26: [~] applies to the first comparison only. *)
Definition ConeTruncated (h r1 r2 : Q) : shape := fun p => Ok (VBool
  (negb (leb (pz p) h) && leb 0 (pz p) && leb (sq (px p) + sq (py p)) (sq (r1 + pz p / h * (r2 - r1))))).
(** Torus.py:27-33: the predicate is a float. *)
Definition Torus (a b r : Q) : shape := fun p => Ok VFloat.
(** Wedge.py:30-33 and CylinderHexagonal.py:40-43: [0 <= p[:, 0] <= a] takes the truth
    of an array, which raises ValueError for the array of a grid. *)
Definition Wedge (a2 b2 h2 : Q) : shape := fun p => Py ValueError.
Definition CylinderHexagonal (h2 a2 b2 c2 : Q) : shape := fun p => Py ValueError.

(** ** Surfaces *)

(** The attributes of the surface options, inp/surface/*.py. *)
Inductive surf :=
| PX (d : Q) | PY (d : Q) | PZ (d : Q) | P_0 (a b c d : Q) | P_1 (p1 p2 p3 : pt)
| SO (r : Q) | S (c : pt) (r : Q) | SX (x r : Q) | SY (y r : Q) | SZ (z r : Q) | SPH (v : pt) (r : Q)
| CX (r : Q) | CY (r : Q) | CZ (r : Q) | C_x (y z r : Q) | C_y (x z r : Q) | C_z (x y r : Q)
| KX (x t2 sign : Q) | KY (y t2 sign : Q) | KZ (z t2 sign : Q)
| K_x (c : pt) (t2 sign : Q) | K_y (c : pt) (t2 sign : Q) | K_z (c : pt) (t2 sign : Q)
| TX (c : pt) (a b r : Q) | TY (c : pt) (a b r : Q) | TZ (c : pt) (a b r : Q)
| RPP (xmin xmax ymin ymax : Q) (zmin zmax : option Q)
| BOX (v a1 a2 a3 : pt) | RCC (v h : pt) (r : Q) | REC (v h v1 v2 : pt) | ELL (v1 v2 : pt) (rm : Q)
| WED (v v1 v2 v3 : pt) | RHP (v h r s t : pt)
| ARB | GQ | SQ | X_ | Y_ | Z_.

Definition O : pt := P3 0 0 0.
(** numpy.cross *)
Definition cross (u v : pt) : pt :=
  P3 (py u * pz v - pz u * py v) (pz u * px v - px u * pz v) (px u * py v - py u * px v).

(** The [to_show] methods; lines of [def to_show] in each file: Px.py:73, Py.py:73,
    Pz.py:73, P_0.py:196, P_1.py:570, So.py:73, S.py:198, Sx.py:116, Sy.py:116,
    Sz.py:116, Sph.py:198, Cx.py:75, Cy.py:75, Cz.py:73, C_x.py:157, C_y.py:157,
    C_z.py:157, Kx.py:157, Ky.py:157, Kz.py:157, K_x.py:249, K_y.py:249, K_z.py:249,
    Tx.py:291, Ty.py:291, Tz.py:291, Rpp.py:283, Box.py:543, Rcc.py:333, Rec.py:537,
    Ell.py:333, Wed.py:543, Rhp.py:652.  Arb, Gq, Sq, X, Y and Z have none, nor has
    SurfaceOption.  [float(None)] raises TypeError.  The angles of the rotations are
    not modelled: [s_rotate] ignores them.  In P_1 the numbers are numpy floats,
    whose division by zero does not raise. *)
Definition to_show (s : surf) : result shape :=
  match s with
  | PX d => Plane 1 0 0 d
  | PY d => Plane 0 1 0 d
  | PZ d => Plane 0 0 1 d
  | P_0 a b c d => Plane a b c d
  | P_1 p1 p2 p3 =>
      let n := cross (sub p2 p1) (sub p3 p1) in
      Ok (fun p => Ok (VBool (ltb 0 (px n * px p + py n * py p + pz n * pz p - dot n p1))))
  | SO r => Ok (Sphere r)
  | S c r => Ok (s_translate c (Sphere r))
  | SX x r => Ok (s_translate (P3 x 0 0) (Sphere r))
  | SY y r => Ok (s_translate (P3 0 y 0) (s_rotate (P3 1 0 0) 90 O (Sphere r)))
  | SZ z r => Ok (s_translate (P3 0 0 z) (Sphere r))
  | SPH v r => Ok (s_translate v (Sphere r))
  | CX r => Ok (s_rotate (P3 0 1 0) 90 O (CylinderUnbounded r))
  | CY r => Ok (s_rotate (P3 1 0 0) 90 O (CylinderUnbounded r))
  | CZ r => Ok (CylinderUnbounded r)
  | C_x y z r => Ok (s_translate (P3 0 y z) (s_rotate (P3 0 1 0) 90 O (CylinderUnbounded r)))
  | C_y x z r => Ok (s_translate (P3 x 0 z) (s_rotate (P3 1 0 0) 90 O (CylinderUnbounded r)))
  | C_z x y r => Ok (s_translate (P3 x y 0) (s_rotate (P3 0 1 0) 90 O (CylinderUnbounded r)))
  | KX x t2 sg => bind (ConeUnbounded t2 sg) (fun f => Ok (s_translate (P3 x 0 0) (s_rotate (P3 0 1 0) 90 O f)))
  | KY y t2 sg => bind (ConeUnbounded t2 sg) (fun f => Ok (s_translate (P3 0 y 0) (s_rotate (P3 1 0 0) 90 O f)))
  | KZ z t2 sg => bind (ConeUnbounded t2 sg) (fun f => Ok (s_translate (P3 0 0 z) f))
  | K_x c t2 sg => bind (ConeUnbounded t2 sg) (fun f => Ok (s_translate c (s_rotate (P3 0 1 0) 90 O f)))
  | K_y c t2 sg => bind (ConeUnbounded t2 sg) (fun f => Ok (s_translate c (s_rotate (P3 1 0 0) 90 O f)))
  | K_z c t2 sg => bind (ConeUnbounded t2 sg) (fun f => Ok (s_translate c f))
  | TX c a b r => Ok (s_translate c (s_rotate (P3 0 1 0) 90 O (Torus b r a)))
  | TY c a b r => Ok (s_translate c (s_rotate (P3 1 0 0) 90 O (Torus b r a)))
  | TZ c a b r => Ok (s_translate c (Torus b r a))
  | RPP xmin xmax ymin ymax (Some zmin) (Some zmax) => Ok (Parallelipiped xmin xmax ymin ymax zmin zmax)
  | RPP _ _ _ _ _ _ => Py TypeError
  | BOX v a1 a2 a3 => Ok (s_translate v (s_rotate (cross (P3 1 0 0) a1) 0 O (Box (dot a1 a1) (dot a2 a2) (dot a3 a3))))
  | RCC v h r => Ok (s_translate v (s_rotate (cross (P3 0 0 1) h) 0 O (CylinderCircular (dot h h) r)))
  | REC v h v1 v2 => Ok (s_translate v (s_rotate (cross v (P3 0 0 1)) 0 O (CylinderElliptical (dot h h) (dot v1 v1) (dot v2 v2))))
  | ELL v1 v2 rm =>
      let d := sub v2 v1 in
      if ltb 0 rm then
        Ok (s_translate (P3 (px d / 2 + px v1) (py d / 2 + py v1) (pz d / 2 + pz v1))
             (s_rotate (cross d (P3 1 0 0)) 0 O (Ellipsoid (sq rm) (sq rm - dot d d))))
      else if ltb rm 0 then Ok (s_translate v1 (s_rotate (cross v2 (P3 1 0 0)) 0 O (Ellipsoid (dot v2 v2) (sq rm))))
      else Py UnboundLocalError
  | WED v v1 v2 v3 => Ok (s_translate v (s_rotate (cross (P3 1 0 0) v1) 0 O (Wedge (dot v1 v1) (dot v2 v2) (dot v3 v3))))
  | RHP v h r s t =>
      Ok (s_translate v (s_rotate (cross v (P3 0 0 1)) 0 O
            (CylinderHexagonal (dot h h) (dot r r * (4 # 3)) (dot s s * (4 # 3)) (dot t t * (4 # 3)))))
  | ARB | GQ | SQ | X_ | Y_ | Z_ => Py AttributeError
  end.

(** Surface, inp/Surface.py:28-56: the option and the number of a transformation.
    Surface.to_show, 71-79 *)
Record surface := { option_of : surf; transform : option Z }.
Definition surface_to_show (s : surface) : result shape := to_show (option_of s).
