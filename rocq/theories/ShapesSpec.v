(** Point sets of shapes and MCNP's positive sense of a surface. *)

From Coq Require Import QArith Bool List.
From Verif Require Import PyStr Shapes.
Open Scope Q_scope.

(** A shape that answers a boolean everywhere, and its point set. *)
Definition boolean (f : shape) : Prop := forall p, exists b, f p = Ok (VBool b).
Definition points (f : shape) (p : pt) : Prop := f p = Ok (VBool true).

Definition between (a x b : Q) : Prop := a <= x /\ x <= b.
Definition norm2 (u : pt) : Q := px u * px u + py u * py u + pz u * pz u.
Definition scalar (u v : pt) : Q := px u * px v + py u * py v + pz u * pz v.
Definition moved (p v : pt) : pt := P3 (px p - px v) (py p - py v) (pz p - pz v).

(** The points with positive sense, for the surfaces considered: in front of a plane,
    outside of a sphere, cylinder, cone or body.  [None]: not considered. *)
Definition positive (s : surf) (p : pt) : option Prop :=
  let x := px p in let y := py p in let z := pz p in
  match s with
  | PX d => Some (x > d)
  | PY d => Some (y > d)
  | PZ d => Some (z > d)
  | P_0 a b c d => Some (a * x + b * y + c * z > d)
  | SO r => Some (x * x + y * y + z * z > r * r)
  | S c r | SPH c r => Some (norm2 (moved p c) > r * r)
  | SX c r => Some (norm2 (moved p (P3 c 0 0)) > r * r)
  | SY c r => Some (norm2 (moved p (P3 0 c 0)) > r * r)
  | SZ c r => Some (norm2 (moved p (P3 0 0 c)) > r * r)
  | CX r => Some (y * y + z * z > r * r)
  | CY r => Some (x * x + z * z > r * r)
  | CZ r => Some (x * x + y * y > r * r)
  | C_x b c r => Some ((y - b) * (y - b) + (z - c) * (z - c) > r * r)
  | C_y a c r => Some ((x - a) * (x - a) + (z - c) * (z - c) > r * r)
  | C_z a b r => Some ((x - a) * (x - a) + (y - b) * (y - b) > r * r)
  | KZ c t2 sg => Some (~ ((z - c) * sg >= 0 /\ x * x + y * y <= t2 * ((z - c) * (z - c))))
  | RPP xmin xmax ymin ymax (Some zmin) (Some zmax) =>
      Some (~ (between xmin x xmax /\ between ymin y ymax /\ between zmin z zmax))
  | BOX v a1 a2 a3 =>
      let q := moved p v in
      Some (~ (between 0 (scalar q a1) (norm2 a1) /\ between 0 (scalar q a2) (norm2 a2) /\ between 0 (scalar q a3) (norm2 a3)))
  | RCC v h r =>
      let q := moved p v in
      Some (~ (between 0 (scalar q h) (norm2 h) /\
               norm2 q * norm2 h - scalar q h * scalar q h <= r * r * norm2 h))
  | _ => None
  end.

(** The surface is drawn, and its points are those with positive sense. *)
Definition drawn_right (s : surf) : Prop :=
  exists f, to_show s = Ok f /\ boolean f /\ forall p P, positive s p = Some P -> (points f p <-> P).

(** Surfaces for which that is claimed: planes with a normal, spheres, boxes along the
    axes. *)
Definition plain (s : surf) : Prop :=
  match s with
  | PX _ | PY _ | PZ _ | SO _ | S _ _ | SX _ _ | SY _ _ | SZ _ _ | SPH _ _ => True
  | P_0 a b c d => ~ (a == 0 /\ b == 0 /\ c == 0)
  | RPP _ _ _ _ (Some _) (Some _) => True
  | BOX v a1 a2 a3 =>
      0 < px a1 /\ py a1 == 0 /\ pz a1 == 0 /\ px a2 == 0 /\ 0 < py a2 /\ pz a2 == 0 /\ px a3 == 0 /\ py a3 == 0 /\ 0 < pz a3
  | RCC v h r => px h == 0 /\ py h == 0 /\ 0 < pz h
  | _ => False
  end.

(** A quarter turn about the y axis through the origin. *)
Definition turned (p : pt) : pt := P3 (pz p) (py p) (- px p).
