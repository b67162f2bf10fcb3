(** The meaning of a setter's test as a statement about numbers and texts. *)

From Coq Require Import Ascii String NArith ZArith QArith Bool List.
From Verif Require Import PyStr PyNum Types Cards CardsSpec.
Import ListNotations.
Open Scope list_scope.

(** The number a finite decimal stands for. *)
Definition dec_Q (neg : bool) (c : N) (e : Z) : Q :=
  (inject_Z (if neg then - Z.of_N c else Z.of_N c) * Qpower 10 e)%Q.

(** What an operand stands for: a number or a text. *)
Inductive term := TQ (q : Q) | TS (s : str).
Definition meant (x : option val) : option term :=
  match x with
  | Some (VInt (IVal z)) | Some (VPyInt z) => Some (TQ (inject_Z z))
  | Some (VReal (RVal (Fin n c e))) => Some (TQ (dec_Q n c e))
  | Some (VStr s) | Some (VPyStr s) => Some (TS s)
  | _ => None
  end.
Definition operand (x : option val) (e : nexp) : option term :=
  match e with
  | EX | EVal EX => meant x
  | ELower EX => match meant x with Some (TS s) => Some (TS (slower s)) | _ => None end
  | EMod EX n => match x with Some (VInt (IVal z)) | Some (VPyInt z) => Some (TQ (inject_Z (z mod n))) | _ => None end
  | EZ z => Some (TQ (inject_Z z))
  | ED (Fin n c e) => Some (TQ (dec_Q n c e))
  | ES s => Some (TS s)
  | _ => None
  end.
Definition same (a b : option term) : Prop :=
  match a, b with
  | Some (TQ p), Some (TQ q) => (p == q)%Q
  | Some (TS s), Some (TS t) => s = t
  | _, _ => False
  end.
Definition holds (o : cmpop) (a b : option term) : Prop :=
  match o with
  | OEq => same a b
  | ONe => ~ same a b
  | _ => match a, b with
         | Some (TQ p), Some (TQ q) =>
             match o with OLt => p < q | OLe => p <= q | OGt => q < p | _ => q <= p end%Q
         | _, _ => False
         end
  end.

(** The test [b] is true of the value [x]. *)
Fixpoint means (x : option val) (b : bexp) : Prop :=
  match b with
  | BConst c => c = true
  | BIsNone EX => x = None
  | BNot b => ~ means x b
  | BAnd a b => means x a /\ means x b
  | BOr a b => means x a \/ means x b
  | BCmp o e f => holds o (operand x e) (operand x f)
  | BIn e l => exists k, In k l /\ same (operand x e) (operand x k)
  | BJump EX => exists n, x = Some (VInt (IHor (HJump n))) \/ x = Some (VReal (RHor (HJump n)))
  | _ => False
  end.

(** The tests this meaning covers. *)
Definition constant (e : nexp) : bool := match e with EZ _ | ED (Fin _ _ _) | ES _ => true | _ => false end.
Definition simple (e : nexp) : bool :=
  match e with EX | EVal EX | ELower EX | EMod EX _ => true | e => constant e end.
Fixpoint covered (b : bexp) : bool :=
  match b with
  | BConst _ | BIsNone EX | BJump EX => true
  | BNot b => covered b
  | BAnd a b | BOr a b => covered a && covered b
  | BCmp _ e f => simple e && simple f && (constant e || constant f)
  | BIn e l => simple e && forallb constant l
  | _ => false
  end.
(** Neither infinite nor not a number. *)
Definition finite (x : option val) : Prop :=
  match x with Some (VReal (RVal (Inf _))) | Some (VReal (RVal (NaN _ _ _))) => False | _ => True end.
