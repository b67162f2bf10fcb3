(** Specification vocabulary for the scalar types: which values and texts the
    property theorems range over. *)

From Coq Require Import Ascii String NArith ZArith Bool Arith List.
From Verif Require Import PyStr Regex RegexParse RegexFacts PyNum PyNumFacts Types.
Import ListNotations.
Open Scope char_scope.

(** Text of a mantissa. *)
Definition mant_text (sg : option bool) (ip : str) (dot : bool) (fp : str) : str :=
  match sg with Some true => ["-"] | Some false => ["+"] | None => [] end
  ++ ip ++ (if dot then "." :: fp else []).

Definition exp_sign (s : option bool) : str :=
  match s with Some true => ["-"] | Some false => ["+"] | None => [] end.

Definition is_neg (s : option bool) : bool := match s with Some b => b | None => false end.

(** The number a mantissa and an exponent denote. *)
Definition denotes (sg : option bool) (ip fp : str) (es : option bool) (ex : str) : option dec :=
  let c := N_of_digits (ip ++ fp) in
  let n := Z.of_N (N_of_digits ex) in
  let e := ((if is_neg es then Z.opp n else n) - Z.of_nat (length fp))%Z in
  if dec_ok c e then Some (Fin (is_neg sg) c e) else None.

(** How an exponent may be written after a mantissa. *)
Inductive exp_form := FE | FBigE | Fd | FBigD | FSign.

Definition exp_text (f : exp_form) (es : option bool) (ex : str) : str :=
  match f with
  | FE => "e" :: exp_sign es ++ ex
  | FBigE => "E" :: exp_sign es ++ ex
  | Fd => "d" :: exp_sign es ++ ex
  | FBigD => "D" :: exp_sign es ++ ex
  | FSign => exp_sign es ++ ex
  end.

(** A shorthand value whose text keeps its count: a zero count of r, i, log is
    written like an absent one, and a zero factor cannot be constructed. *)
Definition horiz_ok (h : horiz) : bool :=
  match h with
  | HRepeat (Some 0%N) | HInsert (Some 0%N) | HLog (Some 0%N) | HMultiply 0%N => false
  | _ => true
  end.

(** The reader of the value's own class. *)
Definition own_from_mcnp (h : horiz) : str -> result horiz :=
  match h with
  | HRepeat _ => repeat_from_mcnp
  | HInsert _ => insert_from_mcnp
  | HMultiply _ => multiply_from_mcnp
  | HJump _ => jump_from_mcnp
  | HLog _ => log_from_mcnp
  end.

(** Writable integers and reals. *)
Definition int_ok (i : intv) : bool :=
  match i with IVal z => dec_ok (Z.abs_N z) 0 | IHor h => horiz_ok h end.

Definition real_ok (r : realv) : bool :=
  match r with RVal (Fin _ c e) => dec_ok c e | RVal _ => false | RHor h => horiz_ok h end.

Definition nospace (s : str) : Prop := allc (fun c => negb (is_space c)) s.

(** Zaids the constructor accepts whose suffix can be written. *)
Definition zaid_ok (x : zaid) : Prop :=
  (zz x <= 999)%N /\ (za x <= 999)%N /\
  match zabx x with Some t => t <> [] /\ nospace t | None => True end.

(** A comma-separated list of single characters accepted by [P]. *)
Definition comma_list (P : ascii -> bool) (s : str) : Prop :=
  exists c cl, P c = true /\ allc P cl /\ s = c :: concat (map (fun x => [","; x]) cl).

Definition fin_ok (r : realv) : bool := match r with RVal (Fin _ c e) => dec_ok c e | _ => false end.

(** Transformation_0 .. Transformation_4 carry a displacement of three entries
    and a rotation of nine, six, five, three or no entries. *)
Definition rotation_entries (k : nat) : nat := nth k [9; 6; 5; 3; 0] 0.

(** Transformations with finite decimal fields and m absent, 1 or -1. *)
Definition transf_ok (k : nat) (t : transf) : Prop :=
  k <= 4 /\ length (tvals t) = 3 + rotation_entries k /\ forallb fin_ok (tvals t) = true /\
  (tm t = None \/ tm t = Some (IVal 1) \/ tm t = Some (IVal (-1))).

(** Values that may stand in a sequence: numbers and shorthand without a count. *)
Definition seq_horiz (h : horiz) : bool :=
  match h with
  | HRepeat None | HInsert None | HJump None | HLog None => true
  | HMultiply x => negb (x =? 0)%N
  | _ => false
  end.

Definition int_seq (i : intv) : bool :=
  match i with IVal z => dec_ok (Z.abs_N z) 0 | IHor h => seq_horiz h end.

Definition real_seq (r : realv) : bool :=
  match r with RVal (Fin _ c e) => dec_ok c e | RVal _ => false | RHor h => seq_horiz h end.

(** The particle symbols the pattern lists (Designator.py:16), any letter case. *)
Definition particle (c : ascii) : bool :=
  existsb (fun x => ceqb (lower x) (lower c)) (L "nqpef|!u<v>hglb+_-~xcywo@/*zk?%^dtsa#").
