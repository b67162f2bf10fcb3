(** Model of the numeric builtins used by PyMCNP: [int(text)], [str(int)],
    [f'{n:03}'], [decimal.Decimal(text)], [str(Decimal)], [int(Decimal)].

    Simplifications: CPython's 4300-digit guard on [int]/[str] conversions and
    memory exhaustion are not modelled. *)

From Coq Require Import Ascii String NArith ZArith Bool Arith List Decimal.
From Coq Require Import DecimalN.
From Verif Require Import PyStr.
Import ListNotations.
Open Scope char_scope.

(** Digits. *)
Fixpoint str_of_uint (d : uint) : str :=
  match d with
  | Nil => []
  | D0 d => "0" :: str_of_uint d
  | D1 d => "1" :: str_of_uint d
  | D2 d => "2" :: str_of_uint d
  | D3 d => "3" :: str_of_uint d
  | D4 d => "4" :: str_of_uint d
  | D5 d => "5" :: str_of_uint d
  | D6 d => "6" :: str_of_uint d
  | D7 d => "7" :: str_of_uint d
  | D8 d => "8" :: str_of_uint d
  | D9 d => "9" :: str_of_uint d
  end.

(** [str(n)] for n >= 0. *)
Definition str_of_N (n : N) : str := str_of_uint (N.to_uint n).

(** [str(n)] / [f'{n}'] for an integer. *)
Definition str_of_Z (z : Z) : str :=
  match z with
  | Zneg p => "-" :: str_of_N (Npos p)
  | _ => str_of_N (Z.to_N z)
  end.

(** [int(text)] on a text of decimal digits (the only texts the library passes
    to [int] are groups matched by [\d+]). *)
Definition digit_val (c : ascii) : N := (code c - 48)%N.
Definition N_of_digits (s : str) : N :=
  fold_left (fun a c => 10 * a + digit_val c)%N s 0%N.

(** [f'{n:03}'] for n >= 0: zero padded to width [w]. *)
Definition zpad (w : nat) (s : str) : str := srepeat (w - length s) ["0"] ++ s.

(** [f'{n:+03}'] for an integer: sign always shown, zero padded after the sign
    to total width 3. *)
Definition fmt_plus03 (z : Z) : str :=
  (if (z <? 0)%Z then "-" else "+") :: zpad 2 (str_of_N (Z.abs_N z)).

(** [decimal.Decimal] values. *)
Inductive dec :=
| Fin (neg : bool) (coef : N) (exp : Z)        (* (-1)^neg * coef * 10^exp *)
| Inf (neg : bool)
| NaN (neg sig : bool) (diag : str).

(** Maximal runs of digits at the front. *)
Fixpoint span_digits (s : str) : str * str :=
  match s with
  | c :: t => if is_digit c then let '(a, b) := span_digits t in (c :: a, b) else ([], s)
  | [] => ([], [])
  end.

(** Limits of the C implementation (64 bit): MAX_EMAX and MIN_ETINY. *)
Definition MAX_EMAX : Z := 999999999999999999.
Definition MIN_ETINY : Z := -1999999999999999997.

Definition ndigits (c : N) : nat := length (str_of_N c).

(** A representable finite decimal. *)
Definition dec_ok (c : N) (e : Z) : bool :=
  ((MIN_ETINY <=? e) && (e + Z.of_nat (ndigits c) - 1 <=? MAX_EMAX))%Z.

(** The numeric string syntax of [decimal] after the sign:
    digits [. digits] [E [sign] digits]. *)
Definition parse_exp (t : str) : option Z :=
  match t with
  | [] => Some 0%Z
  | c :: u =>
      if ceqb (lower c) "e" then
        let '(neg, u) := match u with
                         | "-" :: v => (true, v)
                         | "+" :: v => (false, v)
                         | _ => (false, u)
                         end in
        match span_digits u with
        | ([], _) => None
        | (ds, []) =>
            let n := Z.of_N (N_of_digits ds) in Some (if neg then Z.opp n else n)
        | _ => None
        end
      else None
  end.

Definition parse_unsigned (neg : bool) (s : str) : option dec :=
  let '(ip, t) := span_digits s in
  let '(fp, t) := match t with
                  | "." :: u => span_digits u
                  | _ => ([], t)
                  end in
  match ip ++ fp with
  | [] => None
  | ds =>
      match parse_exp t with
      | Some e =>
          let c := N_of_digits ds in
          let e := (e - Z.of_nat (length fp))%Z in
          if dec_ok c e then Some (Fin neg c e) else None
      | None => None
      end
  end.

(** Leading zeros are dropped from a NaN payload. *)
Fixpoint drop0 (s : str) : str := match s with "0" :: t => drop0 t | _ => s end.

Definition parse_nan (neg sig : bool) (t : str) : option dec :=
  match span_digits t with
  | (ds, []) => Some (NaN neg sig (drop0 ds))
  | _ => None
  end.

Definition parse_special (neg : bool) (s : str) : option dec :=
  let l := slower s in
  if seqb l (L "inf") || seqb l (L "infinity") then Some (Inf neg)
  else if starts_with (L "nan") l then parse_nan neg false (skipn 3 s)
  else if starts_with (L "snan") l then parse_nan neg true (skipn 4 s)
  else None.

(** [decimal.Decimal(text)]; [None] is [decimal.InvalidOperation].  The C
    implementation strips white space at both ends and ignores underscores. *)
Definition to_dec (s : str) : option dec :=
  let s := filter (fun c => negb (ceqb c "_")) (strip s) in
  let '(neg, t) := match s with
                   | "-" :: u => (true, u)
                   | "+" :: u => (false, u)
                   | _ => (false, s)
                   end in
  match parse_unsigned neg t with
  | Some d => Some d
  | None => parse_special neg t
  end.

(** [str(Decimal)] (the [to-scientific-string] of the specification). *)
Definition dec_str (d : dec) : str :=
  match d with
  | Inf neg => (if neg then ["-"] else []) ++ L "Infinity"
  | NaN neg sig diag => (if neg then ["-"] else []) ++ (if sig then L "sNaN" else L "NaN") ++ diag
  | Fin neg c e =>
      let ds := str_of_N c in
      let n := Z.of_nat (length ds) in
      let left := (e + n)%Z in
      let dot := if ((e <=? 0) && (-6 <? left))%Z then left else 1%Z in
      let ipart :=
        if (dot <=? 0)%Z then ["0"]
        else if (n <=? dot)%Z then ds ++ srepeat (Z.to_nat (dot - n)) ["0"]
        else firstn (Z.to_nat dot) ds in
      let fpart :=
        if (dot <=? 0)%Z then "." :: srepeat (Z.to_nat (- dot)) ["0"] ++ ds
        else if (n <=? dot)%Z then []
        else "." :: skipn (Z.to_nat dot) ds in
      let epart :=
        if (left =? dot)%Z then []
        else "E" :: (if (left - dot <? 0)%Z then "-" else "+") :: str_of_N (Z.abs_N (left - dot)) in
      (if neg then ["-"] else []) ++ ipart ++ fpart ++ epart
  end.

(** [int(Decimal)]: truncation toward zero; infinities raise OverflowError and
    NaNs raise ValueError. *)
Definition dec_to_int (d : dec) : result Z :=
  match d with
  | Fin neg c e =>
      let a := if (0 <=? e)%Z then (Z.of_N c * 10 ^ e)%Z
               else (Z.of_N c / 10 ^ (- e))%Z in
      Ok (if neg then Z.opp a else a)
  | Inf _ => Py OverflowError
  | NaN _ _ _ => Py ValueError
  end.

(** Comparison of finite decimals with each other (exact). *)
Definition dec_scaled (d : bool * N * Z) (e0 : Z) : Z :=
  let '(neg, c, e) := d in
  let a := (Z.of_N c * 10 ^ (e - e0))%Z in if neg then Z.opp a else a.
Definition dec_compare (a b : bool * N * Z) : comparison :=
  let e0 := Z.min (snd a) (snd b) in
  Z.compare (dec_scaled a e0) (dec_scaled b e0).
