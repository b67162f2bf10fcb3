(** Lattice tally specifications (/repo/src/pymcnp/types/Lattice.py). *)

From Coq Require Import Ascii String NArith ZArith Bool Arith List.
From Verif Require Import PyStr Regex RegexParse Types Geometry.
Import ListNotations.
Open Scope list_scope.

(** The syntax trees: [_Embedded] (Lattice.py:8-37), [_Range] (89-126), [_Paren]
    (177-202), [_Index] (237-268), [_Digit] (303-330). *)
Inductive lat :=
| LEmb (l r : lat)
| LRange (c i j k : lat)
| LParen (l : lat)
| LIndex (lo hi : lat)
| LDigit (s : str).

(** [_Digit._REGEX] (Lattice.py:311), [Lattice._REGEX] (Lattice.py:370).  Both are
    compiled without case folding here: neither has a letter in it. *)
Definition re_ldigit : re := compile false (L "\A([+-]?\d+?)\Z").
Definition pat_lattice : str := L "\A((?:\s+|[+-]?\d+|\s*[:<)(\[\]|]\s*)+)\Z".
Definition re_ltoken : re := compile false (slice 6 5 pat_lattice).   (* Lattice.py:408 *)

Definition lparsed := option (result (lat * list str)).
Definition lbind (x : lparsed) (f : lat -> list str -> lparsed) : lparsed :=
  match x with
  | Some (Ok (g, ts)) => f g ts
  | Some (Lib e) => Some (Lib e)
  | Some (Py e) => Some (Py e)
  | None => None
  end.

(** [_Digit.from_mcnp] (Lattice.py:332-349). *)
Definition l_digit (ts : list str) : lparsed :=
  match ts with
  | [] => Some (Py SyntaxErr)
  | t :: ts' =>
      match re_match re_ldigit t with
      | Some o => Some (Ok (LDigit (mtext o), ts'))
      | None => Some (Py SyntaxErr)
      end
  end.
(** [_Index.from_mcnp] (Lattice.py:270-290). *)
Definition l_index (ts : list str) : lparsed :=
  lbind (l_digit ts) (fun lower ts =>
  match ts with
  | [] => Some (Py IndexError)
  | t :: ts' => if tok_is ":" t
                then lbind (l_digit ts') (fun upper ts => Some (Ok (LIndex lower upper, ts)))
                else Some (Py AssertionError)
  end).
(** Lattice.py:146, 151 and 156: [(tokens[1:] and tokens[1] == ':') or (tokens[2:] and tokens[2] == ':')]. *)
Definition colon_near (ts : list str) : bool := tok_is ":" (nth 1 ts []) || tok_is ":" (nth 2 ts []).
(** [_Range.from_mcnp] (Lattice.py:128-164). *)
Definition l_range (ts : list str) : lparsed :=
  lbind (l_digit ts) (fun cell ts =>
  match ts with
  | t :: ts' =>
      if tok_is "[" t then
        lbind (if colon_near ts then l_index ts' else l_digit ts') (fun i ts =>
        lbind (if colon_near ts then l_index ts else l_digit ts) (fun j ts =>
        lbind (if colon_near ts then l_index ts else l_digit ts) (fun k ts =>
        match ts with
        | t :: ts' => if tok_is "]" t then Some (Ok (LRange cell i j k, ts')) else Some (Py SyntaxErr)
        | [] => Some (Py SyntaxErr)
        end)))
      else Some (Py AssertionError)
  | [] => Some (Py AssertionError)
  end).

Fixpoint l_emb (fuel : nat) (ts : list str) {struct fuel} : lparsed :=
  match fuel with
  | O => None
  | S f =>                                            (* Lattice.py:39-76 *)
      match ts with
      | [] => Some (Py SyntaxErr)
      | _ => lbind (l_item f ts) (fun left ts => l_emb_loop f left ts)
      end
  end
with l_emb_loop (fuel : nat) (left : lat) (ts : list str) {struct fuel} : lparsed :=
  match fuel with
  | O => None
  | S f =>                                            (* Lattice.py:64-76 *)
      match ts with
      | t :: ts' =>
          if tok_is "<" t then lbind (l_item f ts') (fun right ts => l_emb_loop f (LEmb left right) ts)
          else Some (Ok (left, ts))
      | [] => Some (Ok (left, ts))
      end
  end
(** The three-way choice of Lattice.py:57-62 and 67-72. *)
with l_item (fuel : nat) (ts : list str) {struct fuel} : lparsed :=
  match fuel with
  | O => None
  | S f =>
      if tok_is "(" (nth 0 ts []) then l_paren f ts
      else if tok_is "[" (nth 1 ts []) then l_range ts
      else l_digit ts
  end
with l_paren (fuel : nat) (ts : list str) {struct fuel} : lparsed :=
  match fuel with
  | O => None
  | S f =>                                            (* Lattice.py:204-224 *)
      match ts with
      | [] => Some (Py IndexError)
      | _ :: ts' =>
          lbind (l_emb f ts') (fun g ts =>
          match ts with
          | t :: ts'' => if tok_is ")" t then Some (Ok (LParen g, ts'')) else Some (Py AssertionError)
          | [] => Some (Py IndexError)
          end)
      end
  end.
(** The loop over what is left (Lattice.py:417-419). *)
Fixpoint l_top (fuel : nat) (left : lat) (ts : list str) : lparsed :=
  match fuel with
  | O => None
  | S f =>
      match ts with
      | [] => Some (Ok (left, []))
      | _ => lbind (l_emb f ts) (fun right ts => l_top f (LEmb left right) ts)
      end
  end.

(** Lattice.py:406-413. *)
Definition lat_raw (s : str) : list str := map mtext (finditer re_ltoken s).
Definition nonempty (t : str) : bool := match t with [] => false | _ => true end.
Definition lat_tokens (s : str) : option (list str) :=
  let s := strip s in
  if seqb (concat (lat_raw s)) s then Some (filter nonempty (map strip (lat_raw s))) else None.
Definition lfuel (ts : list str) : nat := 8 * length ts + 8.
(** [Lattice.from_mcnp] (Lattice.py:392-423). *)
Definition lat_from_mcnp (s : str) : result lat :=
  match lat_tokens s with
  | None => Lib TypesError
  | Some ts =>
      match lbind (l_emb (lfuel ts) ts) (fun left ts' => l_top (lfuel ts) left ts') with
      | Some (Ok (l, _)) => Ok l
      | Some (Lib e) => Lib e
      | Some (Py SyntaxErr) => Lib TypesError
      | Some (Py e) => Py e
      | None => Py RuntimeErr
      end
  end.

(** The [to_mcnp] methods (Lattice.py:78-86, 166-174, 226-234, 292-300, 351-359,
    425-433). *)
Fixpoint lat_to_mcnp (l : lat) : str :=
  match l with
  | LEmb l r => lat_to_mcnp l ++ L "<" ++ lat_to_mcnp r
  | LRange c i j k => lat_to_mcnp c ++ L "[" ++ lat_to_mcnp i ++ [sp] ++ lat_to_mcnp j ++ [sp] ++ lat_to_mcnp k ++ L "]"
  | LParen l => L "(" ++ lat_to_mcnp l ++ L ")"
  | LIndex lo hi => lat_to_mcnp lo ++ L ":" ++ lat_to_mcnp hi
  | LDigit s => s
  end.
