(** Cell geometries (/repo/src/pymcnp/types/Geometry.py): tokens, recursive-descent
    reader, writer, operators and drawing. *)

From Coq Require Import Ascii String NArith ZArith Bool Arith List.
From Verif Require Import PyStr Regex RegexParse Types.
Import ListNotations.
Open Scope list_scope.

(** The syntax trees: [_Intersection] (Geometry.py:9-37), [_Union] (90-118),
    [_Unary] (182-210), [_Paren] (275-299), [_Digit] (350-376). *)
Inductive geo :=
| GInter (l r : geo)
| GUnion (l r : geo)
| GUnary (op : ascii) (g : geo)
| GParen (g : geo)
| GDigit (s : str).

(** [_Digit._REGEX] (Geometry.py:358), [Geometry._REGEX] (Geometry.py:433). *)
Definition re_gdigit : re := compile false (L "\A(\d+(?:[.]\d+)?)\Z").
Definition pat_geometry : str := L "\A((?:\s*[:]\s*|\s+|\d+(?:\.\d+)?|[(+#-]\s*|\s*[)])+)\Z".
(** [Geometry._REGEX.pattern[6:-5]] (Geometry.py:471). *)
Definition re_gtoken : re := compile false (slice 6 5 pat_geometry).

(** A token is compared with one-character texts. *)
Definition tok_is (c : ascii) (t : str) : bool := seqb t [c].
Definition tok_op (t : str) : bool := tok_is "+" t || tok_is "-" t || tok_is "#" t.

(** The outcome of a reader on tokens: [None] when the fuel ran out (which it
    never does, see [parse_fuel]); Python's recursion limit is not modelled. *)
Definition parsed := option (result (geo * list str)).
Definition pbind (x : parsed) (f : geo -> list str -> parsed) : parsed :=
  match x with
  | Some (Ok (g, ts)) => f g ts
  | Some (Lib e) => Some (Lib e)
  | Some (Py e) => Some (Py e)
  | None => None
  end.

(** [_Digit.from_mcnp] (Geometry.py:378-395); the constructor's assertion is the
    same test. *)
Definition p_digit (ts : list str) : parsed :=
  match ts with
  | [] => Some (Py IndexError)
  | t :: ts' =>
      match re_match re_gdigit t with
      | Some _ => Some (Ok (GDigit t, ts'))
      | None => Some (Py AssertionError)
      end
  end.

Fixpoint p_inter (fuel : nat) (ts : list str) {struct fuel} : parsed :=
  match fuel with
  | O => None
  | S f =>                                            (* Geometry.py:39-63 *)
      pbind (p_union f ts) (fun left ts => p_inter_loop f left ts)
  end
with p_inter_loop (fuel : nat) (left : geo) (ts : list str) {struct fuel} : parsed :=
  match fuel with
  | O => None
  | S f =>                                            (* Geometry.py:56-61 *)
      match ts with
      | t :: ts' =>
          if (seqb t [] || tok_is " " t || tok_is "(" t)%bool then
            pbind (if tok_is "(" t then p_union f ts else p_union f ts')
              (fun right ts => p_inter_loop f (GInter left right) ts)
          else Some (Ok (left, ts))
      | [] => Some (Ok (left, ts))
      end
  end
with p_union (fuel : nat) (ts : list str) {struct fuel} : parsed :=
  match fuel with
  | O => None
  | S f =>                                            (* Geometry.py:120-155 *)
      match ts with
      | [] => Some (Py SyntaxErr)
      | _ => pbind (p_atom f ts) (fun left ts => p_union_loop f left ts)
      end
  end
with p_union_loop (fuel : nat) (left : geo) (ts : list str) {struct fuel} : parsed :=
  match fuel with
  | O => None
  | S f =>                                            (* Geometry.py:144-153 *)
      match ts with
      | t :: ts' =>
          if tok_is ":" t then
            match ts' with
            | [] => Some (Py IndexError)              (* tokens[1] *)
            | _ => pbind (p_atom f ts') (fun right ts => p_union_loop f (GUnion left right) ts)
            end
          else Some (Ok (left, ts))
      | [] => Some (Ok (left, ts))
      end
  end
(** The three-way choice of Geometry.py:137-142 and 145-150. *)
with p_atom (fuel : nat) (ts : list str) {struct fuel} : parsed :=
  match fuel with
  | O => None
  | S f =>
      match ts with
      | [] => Some (Py IndexError)
      | t :: _ => if tok_op t then p_unary f ts
                  else if tok_is "(" t then p_paren f ts
                  else p_digit ts
      end
  end
with p_unary (fuel : nat) (ts : list str) {struct fuel} : parsed :=
  match fuel with
  | O => None
  | S f =>                                            (* Geometry.py:212-235 *)
      match ts with
      | (op :: _) :: ts' =>
          pbind (match ts' with
                 | t :: _ => if tok_is "(" t then p_paren f ts' else p_digit ts'
                 | [] => p_digit ts'
                 end)
            (fun g ts => Some (Ok (GUnary op g, ts)))
      | _ => Some (Py AssertionError)
      end
  end
with p_paren (fuel : nat) (ts : list str) {struct fuel} : parsed :=
  match fuel with
  | O => None
  | S f =>                                            (* Geometry.py:301-323 *)
      match ts with
      | [] => Some (Py IndexError)
      | _ :: ts' =>
          pbind (p_inter f ts') (fun g ts =>
          match ts with
          | t :: ts'' => if tok_is ")" t then Some (Ok (GParen g, ts'')) else Some (Py SyntaxErr)
          | [] => Some (Py SyntaxErr)
          end)
      end
  end.

(** Geometry.py:469-476: the tokens, or [None] when the text does not tokenise. *)
Definition raw_tokens (s : str) : list str := map mtext (finditer re_gtoken s).
Definition clean_token (t : str) : str := match strip t with [] => [sp] | u => u end.
Definition geo_tokens (s : str) : option (list str) :=
  let s := strip s in
  if seqb (concat (raw_tokens s)) s then Some (map clean_token (raw_tokens s)) else None.

Definition fuel_for (ts : list str) : nat := 8 * length ts + 8.

(** [Geometry.from_mcnp] (Geometry.py:454-485). *)
Definition geo_from_mcnp (s : str) : result geo :=
  match geo_tokens s with
  | None => Lib TypesError
  | Some ts =>
      match p_inter (fuel_for ts) ts with
      | Some (Ok (g, [])) => Ok g
      | Some (Ok (_, _ :: _)) => Py AssertionError      (* assert not tokens *)
      | Some (Lib e) => Lib e
      | Some (Py SyntaxErr) => Lib TypesError
      | Some (Py e) => Py e
      | None => Py RuntimeErr
      end
  end.

(** The [to_mcnp] methods (Geometry.py:65-73, 157-165, 237-245, 325-333, 397-405,
    487-495). *)
Fixpoint geo_to_mcnp (g : geo) : str :=
  match g with
  | GInter l r => geo_to_mcnp l ++ [sp] ++ geo_to_mcnp r
  | GUnion l r => geo_to_mcnp l ++ L ":" ++ geo_to_mcnp r
  | GUnary op g => op :: geo_to_mcnp g
  | GParen g => L "(" ++ geo_to_mcnp g ++ L ")"
  | GDigit s => s
  end.

(** The operators of [Geometry] (Geometry.py:497-553). *)
Definition geo_and (a b : geo) : geo := GUnion a b.        (* 497-509 *)
Definition geo_or (a b : geo) : geo := GInter a b.         (* 511-523 *)
Definition geo_neg (a : geo) : geo := GUnary "-"%char a.   (* 525-533 *)
Definition geo_pos (a : geo) : geo := GUnary "+"%char a.   (* 535-543 *)
Definition geo_inv (a : geo) : geo := GUnary "#"%char a.   (* 545-553 *)

(** The [to_show] methods (Geometry.py:75-87, 167-179, 247-272, 335-347, 407-422)
    over shapes of points [P]. A shape is its membership function, the [cell]
    attribute of [PyvistaShape]; the mesh, its other attribute, is not modelled
    (/repo/src/pymcnp/_show/pyvista/_shape.py:32-72). [surfaces] and [cells] are
    the dictionaries. *)
Section Show.
  Variable P : Type.
  Definition shape := P -> bool.
  Definition shape_and (a b : shape) : shape := fun p => a p && b p.     (* _shape.py:32-44 *)
  Definition shape_or (a b : shape) : shape := fun p => a p || b p.      (* _shape.py:46-58 *)
  Definition shape_invert (a : shape) : shape := fun p => negb (a p).    (* _shape.py:60-68 *)
  Definition shape_add (a b : shape) : shape := fun p => a p || b p.     (* _shape.py:18-30 *)
  Variables surfaces cells : str -> option shape.

  Definition show_digit (s : str) : result shape :=
    match surfaces s with Some f => Ok f | None => Lib TypesError end.
  Fixpoint to_show (g : geo) : result shape :=
    match g with
    | GInter l r => bind (to_show l) (fun a => bind (to_show r) (fun b => Ok (shape_and a b)))
    | GUnion l r => bind (to_show l) (fun a => bind (to_show r) (fun b => Ok (shape_or a b)))
    | GUnary op g =>
        if ceqb op "+" then to_show g
        else if ceqb op "-" then bind (to_show g) (fun a => Ok (shape_invert a))
        else match g with
             | GDigit s => match cells s with
                           | Some f => Ok f
                           | None => match surfaces s with Some f => Ok f | None => Lib TypesError end
                           end
             | _ => bind (to_show g) (fun a => Ok (shape_invert a))
             end
    | GParen g => to_show g
    | GDigit s => show_digit s
    end.
End Show.
