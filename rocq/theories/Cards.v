(** Model of INP cards, options and entries: the generic readers and writers
    (/repo/src/pymcnp/inp/_card.py, _option.py, _entry.py) and the setters and
    constructors every card, option and entry class spells out
    (/repo/src/pymcnp/inp/**/*.py, e.g. Nps.py:10-130).

    A class is a record ([cls]): keyword, pattern, attributes.  Tables.v lists
    the classes of the library. *)

From Coq Require Import Ascii String NArith ZArith Bool Arith List.
From Verif Require Import PyStr Regex RegexParse PyNum Types CardText.
From Verif Require Lattice.
Import ListNotations.
Open Scope char_scope.
Open Scope list_scope.

(** * Attribute types *)

(** The types named in [_ATTRS].  [TExt n p] is another INP class or family of
    classes, called [n] in Tables.v, with pattern [p]. *)
Inductive ty :=
| TInt | TReal | TStr | TDist | TZaid | TDesig | TSub | TIndex | TTr (k : nat) | TLat
| TExt (name : string) (pat : str).
(** [T] or [types.Tuple(T)]. *)
Inductive aty := One (t : ty) | Tup (t : ty).

(** [T._REGEX.pattern]. *)
Definition pat_of (t : ty) : str :=
  match t with
  | TInt | TReal => pat_number
  | TStr => pat_string
  | TDist => pat_distribution
  | TZaid => pat_zaid
  | TDesig => pat_designator
  | TSub => pat_substance
  | TIndex => pat_index
  | TTr k => pat_transformation (trans_fields k)
  | TLat => Lattice.pat_lattice
  | TExt _ p => p
  end.

(** [Nonterminal._REGEX], /repo/src/pymcnp/_symbol.py:40-44: the alternatives
    of the subclasses without their anchors. *)
Definition union_pat (ps : list str) : str :=
  L "\A" ++ join (L "|") (map (slice 2 2) ps) ++ L "\Z".

(** * Setter tests

    The tests of the setters, e.g. [npp is None or not (npp > 0)] (Nps.py:70),
    as syntax.  [EX] is the argument after conversion, [ESelf n] is [self.n]. *)
Inductive cmpop := OLt | OLe | OGt | OGe | OEq | ONe.
Inductive nexp :=
| EX
| EZ (z : Z) | ED (d : dec) | ES (s : str)
| ESelf (name : string)
| EVal (e : nexp)                    (* e.value *)
| ELower (e : nexp)                  (* e.value.lower() *)
| ELen (e : nexp)                    (* len(e) *)
| EMin (e : nexp)                    (* min(map(lambda x: x, e)) *)
| EMod (e : nexp) (n : Z)            (* e % n *)
| EMul (n : Z) (e : nexp)            (* n * e *)
| EIte (b : bexp) (e f : nexp)       (* e if b else f *)
with bexp :=
| BConst (b : bool)
| BIsNone (e : nexp)
| BNot (b : bexp)
| BAnd (a b : bexp)
| BOr (a b : bexp)
| BIte (b c d : bexp)                (* c if b else d *)
| BCmp (o : cmpop) (e f : nexp)
| BIn (e : nexp) (l : list nexp)     (* e in {...} *)
| BJump (e : nexp)                   (* isinstance(e.value, types.Jump) *)
| BTruth (e : nexp)
| BExt (name : string).              (* a test that is not modelled *)

(** How the objects of a class are written: as cards (_card.py), options (_option.py),
    entries (_entry.py), or by a [to_mcnp] of their own ([KOwn]). *)
Inductive own :=
| OChain                             (* sdef/tme_1/Embedded.py:58-66 *)
| OFilter                            (* ptrac/filter/Entry.py:41-49 *)
| OWord (w : str)                    (* Ds_1.py:38-45, Ds_2.py:38-45, Ds_3.py:37-44 *)
| ORings.                            (* F_2.py:58-66 *)
Inductive kind := KCard | KOption | KEntry | KOwn (o : own).
Record attr := { a_name : string; a_ty : aty; a_checks : list bexp }.
Record cls := { c_name : string; c_kind : kind; c_kw : str; c_pat : str; c_attrs : list attr }.

(** * Values *)

(** Attribute values.  [VObj c l] is an object of class [c] with attribute
    values [l]; [VPyInt] and [VPyStr] are plain Python values (a setter stores an
    argument of an unexpected type unchanged). *)
Inductive val :=
| VInt (i : intv) | VReal (r : realv) | VStr (s : str) | VDist (n : intv)
| VZaid (z : zaid) | VDesig (s : str) | VSub (x : zaid * realv) | VIndex (x : intv * intv)
| VTr (k : nat) (t : transf) | VLat (l : Lattice.lat)
| VObj (c : cls) (l : list (option val))
| VTup (l : list val)
| VPyInt (z : Z) | VPyStr (s : str).

(** [isinstance(v, T)]; the members of a family are given by [fam]. *)
Definition is_ty (fam : string -> list cls) (t : ty) (v : val) : bool :=
  match t, v with
  | TInt, VInt _ | TReal, VReal _ | TStr, VStr _ | TDist, VDist _ | TZaid, VZaid _
  | TDesig, VDesig _ | TSub, VSub _ | TIndex, VIndex _ | TLat, VLat _ => true
  | TTr k, VTr k' _ => Nat.eqb k k'
  | TExt n _, VObj c _ => existsb (fun d => String.eqb (c_name c) (c_name d)) (fam n)
  | _, _ => false
  end.

(** ** Writing *)

(** The names [prefix], [suffix], [designator] (_card.py:47-52) are written around
    the keyword. *)
Definition head_attr (n : string) : bool :=
  (String.eqb n "prefix" || String.eqb n "suffix" || String.eqb n "designator")%bool.

Fixpoint assoc {A} (n : string) (l : list (string * A)) : option A :=
  match l with
  | [] => None
  | (x, v) :: t => if String.eqb x n then Some v else assoc n t
  end.

(** The f-string of _card.py:52 and _option.py:54, given the texts of the
    attributes ([None] for an unset one). *)
Definition head_text (kw : str) (l : list (string * option str)) : str :=
  let get n := match assoc n l with Some (Some t) => t | _ => [] end in
  get "prefix"%string ++ kw ++ get "suffix"%string
  ++ match assoc "designator"%string l with Some (Some t) => ":" :: t | _ => [] end.
(** _card.py:46-50: the other attributes that are set, joined by blanks. *)
Definition value_text (l : list (string * option str)) : str :=
  join [sp] (flat_map (fun x => if head_attr (fst x) then [] else match snd x with Some t => [t] | None => [] end) l).
(** The writers of their own, given the texts of the attributes. *)
Definition own_text (o : own) (kw : str) (l : list (string * option str)) : str :=
  let get n := match assoc n l with Some (Some t) => t | _ => [] end in
  match o with
  | OChain =>   (* ['<'.join(...)]: no text of a distribution has a blank in it *)
      map (fun c => if ceqb c sp then "<" else c) (get "distributions"%string)
  | OFilter =>
      get "lower"%string ++ "," :: match assoc "variable"%string l with Some (Some t) => t | _ => L "None" end
      ++ match assoc "upper"%string l with Some (Some t) => "," :: t | _ => [] end
  | OWord w => kw ++ get "suffix"%string ++ [sp] ++ w ++ [sp] ++ value_text l
  | ORings =>
      get "prefix"%string ++ kw ++ get "suffix"%string ++ get "a"%string
      ++ match assoc "designator"%string l with Some (Some t) => ":" :: t | _ => [] end
      ++ [sp] ++ get "rings"%string ++ [sp] ++ get "nd"%string
  end.
(** _card.py:37-55, _option.py:41-57, _entry.py:41-55, before [_postprocess]. *)
Definition obj_text (c : cls) (l : list (string * option str)) : str :=
  match c_kind c with
  | KOwn o => own_text o (c_kw c) l
  | KEntry => join [sp] (flat_map (fun x => match snd x with Some t => [t] | None => [] end) l)
  | _ => head_text (c_kw c) l ++ [sp] ++ value_text l
  end.

(** [str(v)]: [to_mcnp] of the value's type. *)
Fixpoint write (v : val) : str :=
  match v with
  | VInt i => integer_to_mcnp i
  | VReal r => real_to_mcnp r
  | VStr s => s
  | VDist n => distribution_to_mcnp n
  | VZaid z => zaid_to_mcnp z
  | VDesig s => s
  | VSub x => substance_to_mcnp x
  | VIndex x => index_to_mcnp x
  | VTr _ t => transf_to_mcnp t
  | VLat l => Lattice.lat_to_mcnp l
  | VObj c l =>
      obj_text c (combine (map a_name (c_attrs c))
                          (map (fun o => match o with Some x => Some (write x) | None => None end) l))
  | VTup l => join [sp] (map write l)
  | VPyInt z => str_of_Z z
  | VPyStr s => s
  end.

(** * Reading attribute values *)

Section Read.
  (** Readers of the other INP classes, by name in Tables.v. *)
  Variable ext : string -> str -> result val.

  (** [T.from_mcnp(s)]. *)
  Definition read_ty (t : ty) (s : str) : result val :=
    match t with
    | TInt => bind (integer_from_mcnp s) (fun x => Ok (VInt x))
    | TReal => bind (real_from_mcnp s) (fun x => Ok (VReal x))
    | TStr => bind (string_from_mcnp s) (fun x => Ok (VStr x))
    | TDist => bind (distribution_from_mcnp s) (fun x => Ok (VDist x))
    | TZaid => bind (zaid_from_mcnp s) (fun x => Ok (VZaid x))
    | TDesig => bind (designator_from_mcnp s) (fun x => Ok (VDesig x))
    | TSub => bind (substance_from_mcnp s) (fun x => Ok (VSub x))
    | TIndex => bind (index_from_mcnp s) (fun x => Ok (VIndex x))
    | TTr k => bind (transf_from_mcnp k s) (fun x => Ok (VTr k x))
    | TLat => bind (Lattice.lat_from_mcnp s) (fun x => Ok (VLat x))
    | TExt n _ => ext n s
    end.
  (** [types.Tuple(T).from_mcnp(s)], Tuple.py:46-63. *)
  Definition read_aty (a : aty) (s : str) : result val :=
    match a with
    | One t => read_ty t s
    | Tup t => bind (tuple_from_mcnp (pat_of t) (read_ty t) s) (fun l => Ok (VTup l))
    end.
End Read.

(** * Evaluating setter tests *)

(** Objects: attributes stored so far (a constructor stores them one by one). *)
Definition obj := list (string * option val).

Definition upd (n : string) (v : option val) : obj -> obj :=
  fix go o := match o with
              | [] => [(n, v)]
              | (x, w) :: t => if String.eqb x n then (x, v) :: t else (x, w) :: go t
              end.

(** What an expression evaluates to: a library value, a plain Python value. *)
Inductive pv :=
| PNone
| PLib (v : val)
| PZ (z : Z) | PD (d : dec) | PS (s : str)
| PHor (h : horiz).                              (* the bare value of Integer(Jump()) *)

(** Decimal comparison; [None] when a NaN is involved.  Exponents are aligned. *)
Definition fin_Z (neg : bool) (c : N) (k : Z) : Z :=
  let z := (Z.of_N c * 10 ^ k)%Z in if neg then Z.opp z else z.
Definition dec_cmp (a b : dec) : option comparison :=
  match a, b with
  | Fin n c e, Fin n' c' e' =>
      let lo := Z.min e e' in
      Some (Z.compare (fin_Z n c (e - lo)) (fin_Z n' c' (e' - lo)))
  | Inf n, Inf n' => Some (if Bool.eqb n n' then Eq else if n then Lt else Gt)
  | Inf n, Fin _ _ _ => Some (if n then Lt else Gt)
  | Fin _ _ _, Inf n => Some (if n then Gt else Lt)
  | _, _ => None
  end.
Definition is_snan (d : dec) : bool := match d with NaN _ true _ => true | _ => false end.

Definition of_cmp (o : cmpop) (c : comparison) : bool :=
  match o, c with
  | OLt, Lt | OLe, Lt | OLe, Eq | OGt, Gt | OGe, Gt | OGe, Eq | OEq, Eq | ONe, Lt | ONe, Gt => true
  | _, _ => false
  end.
Definition ordering (o : cmpop) : bool := match o with OEq | ONe => false | _ => true end.

(** Comparing decimals: a NaN is unequal to everything and has no order
    (decimal.InvalidOperation); comparing a signalling NaN raises. *)
Definition cmp_dec (o : cmpop) (a b : dec) : result bool :=
  match dec_cmp a b with
  | Some c => Ok (of_cmp o c)
  | None =>
      if (ordering o || is_snan a || is_snan b)%bool then Py InvalidOperation
      else Ok (match o with ONe => true | _ => false end)
  end.

(** The number behind an operand: [a.value] of an Integer or Real, a constant. *)
Inductive num := NZ (z : Z) | ND (d : dec) | NHor (h : horiz) | NStr (s : str) | NNo.
Definition num_of (p : pv) : num :=
  match p with
  | PLib (VInt (IVal z)) | PLib (VPyInt z) | PZ z => NZ z
  | PLib (VReal (RVal d)) | PD d => ND d
  | PLib (VInt (IHor h)) | PLib (VReal (RHor h)) | PHor h => NHor h
  | PLib (VStr s) | PLib (VPyStr s) | PS s => NStr s
  | _ => NNo
  end.
Definition dec_Z (z : Z) : dec := Fin (z <? 0)%Z (Z.abs_N z) 0.

(** [p op q] (Integer.py:150-188, Real.py:155-213, String.py:90-130).  Orderings
    of a horizontal value raise TypeError; it equals no number (the shorthand is
    compared as text, _symbol.py:60-61).  Orderings of texts, and an Integer
    against a float, do not occur in the setters. *)
Definition compare (o : cmpop) (p q : pv) : result bool :=
  match num_of p, num_of q with
  | NZ a, NZ b => Ok (of_cmp o (Z.compare a b))
  | NZ a, ND b => cmp_dec o (dec_Z a) b
  | ND a, NZ b => cmp_dec o a (dec_Z b)
  | ND a, ND b => cmp_dec o a b
  | NHor g, NHor h =>
      if ordering o then Py TypeError
      else Ok (of_cmp o (if seqb (horiz_to_mcnp g) (horiz_to_mcnp h) then Eq else Lt))
  | NStr a, NStr b =>
      if ordering o then Py TypeError else Ok (of_cmp o (if seqb a b then Eq else Lt))
  | _, _ => if ordering o then Py TypeError else Ok (match o with ONe => true | _ => false end)
  end.

(** [hash(p)]: Integer and Real of a horizontal value cannot be hashed (the
    shorthand classes define [__eq__] only), nor can a signalling NaN, nor the
    library's other types. *)
Definition hashable (p : pv) : bool :=
  match p with
  | PLib (VInt (IVal _)) | PLib (VStr _) | PLib (VPyInt _) | PLib (VPyStr _) | PZ _ | PS _ | PNone => true
  | PLib (VReal (RVal d)) | PD d => negb (is_snan d)
  | _ => false
  end.

(** [x.value] (Integer.py:41, Real.py:41, String.py:36, Tuple.py:44). *)
Definition value_of (p : pv) : result pv :=
  match p with
  | PLib (VInt (IVal z)) => Ok (PZ z)
  | PLib (VReal (RVal d)) => Ok (PD d)
  | PLib (VInt (IHor h)) | PLib (VReal (RHor h)) => Ok (PHor h)
  | PLib (VStr s) => Ok (PS s)
  | PLib (VTup l) => Ok p
  | _ => Py AttributeError
  end.

Definition opt_pv (o : option val) : pv := match o with Some v => PLib v | None => PNone end.

(** [bool(p)]: [Integer.__bool__] asks the value for [__bool__] (Integer.py:117),
    which a horizontal value does not have. *)
Definition truth (p : pv) : result bool :=
  match p with
  | PNone => Ok false
  | PLib (VInt (IVal z)) | PLib (VPyInt z) | PZ z => Ok (negb (z =? 0)%Z)
  | PLib (VReal (RVal (Fin _ c _))) | PD (Fin _ c _) => Ok (negb (c =? 0)%N)
  | PLib (VReal (RVal _)) | PD _ => Ok true
  | PLib (VInt (IHor _)) | PLib (VReal (RHor _)) => Py AttributeError
  | PLib (VStr s) | PLib (VPyStr s) | PS s => Ok (negb (seqb s []))
  | _ => Ok true
  end.

(** [min] over the values of a sequence: the running minimum is replaced when a
    later element is smaller. *)
Fixpoint pmin (best : pv) (l : list pv) : result pv :=
  match l with
  | [] => Ok best
  | x :: t => bind (compare OLt x best) (fun b => pmin (if b then x else best) t)
  end.

Section Eval.
  Variables (o : obj) (x : option val).

  Fixpoint neval (e : nexp) : result pv :=
    match e with
    | EX => Ok (opt_pv x)
    | EZ z => Ok (PZ z)
    | ED d => Ok (PD d)
    | ES s => Ok (PS s)
    | ESelf n => match assoc n o with Some v => Ok (opt_pv v) | None => Py AttributeError end
    | EVal e => bind (neval e) value_of
    | ELower e =>
        bind (neval e) (fun p => bind (value_of p) (fun q =>
        match q with PS s => Ok (PS (slower s)) | _ => Py AttributeError end))
    | ELen e =>
        bind (neval e) (fun p =>
        match p with
        | PLib (VStr s) | PLib (VPyStr s) => Ok (PZ (Z.of_nat (length s)))
        | _ => Py TypeError
        end)
    | EMin e =>
        bind (neval e) (fun p =>
        match p with
        | PLib (VTup []) => Py ValueError
        | PLib (VTup (v :: l)) => pmin (PLib v) (map PLib l)
        | _ => Py TypeError
        end)
    | EMod e n =>
        bind (neval e) (fun p =>
        match p with
        | PLib (VInt (IVal z)) | PLib (VPyInt z) => Ok (PZ (z mod n))
        | PLib (VInt (IHor _)) => Py AttributeError
        | _ => Py TypeError
        end)
    | EMul n e =>
        bind (neval e) (fun p =>
        match p with
        | PLib (VInt (IVal z)) | PLib (VPyInt z) | PZ z => Ok (PZ (n * z))
        | PLib (VInt (IHor _)) => Py AttributeError
        | _ => Py TypeError
        end)
    | EIte b e f => bind (beval b) (fun c => if c then neval e else neval f)
    end
  with beval (b : bexp) : result bool :=
    match b with
    | BConst c => Ok c
    | BIsNone e => bind (neval e) (fun p => Ok (match p with PNone => true | _ => false end))
    | BNot b => bind (beval b) (fun c => Ok (negb c))
    | BAnd a b => bind (beval a) (fun c => if c then beval b else Ok false)
    | BOr a b => bind (beval a) (fun c => if c then Ok true else beval b)
    | BIte b c d => bind (beval b) (fun z => if z then beval c else beval d)
    | BCmp op e f => bind (neval e) (fun p => bind (neval f) (fun q => compare op p q))
    | BIn e l =>
        bind (neval e) (fun p =>
        if hashable p then
          (fix any l := match l with
                        | [] => Ok false
                        | f :: l' => bind (neval f) (fun q =>
                                     bind (compare OEq p q) (fun c => if c then Ok true else any l'))
                        end) l
        else Py TypeError)
    | BJump e =>
        bind (neval e) (fun p => bind (value_of p) (fun q =>
        Ok (match q with PHor (HJump _) => true | _ => false end)))
    | BTruth e => bind (neval e) truth
    | BExt _ => Ok false
    end.
End Eval.

(** * Setters and constructors *)

(** Arguments a caller may pass: [None], an [int], a [str], a library value or
    a list of these.  Python [float]s are not modelled (a Real built from text
    stands for them). *)
Inductive arg := ANone | AInt (z : Z) | AStr (s : str) | AVal (v : val) | AList (l : list arg).

Section Setters.
  Variable ext : string -> str -> result val.
  Variable fam : string -> list cls.

  (** [T(z)] for an [int]: only Integer and Real setters accept one. *)
  Definition from_int (t : ty) (z : Z) : option val :=
    match t with
    | TInt => Some (VInt (IVal z))
    | TReal => Some (VReal (RVal (dec_Z z)))
    | _ => None
    end.

  (** One item of a sequence; an item of another type is dropped. *)
  Definition conv_item (t : ty) (a : arg) : result (list val) :=
    match a with
    | AVal v => Ok (if is_ty fam t v then [v] else [])
    | AInt z => Ok (match from_int t z with Some v => [v] | None => [] end)
    | AStr s => bind (read_ty ext t s) (fun v => Ok [v])
    | _ => Ok []
    end.

  (** [for item in arg]: the items of an iterable argument. *)
  Definition items (a : arg) : option (list arg) :=
    match a with
    | AList l => Some l
    | AStr s | AVal (VStr s) => Some (map (fun c => AStr [c]) s)
    | AVal (VTup l) => Some (map AVal l)
    | _ => None
    end.

  (** The first part of every setter: conversion of the argument, e.g.
      Nps.py:62-68 (scalars) and Area.py:62-71 (sequences).  A scalar of another
      type is kept as it is. *)
  Definition conv (t : aty) (a : arg) : result (option val) :=
    match t, a with
    | _, ANone => Ok None
    | One t, AVal v => Ok (Some v)
    | One t, AInt z => Ok (Some (match from_int t z with Some v => v | None => VPyInt z end))
    | One t, AStr s => bind (read_ty ext t s) (fun v => Ok (Some v))
    | One t, AList _ => Py TypeError (* not modelled: a list given to a scalar attribute *)
    | Tup t, _ =>
        match items a with
        | None => Py TypeError
        | Some l => bind (mapM (conv_item t) l) (fun vs => Ok (Some (VTup (concat vs))))
        end
    end.

  (** [if test: raise errors.InpError(...)], test after test. *)
  Fixpoint run_checks (o : obj) (x : option val) (l : list bexp) : result unit :=
    match l with
    | [] => Ok tt
    | b :: t => bind (beval o x b) (fun c => if c then Lib InpError else run_checks o x t)
    end.

  (** A setter: the object afterwards, and how the call ended. *)
  Definition set_attr (a : attr) (v : arg) (o : obj) : obj * result unit :=
    match conv (a_ty a) v with
    | Ok x =>
        match run_checks o x (a_checks a) with
        | Ok _ => (upd (a_name a) x o, Ok tt)
        | Lib e => (o, Lib e)
        | Py e => (o, Py e)
        end
    | Lib e => (o, Lib e)
    | Py e => (o, Py e)
    end.

  (** [__init__]: every attribute through its setter, in [_ATTRS] order. *)
  Fixpoint init_attrs (l : list (attr * arg)) (o : obj) : result obj :=
    match l with
    | [] => Ok o
    | (a, v) :: t =>
        match set_attr a v o with
        | (o', Ok _) => init_attrs t o'
        | (_, Lib e) => Lib e
        | (_, Py e) => Py e
        end
    end.
  Definition construct (c : cls) (args : list arg) : result obj :=
    init_attrs (combine (c_attrs c) args) [].

  (** * Readers *)

  (** _card.py:29-31: [attr.from_mcnp(tokens[i+1].strip()) if tokens[i+1] else None]. *)
  Definition read_attr (t : aty) (g : option str) : result (option val) :=
    match truthy g with
    | Some s => bind (read_aty ext t (strip s)) (fun v => Ok (Some v))
    | None => Ok None
    end.
  Fixpoint read_attrs (i : nat) (l : list attr) (m : mobj) : result (list (option val)) :=
    match l with
    | [] => Ok []
    | a :: t =>
        bind (read_attr (a_ty a) (group i m)) (fun v =>
        bind (read_attrs (S i) t m) (fun vs => Ok (v :: vs)))
    end.
  Definition to_arg (v : option val) : arg := match v with Some x => AVal x | None => ANone end.
  Definition read_cls (c : cls) (m : mobj) : result obj :=
    bind (read_attrs 1 (c_attrs c) m) (fun vs => construct c (map to_arg vs)).

  (** Card.from_mcnp, _card.py:13-35: the card and its comments. *)
  Definition card_from_mcnp (c : cls) (s : str) : result (obj * list str) :=
    let '(t, comments) := card_preprocess s in
    match re_match (compile true (c_pat c)) t with
    | None => Lib InpError
    | Some m => bind (read_cls c m) (fun o => Ok (o, comments))
    end.

  (** Option.from_mcnp and Entry.from_mcnp, _option.py:12-39, _entry.py:12-39: the
      first class of the family whose pattern matches the whole text. *)
  Fixpoint first_match (cs : list cls) (s : str) : option (cls * mobj) :=
    match cs with
    | [] => None
    | c :: t =>
        match re_match (compile true (c_pat c)) s with
        | Some m => if seqb (mtext m) s then Some (c, m) else first_match t s
        | None => first_match t s
        end
    end.
  Definition family_from_mcnp (cs : list cls) (s : str) : result (cls * obj) :=
    let t := preprocess s in
    match first_match cs t with
    | None => Lib InpError
    | Some (c, m) => bind (read_cls c m) (fun o => Ok (c, o))
    end.
End Setters.

(** Object to value, for nesting. *)
Definition obj_val (c : cls) (o : obj) : val := VObj c (map snd o).

(** The readers of nested classes: [n] levels of nesting, families from a table. *)
Fixpoint ext_of (fam : string -> list cls) (n : nat) (name : string) (s : str) : result val :=
  match n with
  | O => Lib InpError
  | S n' => bind (family_from_mcnp (ext_of fam n') fam (fam name) s) (fun x => Ok (obj_val (fst x) (snd x)))
  end.

(** Writers of whole objects. *)
Definition texts (o : obj) : list (string * option str) :=
  map (fun x => (fst x, match snd x with Some v => Some (write v) | None => None end)) o.
(** Option.to_mcnp, _option.py:41-57; Entry.to_mcnp, _entry.py:41-55. *)
Definition option_to_mcnp (c : cls) (o : obj) : str := obj_text c (texts o).
(** Card.to_mcnp, _card.py:37-57. *)
Definition card_to_mcnp (c : cls) (o : obj) : str :=
  match c_kind c with
  | KOwn _ => obj_text c (texts o)   (* a writer of its own does not call [_postprocess] *)
  | _ => postprocess (strip (obj_text c (texts o)))
  end.
