(** Model of the scalar types: /repo/src/pymcnp/types/{Horizontal,Integer,Real,
    Distribution,Zaid,Index,Substance,Designator,String,Transformation,Tuple}.py.

    [from_mcnp] methods become functions from text to [result]; [__init__] checks
    are separate [mk_*] functions, called where the code calls the constructor. *)

From Coq Require Import Ascii String NArith ZArith Bool Arith List.
From Verif Require Import PyStr Regex RegexParse PyNum.
Import ListNotations.
Open Scope char_scope.

(** [match[n]] as the library uses it: [None] and the empty text are both falsy. *)
Definition truthy (o : option str) : option str :=
  match o with Some [] => None | _ => o end.

(** ** Horizontal.py *)

(** Horizontal.py:16-334.  Counts are the non-negative integers their
    constructors accept.  [HMultiply]'s factor is an integer: the reader only
    produces integers; API-made float factors are not modelled. *)
Inductive horiz :=
| HRepeat (n : option N)
| HInsert (n : option N)
| HMultiply (x : N)
| HJump (n : option N)
| HLog (n : option N).

Definition re_repeat : re := compile true (L "\A(\d+)?r\Z").             (* Horizontal.py:25 *)
Definition re_insert : re := compile true (L "\A(\d+)?i\Z").             (* Horizontal.py:89 *)
Definition re_multiply : re := compile true (L "\A(\d+)m\Z").            (* Horizontal.py:153 *)
Definition re_jump : re := compile true (L "\A(\d+)?j\Z").               (* Horizontal.py:217 *)
Definition re_log : re := compile true (L "\A(\d+)?(log|ilog)\Z").       (* Horizontal.py:281 *)

(** [int(tokens[1]) if tokens[1] else None] *)
Definition opt_count (o : mobj) : option N := option_map N_of_digits (truthy (group 1 o)).

(** Repeat.__init__ and friends, Horizontal.py:41-44: [n is not None and not (n >= 0)]. *)
Definition check_count (n : option Z) : result (option N) :=
  match n with
  | None => Ok None
  | Some z => if (0 <=? z)%Z then Ok (Some (Z.to_N z)) else Lib TypesError
  end.

(** Horizontal.py:46-68 *)
Definition repeat_from_mcnp (s : str) : result horiz :=
  match re_match re_repeat s with
  | None => Lib TypesError
  | Some o => Ok (HRepeat (opt_count o))
  end.
(** Horizontal.py:110-132 *)
Definition insert_from_mcnp (s : str) : result horiz :=
  match re_match re_insert s with
  | None => Lib TypesError
  | Some o => Ok (HInsert (opt_count o))
  end.
(** Horizontal.py:174-196; the constructor (155-172) refuses a zero factor. *)
Definition multiply_from_mcnp (s : str) : result horiz :=
  match re_match re_multiply s with
  | None => Lib TypesError
  | Some o =>
      let x := match group 1 o with Some t => N_of_digits t | None => 0%N end in
      if (x =? 0)%N then Lib TypesError else Ok (HMultiply x)
  end.
(** Horizontal.py:238-260 *)
Definition jump_from_mcnp (s : str) : result horiz :=
  match re_match re_jump s with
  | None => Lib TypesError
  | Some o => Ok (HJump (opt_count o))
  end.
(** Horizontal.py:302-324 *)
Definition log_from_mcnp (s : str) : result horiz :=
  match re_match re_log s with
  | None => Lib TypesError
  | Some o => Ok (HLog (opt_count o))
  end.

(** [{self.n or ""}]: 0 and None are both falsy. *)
Definition or_empty (n : option N) : str :=
  match n with Some N0 => [] | Some p => str_of_N p | None => [] end.

(** Horizontal.py:70-78, 134-142, 198-206, 262-270, 326-334. *)
Definition horiz_to_mcnp (h : horiz) : str :=
  match h with
  | HRepeat n => or_empty n ++ L "r"
  | HInsert n => or_empty n ++ L "i"
  | HMultiply x => str_of_N x ++ L "m"
  | HJump n => (match n with Some x => str_of_N x | None => [] end) ++ L "j"
  | HLog n => or_empty n ++ L "log"
  end.

(** ** Integer.py and Real.py *)

Inductive intv := IVal (z : Z) | IHor (h : horiz).
Inductive realv := RVal (d : dec) | RHor (h : horiz).

(** Integer.py:23, Real.py:23 *)
Definition pat_number : str := L "\A(?:j|log|ilog|\d*m|i|r|(?:[-+0-9.eE][-+0-9.eEdD]*))\Z".

(** The chain of [try: ... except errors.TypesError: pass], Integer.py:59-82. *)
Definition horiz_from_mcnp (s : str) : option horiz :=
  match repeat_from_mcnp s with
  | Ok h => Some h
  | _ =>
    match insert_from_mcnp s with
    | Ok h => Some h
    | _ =>
      match multiply_from_mcnp s with
      | Ok h => Some h
      | _ =>
        match jump_from_mcnp s with
        | Ok h => Some h
        | _ => match log_from_mcnp s with Ok h => Some h | _ => None end
        end
      end
    end
  end.

Definition re_fortran : re := compile false (L "([-+0-9.]+)([-+])([0-9]+)").
Definition re_dD : re := compile false (L "[dD]").

Definition grp (n : nat) (o : mobj) : str := match group n o with Some t => t | None => [] end.

(** [re.sub(r'([-+0-9.]+)([-+])([0-9]+)', r'\1e\2\3', source)] then
    [re.sub(r'[dD]', 'e', source)], Integer.py:84-85, Real.py:84-85. *)
Definition fortran (s : str) : str :=
  let s := sub re_fortran (fun o => grp 1 o ++ ["e"] ++ grp 2 o ++ grp 3 o) s in
  sub re_dD (fun _ => ["e"]) s.

(** [if source[0] == 'e': source = '1' + source]; indexing the empty text
    raises IndexError.  Integer.py:86-87, Real.py:86-87. *)
Definition lead_one (s : str) : result str :=
  match s with
  | [] => Py IndexError
  | "e" :: _ => Ok ("1" :: s)
  | _ => Ok s
  end.

(** Integer.py:44-92 *)
Definition integer_from_mcnp (s : str) : result intv :=
  match horiz_from_mcnp s with
  | Some h => Ok (IHor h)
  | None =>
      bind (lead_one (fortran s)) (fun s =>
      match to_dec s with
      | None => Lib TypesError
      | Some d => bind (dec_to_int d) (fun z => Ok (IVal z))
      end)
  end.

(** Real.py:44-92 *)
Definition real_from_mcnp (s : str) : result realv :=
  match horiz_from_mcnp s with
  | Some h => Ok (RHor h)
  | None =>
      bind (lead_one (fortran s)) (fun s =>
      match to_dec s with
      | None => Lib TypesError
      | Some d => Ok (RVal d)
      end)
  end.

(** Integer.py:94-102, Real.py:94-102: [str(self.value)]. *)
Definition integer_to_mcnp (i : intv) : str :=
  match i with IVal z => str_of_Z z | IHor h => horiz_to_mcnp h end.
Definition real_to_mcnp (r : realv) : str :=
  match r with RVal d => dec_str d | RHor h => horiz_to_mcnp h end.

(** ** Distribution.py *)

(** Distribution.py:17 (the class attribute, spliced into card patterns). *)
Definition pat_distribution : str := L "\A(?:(?:[dD](\d+))|0)\Z".
(** Distribution.py:53: the pattern [from_mcnp] really uses. *)
Definition re_distribution : re := compile false (L "\A(?:[dD](\d|\d\d|\d\d\d))|(?:0)\Z").

(** Distribution.__init__, Distribution.py:19-36: [not (0 <= n <= 999)].  An
    Integer holding a horizontal value makes the comparison raise TypeError. *)
Definition mk_distribution (n : intv) : result intv :=
  match n with
  | IVal z => if ((0 <=? z) && (z <=? 999))%Z then Ok n else Lib TypesError
  | IHor _ => Py TypeError
  end.

(** Distribution.py:38-60 *)
Definition distribution_from_mcnp (s : str) : result intv :=
  match re_match re_distribution s with
  | None => Lib TypesError
  | Some o =>
      bind (match truthy (group 1 o) with
            | Some t => integer_from_mcnp t
            | None => Ok (IVal 0)
            end) mk_distribution
  end.

(** Distribution.py:62-70 *)
Definition distribution_to_mcnp (n : intv) : str := "d" :: integer_to_mcnp n.

(** ** Zaid.py *)

Record zaid := { zz : N; za : N; zabx : option str }.

(** Zaid.py:18 *)
Definition pat_zaid : str := L "\A(\d{1,3})(\d\d\d)(?:[.](\S+))?\Z".
Definition re_zaid : re := compile true pat_zaid.

(** Zaid.__init__, Zaid.py:20-44, for API-supplied integers. *)
Definition mk_zaid (z a : Z) (abx : option str) : result zaid :=
  if ((0 <=? z) && (z <=? 999))%Z then
    if ((0 <=? a) && (a <=? 999))%Z
    then Ok {| zz := Z.to_N z; za := Z.to_N a; zabx := abx |}
    else Lib TypesError
  else Lib TypesError.

(** Zaid.py:46-66 *)
Definition zaid_from_mcnp (s : str) : result zaid :=
  match re_match re_zaid s with
  | None => Lib TypesError
  | Some o => mk_zaid (Z.of_N (N_of_digits (grp 1 o))) (Z.of_N (N_of_digits (grp 2 o))) (group 3 o)
  end.

(** Zaid.py:68-79 *)
Definition zaid_to_mcnp (x : zaid) : str :=
  let base := zpad 3 (str_of_N (zz x)) ++ zpad 3 (str_of_N (za x)) in
  match truthy (zabx x) with
  | Some t => base ++ ["."] ++ t
  | None => base
  end.

(** ** Index.py, Substance.py, Designator.py *)

(** Index.py:17 *)
Definition pat_index : str := L "\A(\S+):(\S+)\Z".
Definition re_index : re := compile true pat_index.
(** Index.py:43-66: the bounds are the raw values of two Integers. *)
Definition index_from_mcnp (s : str) : result (intv * intv) :=
  match re_match re_index s with
  | None => Lib TypesError
  | Some o =>
      bind (integer_from_mcnp (grp 1 o)) (fun lo =>
      bind (integer_from_mcnp (grp 2 o)) (fun hi => Ok (lo, hi)))
  end.
(** Index.py:68-76 *)
Definition index_to_mcnp (x : intv * intv) : str :=
  integer_to_mcnp (fst x) ++ [":"] ++ integer_to_mcnp (snd x).

(** Substance.py:18 *)
Definition pat_substance : str := L "\A(\S+) (\S+)\Z".
Definition re_substance : re := compile true pat_substance.
(** Substance.py:43-66 *)
Definition substance_from_mcnp (s : str) : result (zaid * realv) :=
  match re_match re_substance s with
  | None => Lib TypesError
  | Some o =>
      bind (zaid_from_mcnp (grp 1 o)) (fun z =>
      bind (real_from_mcnp (grp 2 o)) (fun r => Ok (z, r)))
  end.
(** Substance.py:68-76 *)
Definition substance_to_mcnp (x : zaid * realv) : str :=
  zaid_to_mcnp (fst x) ++ [sp] ++ real_to_mcnp (snd x).

(** Designator.py:16 *)
Definition pat_designator : str :=
  L "\A([nqpef|!u<v>hglb+_-~xcywo@/*zk?%^dtsa#](?:,[nqpef|!u<v>hglb+_-~xcywo@/*zk?%^dtsa#])*)\Z".
Definition re_designator : re := compile true pat_designator.
(** Designator.py:37-57 *)
Definition designator_from_mcnp (s : str) : result str :=
  match re_match re_designator s with
  | None => Lib TypesError
  | Some o => Ok (mtext o)
  end.
(** Designator.py:59-67 *)
Definition designator_to_mcnp (x : str) : str := x.

(** String.py:17, 38-53: any text is accepted and kept. *)
Definition pat_string : str := L "\A\S+\Z".
Definition string_from_mcnp (s : str) : result str := Ok s.

(** ** Transformation.py *)

(** Transformation_k has [n] real fields; [pat_transformation n] spells the
    patterns of Transformation.py:30-33 (n=12), 181 (9), 310 (8), 431 (6) and
    537 (3): the last field is starred, not plussed. *)
Fixpoint fields_pat (n : nat) : str :=
  match n with
  | O => []
  | S O => L "([\d.ed+-]*)"
  | S n' => L "([\d.ed+-]+) " ++ fields_pat n'
  end.
Definition pat_transformation (n : nat) : str :=
  L "\A(?:[(])?" ++ fields_pat n ++ L "(?: ([\d.ed+-]*))?(?:[)])?\Z".
Definition trans_fields (k : nat) : nat :=
  match k with 0 => 12 | 1 => 9 | 2 => 8 | 3 => 6 | _ => 3 end.
Definition re_transformation (k : nat) : re := compile true (pat_transformation (trans_fields k)).

Record transf := { tvals : list realv; tm : option intv }.

(** The check on [m] in each __init__, e.g. Transformation.py:100-101:
    [m is not None and m.value not in {-1, 1}]. *)
Definition mk_transf (v : list realv) (m : option intv) : result transf :=
  match m with
  | None => Ok {| tvals := v; tm := m |}
  | Some (IVal z) => if ((z =? -1) || (z =? 1))%Z then Ok {| tvals := v; tm := m |} else Lib TypesError
  | Some (IHor _) => Py TypeError
  end.

(** Transformation.py:118-151, 251-281, 375-404, 486-513, 577-601. *)
Definition transf_from_mcnp (k : nat) (s : str) : result transf :=
  match re_match (re_transformation k) s with
  | None => Lib TypesError
  | Some o =>
      let n := trans_fields k in
      bind (mapM (fun i => real_from_mcnp (grp i o)) (seq 1 n)) (fun v =>
      bind (match truthy (group (S n) o) with
            | Some t => bind (integer_from_mcnp t) (fun m => Ok (Some m))
            | None => Ok None
            end) (fun m => mk_transf v m))
  end.

(** Transformation.py:153-161, 283-291, 406-414, 515-523, 603-611: fields, a
    blank, and [m] or nothing. *)
Definition transf_to_mcnp (t : transf) : str :=
  join [sp] (map real_to_mcnp (tvals t)) ++ [sp]
  ++ match tm t with Some m => integer_to_mcnp m | None => [] end.

(** ** Tuple.py *)

(** Tuple.py:46-63: [re.finditer(pattern[2:-2], source, re.IGNORECASE)], each
    match converted on its own; the constructor (Tuple.py:27-44) accepts the
    resulting list, empty or not, because a list is never equal to [tuple()]. *)
Definition tuple_from_mcnp {A} (pat : str) (conv : str -> result A) (s : str) : result (list A) :=
  mapM (fun o => conv (mtext o)) (finditer (compile true (slice 2 2 pat)) s).
(** Tuple.py:65-73 *)
Definition tuple_to_mcnp {A} (pr : A -> str) (l : list A) : str := join [sp] (map pr l).

(** The constructor called with a Python tuple, Tuple.py:27-44: rejects [None]
    and the empty tuple.  [from_list] says the argument was a list. *)
Definition mk_tuple {A} (from_list : bool) (l : option (list (option A))) : result (list A) :=
  match l with
  | None => Lib TypesError
  | Some [] => if from_list then Ok [] else Lib TypesError
  | Some xs =>
      (fix go (xs : list (option A)) : result (list A) :=
         match xs with
         | [] => Ok []
         | None :: _ => Lib TypesError
         | Some x :: t => bind (go t) (fun ys => Ok (x :: ys))
         end) xs
  end.
