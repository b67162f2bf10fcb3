(** Specification vocabulary for cards and options of the regular form: keyword,
    suffix number, designator, then blank-separated value fields. *)

From Coq Require Import Ascii String NArith ZArith Bool Arith List.
From Verif Require Import PyStr Regex RegexParse PyNum Types TypesSpec CardText CardTextSpec Cards.
Import ListNotations.
Open Scope char_scope.
Open Scope list_scope.

(** * The regular form

    [\A([*])?keyword(\d+)?(?::(\S+))?( T1)( T2)?...((?: Tn)+?)?\Z]: an optional
    star, the keyword, an optional number, an optional designator, then fields.
    [f_suffix] and [f_desig] say whether the part exists and whether it is
    optional; every field has a type and says whether it is optional. *)
Record form := { f_prefix : bool; f_suffix : option bool; f_desig : option bool; f_fields : list (aty * bool) }.

(** Group numbers of an inner pattern move up by [k]. *)
Fixpoint shift (k : nat) (r : re) : re :=
  match r with
  | RCat a b => RCat (shift k a) (shift k b)
  | RAlt a b => RAlt (shift k a) (shift k b)
  | RRep lz mn mx a => RRep lz mn mx (shift k a)
  | RGrp n a => RGrp (k + n) (shift k a)
  | r => r
  end.

Definition ty_re (t : ty) : re := compile true (slice 2 2 (pat_of t)).
Definition opt_re (o : bool) (r : re) : re := if o then RRep false 0 (Some 1) r else r.
Definition chr_re (c : ascii) : re := RSet {| cneg := false; cranges := [(code c, code c)] |}.
Definition digits_re : re := RRep false 1 None (RSet {| cneg := false; cranges := [(48, 57)%N] |}).
Definition nonblank_re : re := compile true (L "\S+").

Definition field_re (g : nat) (a : aty) : re :=
  match a with
  | One t => RGrp g (RCat (chr_re sp) (shift g (ty_re t)))
  | Tup t => RGrp g (RRep true 1 None (RCat (chr_re sp) (shift g (ty_re t))))
  end.
Fixpoint fields_re (g : nat) (l : list (aty * bool)) : re :=
  match l with
  | [] => REnd
  | (a, o) :: l' => RCat (opt_re o (field_re g a)) (fields_re (S g) l')
  end.
Definition lits_re (kw : str) (tail : re) : re :=
  fold_right (fun c r => RCat (RSet (lit_set true c)) r) tail kw.
Definition present {A} (o : option A) : nat := match o with Some _ => 1 | None => 0 end.
Definition form_re (kw : str) (f : form) : re :=
  let n1 := if f_prefix f then 2 else 1 in
  let n2 := n1 + present (f_suffix f) in
  let n3 := n2 + present (f_desig f) in
  let tail := fields_re n3 (f_fields f) in
  let tail := match f_desig f with
              | Some false => RCat (chr_re ":") (RCat (RGrp n2 nonblank_re) tail)
              | Some true => RCat (RRep false 0 (Some 1) (RCat (chr_re ":") (RGrp n2 nonblank_re))) tail
              | None => tail
              end in
  let tail := match f_suffix f with
              | Some o => RCat (opt_re o (RGrp n1 digits_re)) tail
              | None => tail
              end in
  let tail := lits_re kw tail in
  RCat RBeg (if f_prefix f then RCat (RRep false 0 (Some 1) (RGrp 1 (chr_re "*"))) tail else tail).

(** The attributes written around the keyword: name, type, optional or not. *)
Definition head_parts (f : form) : list (string * aty * bool) :=
  (if f_prefix f then [("prefix"%string, One TStr, true)] else [])
  ++ (match f_suffix f with Some o => [("suffix"%string, One TInt, o)] | None => [] end)
  ++ (match f_desig f with Some o => [("designator"%string, One TDesig, o)] | None => [] end).

(** Types whose written values are single words. *)
Definition word_ty (t : ty) : bool :=
  match t with TInt | TReal | TStr | TDist | TZaid | TDesig => true | _ => false end.
Definition has_groups (t : ty) : bool := match t with TDist | TZaid | TDesig => true | _ => false end.
Definition ty_of (a : aty) : ty := match a with One t | Tup t => t end.

(** A sequence, or a type whose pattern has groups of its own, may only come last. *)
Fixpoint fields_ok (l : list (aty * bool)) : bool :=
  match l with
  | [] => true
  | [(a, _)] => word_ty (ty_of a)
  | (One t, _) :: l' => word_ty t && negb (has_groups t) && fields_ok l'
  | _ => false
  end.

(** Keywords: a non-empty word of lower-case letters, digits and [:/_]. *)
Definition kw_char (c : ascii) : bool :=
  let n := code c in
  ((97 <=? n) && (n <=? 122) || (48 <=? n) && (n <=? 57) || (n =? 58) || (n =? 47) || (n =? 95))%N%bool.

(** A class of cards or options with the generic writer: its texts begin with the
    keyword and what goes around it. *)
Definition headed (c : cls) : Prop := c_kind c = KCard \/ c_kind c = KOption.

(** [c] has the form [f]: its pattern is that of the form, and its attributes are
    the parts around the keyword followed by the fields, each of the field's type. *)
Definition has_form (c : cls) (f : form) : Prop :=
  compile true (c_pat c) = form_re (c_kw c) f /\
  (exists hd fs, c_attrs c = hd ++ fs /\
     map (fun a => (a_name a, a_ty a)) hd = map fst (head_parts f) /\
     map a_ty fs = map fst (f_fields f) /\
     Forall (fun a => head_attr (a_name a) = false) fs) /\
  NoDup (map a_name (c_attrs c)) /\
  fields_ok (f_fields f) = true /\
  c_kw c <> [] /\ forallb kw_char (c_kw c) = true.

(** * Values that can be written and read back *)

(** A word the text layer leaves alone: clean, not a counted shorthand, and in
    lower case when it is a shorthand word. *)
Definition plain_word (w : str) : Prop :=
  clean w /\ (forall k n, ~ counted k n w) /\ (forall k, is_short k w = true -> w = short_name k).

(** Numbers and uncounted shorthand; words; distribution numbers up to 9 (C07);
    zaids; designators the reader accepts. *)
Definition val_ok (t : ty) (v : val) : Prop :=
  match t, v with
  | TInt, VInt i => int_seq i = true
  | TReal, VReal r => real_seq r = true
  | TStr, VStr s => plain_word s
  | TDist, VDist n => exists k, (k <= 9)%N /\ n = IVal (Z.of_N k)
  | TZaid, VZaid z => zaid_ok z /\ plain_word (zaid_to_mcnp z)
  | TDesig, VDesig s => designator_from_mcnp s = Ok s /\ plain_word s
  | _, _ => False
  end.
Definition aval_ok (a : aty) (v : val) : Prop :=
  match a, v with
  | One t, _ => val_ok t v
  | Tup t, VTup l => l <> [] /\ Forall (val_ok t) l
  | Tup _, _ => False
  end.

(** The value of a star, of a number after the keyword, of a designator; unset
    only when the part is optional. *)
Definition head_ok (p : string * aty * bool) (o : option val) : Prop :=
  let '(n, _, opt) := p in
  match o with
  | None => opt = true
  | Some v =>
      if String.eqb n "prefix" then v = VStr (L "*")
      else if String.eqb n "suffix" then exists k, v = VInt (IVal (Z.of_N k)) /\ int_seq (IVal (Z.of_N k)) = true
      else exists s, v = VDesig s /\ designator_from_mcnp s = Ok s
  end.

(** Field values without gaps: once a field is unset all later ones are, and
    every field that is not optional is set. *)
Fixpoint gapless (l : list (aty * bool)) (vs : list (option val)) : Prop :=
  match l, vs with
  | [], [] => True
  | (a, o) :: l', Some v :: vs' => aval_ok a v /\ gapless l' vs'
  | (a, o) :: l', None :: vs' => Forall (fun x => snd x = true) ((a, o) :: l') /\ Forall (fun v => v = None) vs' /\ length vs' = length l'
  | _, _ => False
  end.

(** The attribute values [vs] of an object of a class with form [f]. *)
Definition values_ok (f : form) (vs : list (option val)) : Prop :=
  exists hs fs, vs = hs ++ fs /\ Forall2 head_ok (head_parts f) hs /\ gapless (f_fields f) fs.

(** * What a reader does with an accepted text *)

(** The text of an object's attributes in the order of the form: around the
    keyword, then the fields, each with its blanks. *)
Definition or_nil (o : option str) : str := match o with Some t => t | None => [] end.
Definition assembled (f : form) (kw : str) (hs fs : list (option str)) : str :=
  head_text kw (combine (map (fun p => fst (fst p)) (head_parts f)) hs) ++ concat (map or_nil fs).

(** * Histories of an object *)

Section Histories.
  Variable ext : string -> str -> result val.
  Variable fam : string -> list cls.

  (** [o] is reached by a successful constructor call and then any attribute
      assignments, successful or rejected. *)
  Inductive reachable (c : cls) : obj -> Prop :=
  | made args o : length args = length (c_attrs c) -> construct ext fam c args = Ok o -> reachable c o
  | assigned a v o : reachable c o -> In a (c_attrs c) -> reachable c (fst (set_attr ext fam a v o)).

  (** Assignments one after the other; rejected ones are caught by the caller. *)
  Definition assign_all (o : obj) (l : list (attr * arg)) : obj :=
    fold_left (fun o x => fst (set_attr ext fam (fst x) (snd x) o)) l o.
End Histories.

(** The value stored under the attribute passes every test of its setter. *)
Definition satisfied (o : obj) (a : attr) : Prop :=
  exists v, assoc (a_name a) o = Some v /\ Forall (fun b => beval o v b = Ok false) (a_checks a).

(** The attributes a test looks at besides its own; a test outside the model
    counts as looking at the attribute called [?]. *)
Fixpoint nrefs (e : nexp) : list string :=
  match e with
  | ESelf n => [n]
  | EVal e | ELower e | ELen e | EMin e | EMod e _ | EMul _ e => nrefs e
  | EIte b e f => brefs b ++ nrefs e ++ nrefs f
  | _ => []
  end
with brefs (b : bexp) : list string :=
  match b with
  | BIsNone e | BJump e | BTruth e => nrefs e
  | BNot b => brefs b
  | BAnd a b | BOr a b => brefs a ++ brefs b
  | BIte a b c => brefs a ++ brefs b ++ brefs c
  | BCmp _ e f => nrefs e ++ nrefs f
  | BIn e l => nrefs e ++ flat_map nrefs l
  | BExt _ => ["?"%string]
  | BConst _ => []
  end.
Definition refs (a : attr) : list string := flat_map brefs (a_checks a).
(** Independent constraint: the tests look at the new value only. *)
Definition independent (a : attr) : bool := match refs a with [] => true | _ => false end.
(** Constraints of a class that look only at attributes set before. *)
Fixpoint refs_before (seen : list string) (l : list attr) : bool :=
  match l with
  | [] => true
  | a :: l' => forallb (fun n => existsb (String.eqb n) seen) (refs a) && refs_before (a_name a :: seen) l'
  end.

(** The assignments of a history that are accepted, when a rejected one is simply
    left out. *)
Fixpoint accepted (ext : string -> str -> result val) (fam : string -> list cls) (o : obj) (l : list (attr * arg)) : list (attr * arg) :=
  match l with
  | [] => []
  | (a, v) :: t =>
      match set_attr ext fam a v o with
      | (o', Ok _) => (a, v) :: accepted ext fam o' t
      | _ => accepted ext fam o t
      end
  end.

(** The values that are set, in order. *)
Definition somes (vs : list (option val)) : list val := flat_map (fun v => match v with Some x => [x] | None => [] end) vs.
(** Every value fits its field, gaps allowed. *)
Definition fitting (l : list (aty * bool)) (vs : list (option val)) : Prop :=
  Forall2 (fun x v => forall y, v = Some y -> aval_ok (fst x) y) l vs.
