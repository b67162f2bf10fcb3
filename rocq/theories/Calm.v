(** A computed test that reading with a class raises no Python error: which
    texts the groups of its pattern can hold, and which kinds of value its setter
    tests can meet.  Used only in proofs. *)

From Coq Require Import Ascii String NArith ZArith Bool Arith List.
From Verif Require Import PyStr Regex RegexParse RegexFacts RegexLang PyNum Types CardText Cards Tables CardsSpec TypesFacts2.
Import ListNotations.

(** The expressions that can record a group. *)
Fixpoint grps (r : re) : list (nat * re) :=
  match r with
  | RCat a b | RAlt a b => grps a ++ grps b
  | RRep _ _ _ a => grps a
  | RGrp n a => (n, a) :: grps a
  | _ => []
  end.
Definition grp_res (r : re) (i : nat) : list re := map snd (filter (fun x => Nat.eqb (fst x) i) (grps r)).

(** Every text of [r] has a character outside [avoid]. *)
Fixpoint hits (avoid : list ascii) (r : re) : bool :=
  match r with
  | RSet cs => forallb (fun c => negb (inset cs c)) avoid
  | RCat a b => hits avoid a || hits avoid b
  | RAlt a b => hits avoid a && hits avoid b
  | RRep _ (S _) _ a => hits avoid a
  | RGrp _ a => hits avoid a
  | _ => false
  end.
Definition all_chars : list ascii := map ascii_of_nat (seq 0 256).
Definition the_spaces : list ascii := Eval vm_compute in filter is_space all_chars.
(** Every text of [r] has a character that [strip] keeps. *)
Definition solid (r : re) : bool := hits the_spaces r.
(** No text of [r] has the letter n, or a letter of a shorthand (r, i, m, j, g of log). *)
Definition n_free (r : re) : bool := forallb (fun c => negb (alpha r c)) ["n"; "N"]%char.
Definition s_letter (c : ascii) : bool := existsb (ceqb c) ["r"; "i"; "m"; "j"; "g"; "R"; "I"; "M"; "J"; "G"]%char.
Definition s_free (r : re) : bool := forallb (fun c => negb (alpha r c)) ["r"; "i"; "m"; "j"; "g"; "R"; "I"; "M"; "J"; "G"]%char.

(** Kinds of operands: library numbers, bare numbers, shorthands, texts, tuples. *)
Inductive akind := KNone | KInt | KZ | KReal | KD | KHor | KHorB | KStr | KS | KTup | KN | KOther.
Definition akind_eqb (a b : akind) : bool :=
  match a, b with
  | KNone, KNone | KInt, KInt | KZ, KZ | KReal, KReal | KD, KD | KHor, KHor | KHorB, KHorB
  | KStr, KStr | KS, KS | KTup, KTup  | KN, KN | KOther, KOther => true
  | _, _ => false
  end.
Definition numeric (k : akind) : bool := match k with KInt | KZ | KN | KReal | KD => true | _ => false end.

Definition whole_kind (k : akind) : bool := match k with KInt | KZ | KN => true | _ => false end.

Definition avalue (k : akind) : option akind :=
  match k with KInt => Some KZ | KReal => Some KD | KHor => Some KHorB | KStr => Some KS | KTup => Some KTup | _ => None end.
Definition acompare (o : cmpop) (p q : akind) : option (option bool) :=
  if (akind_eqb p KOther || akind_eqb q KOther)%bool then None
  else if ordering o then (if (numeric p && numeric q)%bool then Some None else None)
  else Some None.

Section Abs.
  Variables (o : string -> option akind) (x : akind).
  (** [None]: may raise. *)
  Fixpoint aneval (e : nexp) : option akind :=
    match e with
    | EX => Some x
    | EZ _ => Some KZ
    | ED d => match d with Fin _ _ _ => Some KD | _ => None end
    | ES _ => Some KS
    | ESelf n => o n
    | EVal e => match aneval e with Some k => avalue k | None => None end
    | ELower e => match aneval e with Some KStr => Some KS | _ => None end
    | ELen e => match aneval e with Some KStr => Some KZ | _ => None end
    | EMin _ => None
    | EMod e _ => match aneval e with Some KInt => Some KZ | _ => None end
    | EMul _ e => match aneval e with Some (KInt | KZ | KN) => Some KZ | _ => None end
    | EIte b e f =>
        match abeval b, aneval e, aneval f with
        | Some (Some true), r, _ => r
        | Some (Some false), _, r => r
        | Some None, Some k, Some l => if akind_eqb k l then Some k else if (whole_kind k && whole_kind l)%bool then Some KN else None
        | _, _, _ => None
        end
    end
  with abeval (b : bexp) : option (option bool) :=
    match b with
    | BConst c => Some (Some c)
    | BIsNone e =>
        match aneval e with
        | Some KNone => Some (Some true)
        | Some _ => Some (Some false)
        | None => None
        end
    | BNot b => match abeval b with Some (Some c) => Some (Some (negb c)) | r => r end
    | BAnd a b =>
        match abeval a with
        | Some (Some false) => Some (Some false)
        | Some (Some true) => abeval b
        | Some None => match abeval b with Some (Some false) => Some (Some false) | Some _ => Some None | None => None end
        | None => None
        end
    | BOr a b =>
        match abeval a with
        | Some (Some true) => Some (Some true)
        | Some (Some false) => abeval b
        | Some None => match abeval b with Some (Some true) => Some (Some true) | Some _ => Some None | None => None end
        | None => None
        end
    | BIte a b c =>
        match abeval a with
        | Some (Some true) => abeval b
        | Some (Some false) => abeval c
        | Some None => match abeval b, abeval c with Some _, Some _ => Some None | _, _ => None end
        | None => None
        end
    | BCmp op e f =>
        match aneval e, aneval f with
        | Some k, Some l => acompare op k l
        | _, _ => None
        end
    | BIn e l =>
        match aneval e with
        | Some k =>
            if (match k with KInt | KStr | KZ | KN | KS | KNone | KReal | KD => true | _ => false end
                && forallb (fun f => match aneval f with Some q => match acompare OEq k q with Some _ => true | None => false end | None => false end) l)%bool
            then Some None else None
        | None => None
        end
    | BJump e =>
        match aneval e with
        | Some k => match avalue k with Some KHorB => Some None | Some _ => Some (Some false) | None => None end
        | None => None
        end
    | BTruth e =>
        match aneval e with
        | Some KNone => Some (Some false)
        | Some (KHor | KOther) => None
        | Some _ => Some None
        | None => None
        end
    | BExt _ => None
    end.
  Fixpoint achecks (l : list bexp) : bool :=
    match l with
    | [] => true
    | b :: t => match abeval b with Some (Some true) => true | Some _ => achecks t | None => false end
    end.
End Abs.

(** The kinds of value an attribute can hold after reading. *)
Section Cls.
  (** Families whose reader may raise a Python error. *)
  Variable bad : list string.
  (** Whether shorthand values count. *)
  Variable short : bool.
  Definition hor (rs : list re) : list akind := if (short && negb (forallb s_free rs))%bool then [KHor] else [].
  Definition kinds (rs : list re) (t : aty) : list akind :=
    KNone :: match t with
             | One TInt => KInt :: hor rs
             | One TReal => (if forallb n_free rs then [KReal] else [KReal; KOther]) ++ hor rs
             | One TStr => [KStr]
             | One _ => [KOther]
             | Tup _ => [KTup]
             end.
  Definition reads_ok (rs : list re) (t : aty) : bool :=
    match t with
    | One TInt => forallb solid rs && forallb n_free rs
    | One TReal => forallb solid rs
    | One (TStr | TDist | TZaid | TDesig | TSub) | Tup (TInt | TReal | TStr | TDist | TZaid | TDesig | TSub) => true
    | One (TExt n _) => negb (existsb (String.eqb n) bad)
    | Tup (TExt n p) =>
        negb (existsb (String.eqb n) bad)
        || forallb (fun r => hits (filter (alpha r) all_chars) (compile true (slice 2 2 p))) rs
    | _ => false
    end.
  (** A value that passed the tests: none of them certainly held. *)
  Definition survives (k : akind) (l : list bexp) : bool :=
    forallb (fun b => match abeval (fun _ => None) k b with Some (Some true) => false | _ => true end) l.
  (** All ways to choose a kind for each attribute. *)
  Fixpoint envs (l : list (string * list akind)) : list (list (string * akind)) :=
    match l with
    | [] => [[]]
    | (n, ks) :: t => flat_map (fun e => map (fun k => (n, k) :: e) ks) (envs t)
    end.
  Fixpoint calm_attrs (r : re) (i : nat) (seen : list (string * list akind)) (l : list attr) : bool :=
    match l with
    | [] => true
    | a :: t =>
        let rs := grp_res r i in
        let ks := kinds rs (a_ty a) in
        let rf := refs a in
        (negb (existsb (String.eqb (a_name a)) (map fst seen)) && reads_ok rs (a_ty a)
         && forallb (fun e => forallb (fun k => achecks (fun n => assoc n e) k (a_checks a)) ks)
                    (envs (filter (fun x => existsb (String.eqb (fst x)) rf) seen))
         && calm_attrs r (S i) ((a_name a, filter (fun k => survives k (a_checks a)) ks) :: seen) t)%bool
    end.
  Definition calm (c : cls) : bool := calm_attrs (compile true (c_pat c)) 1 [] (c_attrs c).
End Cls.
