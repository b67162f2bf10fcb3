(** Model of the CPython [re] matcher used by every reader of PyMCNP
    ([re.match], [re.finditer], [re.sub], [re.split]; /repo/src/pymcnp, all
    [_REGEX] attributes).

    The matcher is the backtracking matcher of [Modules/_sre]: alternatives are
    tried from left to right, greedy repetitions try one more iteration first,
    lazy repetitions try to stop first, and a capture group keeps the text of its
    last iteration.  It is written in continuation-passing style. *)

From Coq Require Import Ascii String NArith Bool Arith List.
From Verif Require Import PyStr.
Import ListNotations.

(** Character sets: [neg] flag and list of inclusive code point ranges. *)
Record cset := { cneg : bool; cranges : list (N * N) }.

Definition in_ranges (l : list (N * N)) (n : N) : bool :=
  existsb (fun '(a, b) => (a <=? n)%N && (n <=? b)%N) l.
Definition inset (cs : cset) (c : ascii) : bool :=
  xorb (cneg cs) (in_ranges (cranges cs) (code c)).

(** Regular expressions: the subset of the [re] syntax that occurs in /repo. *)
Inductive re :=
| REps
| RSet (cs : cset)                                    (* one character *)
| RCat (a b : re)
| RAlt (a b : re)                                     (* a|b *)
| RRep (lazy : bool) (mn : nat) (mx : option nat) (a : re)
                                                      (* a{mn,mx}, a{mn,mx}? *)
| RGrp (n : nat) (a : re)                             (* capture group n *)
| RBeg                                                (* \A *)
| REnd                                                (* \Z *)
| RBehind (neg : bool) (lit : list cset).             (* (?<=lit), (?<!lit) *)

(** Matcher state: the text before the current position (reversed), the text
    after it, and the captures (latest first). *)
Record st := mkst { pre : str; rest : str; caps : list (nat * str) }.

Definition progress (s s' : st) : bool := length (rest s') <? length (rest s).

Definition addcap (n : nat) (s s' : st) : st :=
  mkst (pre s') (rest s')
       ((n, firstn (length (rest s) - length (rest s')) (rest s)) :: caps s').

(** [lit] is listed from the character nearest to the current position. *)
Fixpoint behind (lit : list cset) (p : str) : bool :=
  match lit, p with
  | [], _ => true
  | c :: lit', x :: p' => inset c x && behind lit' p'
  | _ :: _, [] => false
  end.

Definition cdec (c : option nat) : option nat :=
  match c with Some n => Some (pred n) | None => None end.
Definition czero (c : option nat) : bool :=
  match c with Some O => true | _ => false end.

Definition orelse {A} (x y : option A) : option A :=
  match x with Some _ => x | None => y end.

Section Rep.
  Context {A : Type} (body : st -> (st -> option A) -> option A) (k : st -> option A).
  (* mandatory iterations *)
  Fixpoint need (n : nat) (fin : st -> option A) (s : st) : option A :=
    match n with
    | O => fin s
    | S n' => body s (fun s' => need n' fin s')
    end.
  (* optional iterations, greedy: CPython's MAX_UNTIL; an iteration that
     consumed nothing is the last one *)
  Fixpoint loopg (fuel : nat) (c : option nat) (s : st) : option A :=
    match fuel with
    | O => k s
    | S f =>
        if czero c then k s
        else match body s (fun s' => if progress s s' then loopg f (cdec c) s' else k s') with
             | Some x => Some x
             | None => k s
             end
    end.
  (* optional iterations, lazy: MIN_UNTIL *)
  Fixpoint loopl (fuel : nat) (c : option nat) (s : st) : option A :=
    match fuel with
    | O => k s
    | S f =>
        match k s with
        | Some x => Some x
        | None =>
            if czero c then None
            else body s (fun s' => if progress s s' then loopl f (cdec c) s' else k s')
        end
    end.
End Rep.

Definition maxleft (mn : nat) (mx : option nat) : option nat :=
  match mx with Some n => Some (n - mn) | None => None end.

Fixpoint m {A : Type} (r : re) (s : st) (k : st -> option A) {struct r} : option A :=
  match r with
  | REps => k s
  | RSet cs =>
      match rest s with
      | x :: t => if inset cs x then k (mkst (x :: pre s) t (caps s)) else None
      | [] => None
      end
  | RCat a b => m a s (fun s' => m b s' k)
  | RAlt a b => match m a s k with Some x => Some x | None => m b s k end
  | RRep lz mn mx a =>
      need (fun s k => m a s k) mn
        (fun s =>
           (if lz then loopl else loopg)
             (fun s k => m a s k) k (S (length (rest s))) (maxleft mn mx) s)
        s
  | RGrp n a => m a s (fun s' => k (addcap n s s'))
  | RBeg => match pre s with [] => k s | _ => None end
  | REnd => match rest s with [] => k s | _ => None end
  | RBehind neg lit => if xorb neg (behind lit (pre s)) then k s else None
  end.

(** A match object: text before the match (reversed), matched text, text after,
    captures. *)
Record mobj := { mpre : str; mtext : str; mrest : str; mcaps : list (nat * str) }.

Fixpoint lookup (n : nat) (l : list (nat * str)) : option str :=
  match l with
  | [] => None
  | (i, t) :: l' => if i =? n then Some t else lookup n l'
  end.

(** [match[n]]: the text of group [n] or [None]. *)
Definition group (n : nat) (o : mobj) : option str :=
  match n with O => Some (mtext o) | _ => lookup n (mcaps o) end.

(** Try [r] exactly at the position ([p], [s]). *)
Definition match_at (r : re) (p s : str) : option mobj :=
  match m r (mkst p s []) Some with
  | Some s' => Some {| mpre := p; mtext := firstn (length s - length (rest s')) s;
                       mrest := rest s'; mcaps := caps s' |}
  | None => None
  end.

(** [pattern.match(s)]. *)
Definition re_match (r : re) (s : str) : option mobj := match_at r [] s.

(** [pattern.search] from the position ([p], [s]). *)
Fixpoint search (r : re) (p s : str) : option mobj :=
  match match_at r p s with
  | Some o => Some o
  | None => match s with [] => None | c :: t => search r (c :: p) t end
  end.

(** [re.finditer]: successive non-overlapping matches.  An empty match moves on
    by one character (no pattern of the library passed to [finditer] or [sub]
    matches the empty text, so CPython's finer rule is not needed). *)
Fixpoint finditer_f (fuel : nat) (r : re) (p s : str) : list mobj :=
  match fuel with
  | O => []
  | S f =>
      match search r p s with
      | None => []
      | Some o =>
          match mtext o, mrest o with
          | [], [] => [o]
          | [], c :: t => o :: finditer_f f r (c :: mpre o) t
          | _, t => o :: finditer_f f r (rev (mtext o) ++ mpre o) t
          end
      end
  end.
Definition finditer (r : re) (s : str) : list mobj := finditer_f (S (length s)) r [] s.

(** [re.sub(r, f, s)]: copy unmatched characters, replace matches. *)
Fixpoint sub_f (fuel : nat) (r : re) (f : mobj -> str) (p s : str) : str :=
  match fuel with
  | O => s
  | S n =>
      match match_at r p s with
      | Some o =>
          match mtext o with
          | [] => f o ++ match s with
                         | [] => []
                         | c :: t => c :: sub_f n r f (c :: p) t
                         end
          | _ => f o ++ sub_f n r f (rev (mtext o) ++ p) (mrest o)
          end
      | None =>
          match s with
          | [] => []
          | c :: t => c :: sub_f n r f (c :: p) t
          end
      end
  end.
Definition sub (r : re) (f : mobj -> str) (s : str) : str := sub_f (S (length s)) r f [] s.

(** [re.split(r, s)] for a pattern without groups and no empty matches. *)
Fixpoint resplit_f (fuel : nat) (r : re) (p s cur : str) : list str :=
  match fuel with
  | O => [rev cur ++ s]
  | S n =>
      match match_at r p s with
      | Some o =>
          match mtext o with
          | [] => match s with
                  | [] => [rev cur]
                  | c :: t => resplit_f n r (c :: p) t (c :: cur)
                  end
          | _ => rev cur :: resplit_f n r (rev (mtext o) ++ p) (mrest o) []
          end
      | None =>
          match s with
          | [] => [rev cur]
          | c :: t => resplit_f n r (c :: p) t (c :: cur)
          end
      end
  end.
Definition resplit (r : re) (s : str) : list str := resplit_f (S (length s)) r [] s [].
