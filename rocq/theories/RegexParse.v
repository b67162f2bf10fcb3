(** Model of [re.compile]: the parser of the [re] pattern syntax, restricted to
    the constructs that occur in the patterns of /repo/src/pymcnp: literals,
    escapes (\A \Z \d \s \S \n \t and escaped punctuation), [.], character
    classes, capturing and non-capturing groups, [(?<=lit)], [(?<!lit)],
    alternation, and the quantifiers * + ? {n} {n,} {n,m} with an optional lazy
    mark.  [compile true] is [re.compile(p, re.IGNORECASE)]. *)

From Coq Require Import Ascii String NArith Bool Arith List.
From Verif Require Import PyStr Regex.
Import ListNotations.
Open Scope char_scope.

Definition space_ranges : list (N * N) := [(9, 13); (28, 32); (133, 133); (160, 160)]%N.
Definition nonspace_ranges : list (N * N) :=
  [(0, 8); (14, 27); (33, 132); (134, 159); (161, 255)]%N.
Definition digit_ranges : list (N * N) := [(48, 57)]%N.

(** Closure of a range under ASCII case ([re.IGNORECASE]). *)
Definition fold_range (r : N * N) : list (N * N) :=
  let '(a, b) := r in
  (a, b)
    :: (let lo := N.max a 65 in let hi := N.min b 90 in
        if (lo <=? hi)%N then [(lo + 32, hi + 32)%N] else [])
    ++ (let lo := N.max a 97 in let hi := N.min b 122 in
        if (lo <=? hi)%N then [(lo - 32, hi - 32)%N] else []).

Definition mkset (ic neg : bool) (l : list (N * N)) : cset :=
  {| cneg := neg; cranges := if ic then flat_map fold_range l else l |}.

Definition lit_set (ic : bool) (c : ascii) : cset := mkset ic false [(code c, code c)].

(** Ranges of a class escape, or [None] when the escape denotes one character. *)
Definition class_escape (c : ascii) : option (list (N * N)) :=
  match c with
  | "d" => Some digit_ranges
  | "s" => Some space_ranges
  | "S" => Some nonspace_ranges
  | _ => None
  end.
Definition char_escape (c : ascii) : ascii :=
  match c with
  | "n" => nl
  | "t" => tab
  | _ => c
  end.

(** Items of a character class up to the closing bracket. *)
Fixpoint class_items (fuel : nat) (first : bool) (s : str) (acc : list (N * N))
  : option (list (N * N) * str) :=
  match fuel with
  | O => None
  | S f =>
      (* one item: either a class escape or a single character *)
      let single (c : ascii) (t : str) :=
        match t with
        | "-" :: "]" :: _ => class_items f false t ((code c, code c) :: acc)
        | "-" :: "\" :: d :: t' =>
            class_items f false t' ((code c, code (char_escape d)) :: acc)
        | "-" :: d :: t' => class_items f false t' ((code c, code d) :: acc)
        | _ => class_items f false t ((code c, code c) :: acc)
        end in
      match s with
      | [] => None
      | "]" :: t => if first then single "]" t else Some (rev acc, t)
      | "\" :: c :: t =>
          match class_escape c with
          | Some rs => class_items f false t (rev rs ++ acc)
          | None => single (char_escape c) t
          end
      | c :: t => single c t
      end
  end.

(** A decimal number. *)
Fixpoint number (s : str) (acc : nat) (seen : bool) : option (nat * str) :=
  match s with
  | c :: t =>
      if is_digit c then number t (10 * acc + (N.to_nat (code c) - 48)) true
      else if seen then Some (acc, s) else None
  | [] => if seen then Some (acc, []) else None
  end.

(** A quantifier: bounds and remaining text, [None] if there is none. *)
Definition quant (s : str) : option (nat * option nat * str) :=
  match s with
  | "*" :: t => Some (0, None, t)
  | "+" :: t => Some (1, None, t)
  | "?" :: t => Some (0, Some 1, t)
  | "{" :: t =>
      match number t 0 false with
      | Some (n, "}" :: t') => Some (n, Some n, t')
      | Some (n, "," :: "}" :: t') => Some (n, None, t')
      | Some (n, "," :: t') =>
          match number t' 0 false with
          | Some (n', "}" :: t'') => Some (n, Some n', t'')
          | _ => None
          end
      | _ => None
      end
  | _ => None
  end.

Definition apply_quant (a : re) (s : str) : re * str :=
  match quant s with
  | Some (mn, mx, "?" :: t) => (RRep true mn mx a, t)
  | Some (mn, mx, t) => (RRep false mn mx a, t)
  | None => (a, s)
  end.

(** The literal inside a look-behind, as a list of sets. *)
Fixpoint behind_lit (ic : bool) (s : str) (acc : list cset) : option (list cset * str) :=
  match s with
  | [] => None
  | ")" :: t => Some (acc, t)
  | c :: t => behind_lit ic t (lit_set ic c :: acc)
  end.

Definition rcat (a b : re) : re := match b with REps => a | _ => RCat a b end.

Section Parse.
  Variable ic : bool.
  Fixpoint palt (fuel : nat) (s : str) (g : nat) : option (re * str * nat) :=
    match fuel with
    | O => None
    | S f =>
        match pcat f s g with
        | Some (a, "|" :: t, g') =>
            match palt f t g' with
            | Some (b, t', g'') => Some (RAlt a b, t', g'')
            | None => None
            end
        | r => r
        end
    end
  with pcat (fuel : nat) (s : str) (g : nat) : option (re * str * nat) :=
    match fuel with
    | O => None
    | S f =>
        match s with
        | [] => Some (REps, [], g)
        | ")" :: _ => Some (REps, s, g)
        | "|" :: _ => Some (REps, s, g)
        | _ =>
            match patom f s g with
            | Some (a, t, g') =>
                let '(a', t') := apply_quant a t in
                match pcat f t' g' with
                | Some (b, t'', g'') => Some (rcat a' b, t'', g'')
                | None => None
                end
            | None => None
            end
        end
    end
  with patom (fuel : nat) (s : str) (g : nat) : option (re * str * nat) :=
    match fuel with
    | O => None
    | S f =>
        match s with
        | "(" :: "?" :: ":" :: t =>
            match palt f t g with
            | Some (a, ")" :: t', g') => Some (a, t', g')
            | _ => None
            end
        | "(" :: "?" :: "<" :: "=" :: t =>
            match behind_lit ic t [] with
            | Some (l, t') => Some (RBehind false l, t', g)
            | None => None
            end
        | "(" :: "?" :: "<" :: "!" :: t =>
            match behind_lit ic t [] with
            | Some (l, t') => Some (RBehind true l, t', g)
            | None => None
            end
        | "(" :: t =>
            match palt f t (S g) with
            | Some (a, ")" :: t', g') => Some (RGrp g a, t', g')
            | _ => None
            end
        | "[" :: "^" :: t =>
            match class_items f true t [] with
            | Some (rs, t') => Some (RSet (mkset ic true rs), t', g)
            | None => None
            end
        | "[" :: t =>
            match class_items f true t [] with
            | Some (rs, t') => Some (RSet (mkset ic false rs), t', g)
            | None => None
            end
        | "." :: t => Some (RSet {| cneg := true; cranges := [(10, 10)%N] |}, t, g)
        | "\" :: "A" :: t => Some (RBeg, t, g)
        | "\" :: "Z" :: t => Some (REnd, t, g)
        | "\" :: c :: t =>
            match class_escape c with
            | Some rs => Some (RSet {| cneg := false; cranges := rs |}, t, g)
            | None => Some (RSet (lit_set ic (char_escape c)), t, g)
            end
        | c :: t => Some (RSet (lit_set ic c), t, g)
        | [] => None
        end
    end.
End Parse.

Definition compile_opt (ic : bool) (p : str) : option (re * nat) :=
  match palt ic (S (3 * length p)) p 1 with
  | Some (r, [], g) => Some (r, pred g)
  | _ => None
  end.

(** [re.compile(p)] or [re.compile(p, re.IGNORECASE)]; a pattern outside the
    supported syntax gives a regular expression that never matches. *)
Definition never : re := RSet {| cneg := false; cranges := [] |}.
Definition compile (ic : bool) (p : str) : re :=
  match compile_opt ic p with Some (r, _) => r | None => never end.

(** Number of capture groups of a pattern. *)
Definition ngroups (ic : bool) (p : str) : nat :=
  match compile_opt ic p with Some (_, n) => n | None => 0 end.

(** [p[2:-2]], [p[3:-3]], [p[6:-5]]: Python slices used to splice patterns. *)
Definition slice (a b : nat) (s : str) : str :=
  let t := skipn a s in firstn (length t - b) t.
