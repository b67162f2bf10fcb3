(** Specification vocabulary for card texts: words, layouts, shorthand. *)

From Coq Require Import Ascii String NArith ZArith Bool Arith List.
From Verif Require Import PyStr RegexFacts PyNum Types TypesSpec.
Import ListNotations.
Open Scope char_scope.

(** A word of a card: no white space, none of the characters the text layer
    gives a meaning to ([=], [$]), no [&] at its end, no parenthesis left open
    at its end or closed at its start. *)
Definition clean (w : str) : Prop :=
  w <> [] /\ nospace w /\ ~ In "=" w /\ ~ In "$" w /\
  last w " " <> "&" /\ last w " " <> "(" /\ hd " " w <> ")".

(** The shorthand words, any letter case. *)
Inductive short := Sj | Sr | Si | Slog | Silog.
Definition short_name (k : short) : str :=
  match k with Sj => L "j" | Sr => L "r" | Si => L "i" | Slog => L "log" | Silog => L "ilog" end.
Definition is_short (k : short) (w : str) : bool := seqb (slower w) (short_name k).
(** [counted k n w]: the word [w] is the number [n] followed by the shorthand [k]. *)
Definition counted (k : short) (n : N) (w : str) : Prop :=
  exists ds t, w = ds ++ t /\ ds <> [] /\ Forall (fun c => is_digit c = true) ds /\
               N_of_digits ds = n /\ is_short k t = true.

(** Ways to separate two words of a card: blanks, continuation lines (five or
    more blanks are not needed: one will do), [&] at a line end, one [=]. *)
Definition blank (s : str) : Prop := Forall (fun c => c = sp) s.
Inductive break : str -> Prop :=
| B_indent b : blank b -> b <> [] -> break (nl :: b)
| B_amp a b : blank a -> blank b -> break ("&" :: a ++ nl :: b).
Inductive gap : str -> Prop :=
| G_blank b : blank b -> gap b
| G_break b k g : blank b -> break k -> gap g -> (forall x t, g = x :: t -> x <> sp) -> gap (b ++ k ++ g).
Inductive separator : str -> Prop :=
| S_gap g : gap g -> g <> [] -> separator g
| S_equals g h : gap g -> gap h -> separator (g ++ "=" :: h).

(** A card text: a first word, then separators and words. *)
Fixpoint laid_out (w : str) (l : list (str * str)) : str :=
  match l with
  | [] => w
  | (s, v) :: l' => w ++ s ++ laid_out v l'
  end.

(** The lines of a text. *)
Definition lines (s : str) : list str := split_on nl s.

(** A shorthand word, counted or not. *)
Definition shorthand (k : short) (w : str) : Prop := is_short k w = true \/ exists n, counted k n w.

(** What a counted word stands for: [n] plain ones; any other word stands for itself. *)
Inductive stands_for : str -> list str -> Prop :=
| SF_count k n w : counted k n w -> stands_for w (repeat (short_name k) (N.to_nat n))
| SF_word w : (forall k n, ~ counted k n w) -> stands_for w [w].

(** Neighbouring words of a list. *)
Definition neighbours (u v : str) (ws : list str) : Prop := exists a b, ws = a ++ u :: v :: b.

(** What reading gives back for a word: the word, or, for an uncounted shorthand
    word, the same shorthand in lower case. *)
Definition reads_as (w u : str) : Prop := u = w \/ exists k, is_short k w = true /\ u = short_name k.

(** A counted word stands beside another word of the same shorthand. *)
Definition crowded (k : short) (ws : list str) : Prop :=
  exists u v, neighbours u v ws /\ shorthand k u /\ shorthand k v /\
              ((exists n, counted k n u) \/ (exists n, counted k n v)).

(** A line of at most [n] columns, unless one of its words alone is longer than 72. *)
Definition fits (n : nat) (l : str) : Prop := length l <= n \/ exists w, In w (split_on sp l) /\ 72 < length w.
