(** Specification vocabulary for INP files: the lines a file is written in. *)

From Coq Require Import Ascii String NArith ZArith Bool Arith List.
From Verif Require Import PyStr CardTextSpec.
Import ListNotations.
Open Scope char_scope.

(** What may stand between two words of a line: blanks; or [&], the end of the
    physical line and an indented next one; or an indented next line alone. *)
Inductive fold : str -> Prop :=
| F_blanks b : blank b -> b <> [] -> fold b
| F_amp a c b : blank a -> blank c -> blank b -> b <> [] -> fold (a ++ "&" :: c ++ nl :: b)
| F_indent a b : blank a -> blank b -> b <> [] -> fold (a ++ nl :: b).

(** A (logical) line: a first word, then folds and words, then blanks. *)
Record row := mkrow { r_first : str; r_more : list (str * str); r_tail : str }.
Definition row_text (r : row) : str := laid_out (r_first r) (r_more r) ++ r_tail r.
Definition row_words (r : row) : list str := r_first r :: map snd (r_more r).
Definition row_ok (r : row) : Prop :=
  clean (r_first r) /\ hd " " (r_first r) <> "#" /\
  Forall (fun x => fold (fst x) /\ clean (snd x)) (r_more r) /\ blank (r_tail r).

(** A text that shows a line: its words with one blank between them, and one after
    them only if there are blanks at the end of the line. *)
Definition shows (r : row) (t : str) : Prop :=
  t = join [sp] (row_words r) \/ (r_tail r <> [] /\ t = join [sp] (row_words r) ++ [sp]).

(** The lines of the last block, which may be empty except the first and the last. *)
Definition rows := list (option row).
Definition line_text (x : option row) : str := match x with Some r => row_text r | None => [] end.
Definition rows_text (l : rows) : str := join [nl] (map line_text l).
Definition line_ok (x : option row) : Prop := match x with Some r => row_ok r | None => True end.

(** The line announces a message: it begins with [message:], in any case. *)
Definition announces (t : str) : bool := starts_with (L "message:") (slower t).

(** The last block: lines, the first and the last not empty. *)
Definition other_ok (l : rows) : Prop :=
  Forall line_ok l /\ (exists x l', l = Some x :: l') /\ (exists l' x, l = l' ++ [Some x]).
(** Its lines as they are read. *)
Definition shows_line (x : option row) (t : str) : Prop := match x with Some r => shows r t | None => t = [] end.

(** The lines of a file fit together: every block has lines; the message announces
    itself and says something; the title does not announce a message. *)
Definition file_ok (message : option row) (title : row) (cells surfaces data : list row) (other : option rows) : Prop :=
  row_ok title /\ Forall row_ok cells /\ cells <> [] /\ Forall row_ok surfaces /\ surfaces <> [] /\ Forall row_ok data /\ data <> [] /\
  match other with Some l => other_ok l | None => True end /\
  match message with
  | Some m => row_ok m /\ announces (join [sp] (row_words m)) = true /\ 8 < length (join [sp] (row_words m))
  | None => announces (join [sp] (row_words title)) = false
  end.
