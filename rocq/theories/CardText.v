(** Model of the text layer of INP cards: [InpNonterminal._preprocess]
    (/repo/src/pymcnp/inp/_symbol.py:11-44), [Card._preprocess] and
    [Card._postprocess] (/repo/src/pymcnp/inp/_card.py:62-120). *)

From Coq Require Import Ascii String NArith ZArith Bool Arith List.
From Verif Require Import PyStr Regex RegexParse PyNum Types.
Import ListNotations.
Open Scope char_scope.

(** The literal patterns of _symbol.py:23-29. *)
Definition re_cont : re := compile false (L "\n +|& *\n *").       (* :23 *)
Definition re_blanks : re := compile false (L " +").               (* :24 *)
Definition re_open : re := compile false (L "[(] ").               (* :25 *)
Definition re_close : re := compile false (L " [)]").              (* :26 *)
Definition re_blankline : re := compile false (L "\n \n").         (* :27 *)
Definition re_equals : re := compile false (L " = | =|= |=").      (* :28 *)
Definition re_tab : re := compile false (L "\t").                  (* :29 *)

(** _symbol.py:23-30: line joining and blank squeezing. *)
Definition tidy (s : str) : str :=
  let s := sub re_cont (fun _ => [sp]) s in
  let s := sub re_blanks (fun _ => [sp]) s in
  let s := sub re_open (fun _ => ["("]) s in
  let s := sub re_close (fun _ => [")"]) s in
  let s := sub re_blankline (fun _ => [nl; nl]) s in
  let s := sub re_equals (fun _ => [sp]) s in
  let s := sub re_tab (fun _ => [sp; sp; sp; sp]) s in
  strip s.

(** _symbol.py:32-36 and _card.py:103-107: runs of two or more of the same
    shorthand word become one counted word. *)
Definition re_run (pat : string) : re :=
  compile false (L "((?: " ++ L pat ++ L "){2,})(\s|\Z|\n)").
Definition shorten (pat name : string) (s : str) : str :=
  sub (re_run pat)
      (fun o => [sp] ++ str_of_N (N.of_nat (length (words (strip (grp 1 o))))) ++ L name ++ grp 2 o) s.
Definition compress (s : str) : str :=
  let s := shorten "[jJ]" "j" s in
  let s := shorten "[rR]" "r" s in
  let s := shorten "[iI]" "i" s in
  let s := shorten "[lL][oO][gG]" "log" s in
  shorten "[iI][lL][oO][gG]" "ilog" s.

(** _symbol.py:37-42: counted words become that many plain ones ([j] twice). *)
Definition re_count (pat : string) : re :=
  compile false (L " (\d+)" ++ L pat ++ L "(\s|\Z|\n)").
Definition lengthen (pat name : string) (s : str) : str :=
  sub (re_count pat)
      (fun o => srepeat (N.to_nat (N_of_digits (grp 1 o))) (sp :: L name) ++ grp 2 o) s.
Definition expand (s : str) : str :=
  let s := lengthen "[jJ]" "j" s in
  let s := lengthen "[rR]" "r" s in
  let s := lengthen "[iI]" "i" s in
  let s := lengthen "[jJ]" "j" s in
  let s := lengthen "[lL][oO][gG]" "log" s in
  lengthen "[iI][lL][oO][gG]" "ilog" s.

(** InpNonterminal._preprocess, _symbol.py:11-44. *)
Definition preprocess (s : str) : str := expand (compress (tidy s)).

(** Card._preprocess, _card.py:62-89: ['$'] comments are cut line by line. *)
Definition split_comments (s : str) : list str * list str :=
  let ls := map (split1 "$") (split_on nl s) in
  (map fst ls, flat_map (fun x => match snd x with Some c => [c] | None => [] end) ls).
Definition card_preprocess (s : str) : str * list str :=
  let '(lines, comments) := split_comments s in
  (preprocess (join [nl] lines), comments).

(** The wrapping loop of Card._postprocess, _card.py:109-120. *)
Fixpoint wrap (len : nat) (ws : list str) : list str :=
  match ws with
  | [] => []
  | w :: t =>
      if Nat.ltb 78 (length w + len)
      then (["&"; nl] ++ srepeat 5 [sp]) :: w :: wrap (5 + (length w + 1)) t
      else w :: wrap (len + (length w + 1)) t
  end.
(** Card._postprocess, _card.py:91-120. *)
Definition postprocess (s : str) : str := join [sp] (wrap 0 (split_on sp (compress s))).
