(** What reading an OUTP file should give, apart from how the library does it. *)

From Coq Require Import Ascii String Bool Arith List.
From Verif Require Import PyStr.
Import ListNotations.
Open Scope list_scope.

(** A page begins at a line that begins with [1]. *)
Definition page (p : str) : str := nl :: "1"%char :: p.
Definition digit (c : ascii) : Prop := In c (L "0123456789").
(** No line after the first one begins with a digit. *)
Definition no_digit_line (s : str) : Prop := forall a d b, s = a ++ nl :: d :: b -> ~ digit d.
(** No line after the first one begins with [1]. *)
Definition no_page (s : str) : Prop := forall a b, s <> a ++ page b.

(** The pages that are kept: each is given to the readers in turn, the first that
    takes it makes the block, and a page none takes is left out. *)
Inductive keeps {B : Type} (readers : list (str -> option B)) : list str -> list B -> Prop :=
| keeps_nil : keeps readers [] []
| keeps_empty ps bs : keeps readers ps bs -> keeps readers ([] :: ps) bs
| keeps_block p l1 r l2 b ps bs :
    p <> [] -> readers = l1 ++ r :: l2 -> Forall (fun r => r ("1"%char :: p) = None) l1 -> r ("1"%char :: p) = Some b ->
    keeps readers ps bs -> keeps readers (p :: ps) (b :: bs)
| keeps_none p ps bs :
    p <> [] -> Forall (fun r => r ("1"%char :: p) = None) readers -> keeps readers ps bs -> keeps readers (p :: ps) bs.

(** A line of a tally as MCNP lays it out, from its bucket, count and error. *)
Definition line_text (l : str * str * str) : str :=
  let '(b, c, e) := l in L "    " ++ b ++ L "   " ++ c ++ [sp] ++ e ++ [nl].
Definition word (s : str) : Prop := s <> [] /\ Forall (fun c => is_space c = false) s.
Definition line_ok (l : str * str * str) : Prop := let '(b, c, e) := l in word b /\ word c /\ word e.
(** A text that is not empty and stays on its line. *)
Definition one_line (s : str) : Prop := s <> [] /\ ~ In nl s.
(** The text of a subtally of a cell, and of a surface with time bins. *)
Definition cell_text (cell total : str) (ls : list (str * str * str)) : str :=
  L " cell  " ++ cell ++ [nl] ++ L "      energy   " ++ [nl] ++
  concat (map line_text ls) ++ L "      total      " ++ total ++ [nl; nl].
Definition surface_text (surface total : str) (ls : list (str * str * str)) : str :=
  L "      surface:  " ++ surface ++ [nl] ++ L "        time   " ++ [nl] ++
  concat (map line_text ls) ++ L "      total      " ++ total ++ [nl; nl].
(** The text of a subtally of a surface and an angle bin, with the line of the total
    followed by an empty line or one with a blank. *)
Definition angle_text (surface from to total : str) (ls : list (str * str * str)) (blank : bool) : str :=
  L " surface  " ++ surface ++ [nl] ++
  L " angle  bin:  " ++ from ++ L " to  " ++ to ++ L " degrees" ++ srepeat 85 [sp] ++ [nl] ++
  L "      energy   " ++ [nl] ++
  concat (map line_text ls) ++ L "      total      " ++ total ++ [nl] ++ (if blank then [sp] else []) ++ [nl].

(** A subtally of a cell or of a surface: which one, the line of the total and the lines. *)
Definition sub_data : Type := str * str * list (str * str * str).
Definition sub_ok (d : sub_data) : Prop :=
  let '(where_, total, ls) := d in one_line where_ /\ one_line total /\ ls <> [] /\ Forall line_ok ls.
Definition cell_of (d : sub_data) : str := let '(where_, total, ls) := d in cell_text where_ total ls.
Definition surface_of (d : sub_data) : str := let '(where_, total, ls) := d in surface_text where_ total ls.
(** A subtally of a surface and an angle bin: the surface, the ends of the bin, the line of the total and the lines. *)
Definition angle_data : Type := str * str * str * str * list (str * str * str).
Definition angle_ok (d : angle_data) : Prop :=
  let '(surface, from, to, total, ls) := d in
  one_line surface /\ length from = 12 /\ ~ In nl from /\ length to = 11 /\ ~ In nl to /\ one_line total /\ ls <> [] /\ Forall line_ok ls.
Definition angle_of (d : angle_data) : str := let '(surface, from, to, total, ls) := d in angle_text surface from to total ls false.

(** What a tally says, apart from its subtallies. *)
Record tally_data := {
  d_number : str; d_nps : str; d_type : str; d_particles : str;
  d_where : str; d_size : str;                          (* the table of volumes or areas *)
  d_desired : str; d_observed : str; d_passed : str;    (* the table of the ten checks *)
  d_asymmetric : str; d_symmetric : str;                (* the confidence intervals, or *)
  d_missed : str                                        (* how many checks were missed *)
}.
Definition columns (n : nat) (s : str) : Prop := length s = n /\ ~ In nl s.
(** A line that begins with a blank and has more. *)
Definition blank_line (s : str) : Prop := exists t, s = sp :: t /\ one_line t.
Definition tally_ok (d : tally_data) : Prop :=
  columns 8 (d_number d) /\ columns 11 (d_nps d) /\ one_line (d_type d) /\ one_line (d_particles d) /\
  one_line (d_where d) /\ one_line (d_size d) /\
  blank_line (d_desired d) /\ blank_line (d_observed d) /\ blank_line (d_passed d) /\
  one_line (d_asymmetric d) /\ one_line (d_symmetric d) /\ columns 2 (d_missed d).
(** The page of a tally, from its parts; [subs] is the text of the subtallies. *)
Definition rule : str := sp :: srepeat 131 (L "=").
Definition tally_head (d : tally_data) : str :=
  L "1tally " ++ d_number d ++ L "        nps = " ++ d_nps d ++ nl ::
  L "           tally type " ++ d_type d ++ nl ::
  L "           particle(s): " ++ d_particles d.
Definition tally_checks (d : tally_data) : str :=
  rule ++ nl :: nl ::
  L "           results of 10 statistical checks for the estimated answer for the tally fluctuation chart (tfc) bin of tally " ++ d_number d ++ nl :: nl ::
  L " tfc bin     --mean--      ---------relative error---------      ----variance of the variance----      --figure of merit--     -pdf-" ++ nl ::
  L " behavior    behavior      value   decrease   decrease rate      value   decrease   decrease rate       value     behavior     slope" ++ nl :: nl ::
  d_desired d ++ nl :: d_observed d ++ nl :: d_passed d ++ nl :: nl :: rule ++ [nl; nl; nl].
Definition tally_good (d : tally_data) : str :=
  L " this tally meets the statistical criteria used to form confidence intervals: check the tally fluctuation chart to verify." ++ nl ::
  L " the results in other bins associated with this tally may not meet these statistical criteria." ++ nl :: nl ::
  L " ----- estimated confidence intervals:  -----" ++ nl :: nl ::
  L " estimated asymmetric confidence interval(1,2,3 sigma): " ++ d_asymmetric d ++ nl ::
  L " estimated  symmetric confidence interval(1,2,3 sigma): " ++ d_symmetric d ++ [nl].
Definition tally_bad (d : tally_data) : str :=
  L " warning.  the tally in the tally fluctuation chart bin did not pass " ++ d_missed d ++ L " of the 10 statistical checks." ++ [nl].
Definition volumes (d : tally_data) : str :=
  nl :: L "           volumes " ++ nl ::
  L "                   cell: " ++ d_where d ++ nl :: L "                         " ++ d_size d ++ [nl].
Definition areas (d : tally_data) : str :=
  nl :: L "           areas   " ++ nl ::
  L "                surface: " ++ d_where d ++ nl :: L "                         " ++ d_size d ++ [nl].
Definition tally_text (sizes subs rest : str) (d : tally_data) : str :=
  tally_head d ++ nl :: sizes ++ sp :: nl :: subs ++ nl :: tally_checks d ++ rest.
(** A page of angle bins, and a page of pulse heights, which may have a line of its own after the particles. *)
Definition angle_page (d : tally_data) (ds : list angle_data) (rest : str) : str := tally_text [] (concat (map angle_of ds)) rest d.
Definition message_text (ms : option str) : str := match ms with Some m => nl :: m | None => [] end.
Definition message_ok (ms : option str) : Prop := forall m, ms = Some m -> ~ In nl m /\ m <> [sp].
Definition pulse_page (d : tally_data) (ms : option str) (ds : list sub_data) (rest : str) : str :=
  tally_head d ++ message_text ms ++ nl :: sp :: nl :: concat (map cell_of ds) ++ nl :: tally_checks d ++ rest.
