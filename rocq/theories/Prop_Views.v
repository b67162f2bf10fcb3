(** C75: what the command that draws a problem shows. *)

From Coq Require Import Ascii String NArith ZArith Bool List Lia.
From Verif Require Import PyStr PyNum Geometry GeometrySpec Visualize VisualizeSpec Cli Commands CommandsSpec Views ViewsSpec ViewsFacts.
Import ListNotations.

(** Windows: one for each wish, in order, each with exactly what was wished for; and it says
    it is done.  For problems that can be drawn (C60), numbers in their plain spelling, and
    no cell that is left like one that is skipped. *)
Theorem C75_windows_partial P file s l a cs ss :
  drawable (map fst s) l [] -> pdf a = false ->
  Forall2 numbers (cells_skip a) cs -> Forall2 numbers (surfaces_skip a) ss -> Forall (fun ns => closed ns l) cs ->
  Forall2 (granted P (in_window P) s l) (wishes a cs ss) (fst (visualize_main file (Ok (shown_all P s, l)) a)) /\
  says_done (snd (visualize_main file (Ok (shown_all P s, l)) a)).
Proof.
  intros HD HP HC HS HL. destruct (run_windows P file s l a cs ss HD HP HC HS HL) as (vs & E & HF).
  rewrite (main_ok P _ _ _ _ _ E). split; [exact HF|reflexivity].
Qed.
Print Assumptions C75_windows_partial.

(** Files: all cells, all surfaces, or both; each in its file beside the problem. *)
Theorem C75_files_partial P base suffix s l a :
  drawable (map fst s) l [] -> ~ In "."%char suffix -> pdf a = true ->
  cells_skip a = [] -> surfaces_skip a = [] -> cell a = [] -> surface a = [] ->
  Forall2 (granted P (in_file P base) s l) (wishes a [] []) (fst (visualize_main (base ++ "."%char :: suffix) (Ok (shown_all P s, l)) a)) /\
  says_done (snd (visualize_main (base ++ "."%char :: suffix) (Ok (shown_all P s, l)) a)).
Proof.
  intros HD HS HP H1 H2 H3 H4. destruct (run_files P base suffix s l a HD HS HP H1 H2 H3 H4) as (vs & E & HF).
  rewrite (main_ok P _ _ _ _ _ E). split; [exact HF|reflexivity].
Qed.
Print Assumptions C75_files_partial.

(** A problem that is not read: the message of the error, and nothing is shown. *)
Theorem C75_unread_partial P file e a : e = InpError \/ e = CliError \/ e = TypesError ->
  fst (@visualize_main P file (Lib e) a) = [] /\ says_error (snd (@visualize_main P file (Lib e) a)) e.
Proof. intros [->|[->| ->]]; split; reflexivity. Qed.
Print Assumptions C75_unread_partial.

(** With [--pdf] the numbers to skip are not looked at: the files are those of all cells and
    of all surfaces. *)
Theorem C75_skip_files_refuted P file problem t ns : numbers t ns ->
  @visualize_main P file problem (args_cells_skip t true) = visualize_main file problem (args_cells true) /\
  @visualize_main P file problem (args_surfaces_skip t true) = visualize_main file problem (args_surfaces true).
Proof. exact (skip_files P file problem t ns). Qed.
Print Assumptions C75_skip_files_refuted.
(** With [--pdf] and listed cells or surfaces it never says that it is done. *)
Theorem C75_listed_files_refuted P file problem a : pdf a = true -> cell a <> [] \/ surface a <> [] ->
  ~ says_done (snd (@visualize_main P file problem a)).
Proof. exact (pdf_not_done P file problem a). Qed.
Print Assumptions C75_listed_files_refuted.
(** The listed cells are in the file when it ends in an error of Python. *)
Theorem C75_cell_file_refuted P base suffix s l t : drawable (map fst s) l [] -> ~ In "."%char suffix ->
  exists path pic all,
    visualize_main (base ++ "."%char :: suffix) (Ok (shown_all P s, l)) (args_cell t true) =
      ([Pdf path pic], ([Disclaimer], Uncaught (inr UnboundLocalError))) /\
    sets P (surf_of P s) l [] all /\ picked (fun x => listed t (fst x)) all (map (set_of P) pic).
Proof. intros HD HS. exact (run_cell_file P base suffix s l HD HS t). Qed.
Print Assumptions C75_cell_file_refuted.
(** Listed surfaces are in no file. *)
Theorem C75_surface_file_refuted P base suffix s l t : ~ In "."%char suffix ->
  @visualize_main P (base ++ "."%char :: suffix) (Ok (s, l)) (args_surface t true) = ([], ([Disclaimer], Uncaught (inr TypeError))).
Proof.
  intros HS. apply main_py. unfold views, nothing, args_surface, these_surfaces, out_pdf, get_outfile. cbn [cells surfaces cells_skip surfaces_skip cell surface pdf none negb andb orb each fold_right].
  rewrite (CliFacts.rsplit1_last "." base suffix HS). reflexivity.
Qed.
Print Assumptions C75_surface_file_refuted.
(** A cell like one that is skipped: nothing is shown. *)
Theorem C75_like_refuted P file s l1 n m l2 t ns :
  drawable (map fst s) l1 [] -> closed ns l1 -> numbers t ns -> among ns m -> ~ among ns n ->
  visualize_main file (Ok (shown_all P s, l1 ++ ELike n m :: l2)) (args_cells_skip t false) = ([], ([Disclaimer], Uncaught (inr KeyError))).
Proof. exact (skip_like P file s l1 n m l2 t ns). Qed.
Print Assumptions C75_like_refuted.
(** The complement of a cell that is skipped is shown as the surface of that number. *)
Theorem C75_complement_refuted P file s f m n g z : last_of s m f -> m = str_of_Z z -> n <> m ->
  visualize_main file (Ok (shown_all P s, [ECell m g; ECell n (GUnary "#" (GDigit m))])) (args_cells_skip m false) =
  ([Window [(n, f)]], ([Disclaimer; Done], Exit 0)).
Proof. exact (skip_complement P file s f m n g z). Qed.
Print Assumptions C75_complement_refuted.
(** Something to skip that has no digit, such as nothing after a comma. *)
Theorem C75_numbers_refuted P file s l t w p : In w (split_on "," t) -> (forall c, In c w -> is_digit c = false) ->
  @visualize_main P file (Ok (s, l)) (args_cells_skip t p) = ([], ([Disclaimer], Uncaught (inr ValueError))) /\
  @visualize_main P file (Ok (s, l)) (args_surfaces_skip t p) = ([], ([Disclaimer], Uncaught (inr ValueError))).
Proof. exact (skip_bad P file s l t w p). Qed.
Print Assumptions C75_numbers_refuted.
(** One surface that cannot be shown (C59) stops every cell from being shown, whatever its
    surfaces. *)
Theorem C75_surface_refuted P file s1 n e s2 l t :
  visualize_main file (Ok (shown_all P s1 ++ (n, Py e) :: s2, l)) (args_cell t false) = ([], ([Disclaimer], Uncaught (inr e))).
Proof. exact (surface_fails P file s1 n e s2 l t). Qed.
Print Assumptions C75_surface_refuted.

(** ** Cases *)

Definition some_surfaces : list (str * shape Z) := [(L "1", fun p => (p >? 0)%Z); (L "2", fun p => (p >? 5)%Z)].
Definition some_cells : list entry :=
  [ECell (L "1") (GDigit (L "1")); EOther; ECell (L "2") (GUnary "-" (GDigit (L "2"))); ELike (L "3") (L "2"); ECell (L "10") (GInter (GDigit (L "1")) (GUnary "-" (GDigit (L "2"))))].
Definition shown_numbers (v : view Z) : list str := match v with Window p | Pdf _ p => map fst p end.

Example some_drawable : drawable (map fst some_surfaces) some_cells [].
Proof. cbn. repeat (split; [try reflexivity; try (repeat constructor; cbn; tauto); try (cbn; tauto)|]). exact I. Qed.
Example some_closed : closed [1; 10]%Z some_cells /\ ~ closed [2]%Z some_cells.
Proof.
  split.
  - intros n m I _. cbn in I. repeat (destruct I as [I|I]; [try discriminate I|]); [|destruct I]. injection I as <- <-. cbn. intros [H|[H|[]]]; discriminate H.
  - intros H. apply (H (L "3") (L "2")); cbn; [tauto| |tauto]. intros [E|[]]. discriminate E.
Qed.
Example some_numbers : numbers (L "1,10") [1; 10]%Z.
Proof. split; [discriminate|reflexivity]. Qed.
Example some_windows :
  map shown_numbers (fst (visualize_main (L "a.inp") (Ok (shown_all Z some_surfaces, some_cells)) (Build_args true true [L "1,10"] [L "2"] [L "3,1"; L "7"] [L "1"] false))) =
  [[L "1"; L "2"; L "3"; L "10"]; [L "1"; L "2"]; [L "2"; L "3"]; [L "1"]; [L "1"; L "3"]; []; [L "1"]].
Proof. reflexivity. Qed.
Example some_windows_apply :
  Forall2 (granted Z (in_window Z) some_surfaces some_cells)
    [Cells (fun n => ~ among [1; 10]%Z n); Cells (listed (L "3,1"))]
    (fst (visualize_main (L "a.inp") (Ok (shown_all Z some_surfaces, some_cells)) (Build_args false false [L "1,10"] [] [L "3,1"] [] false))).
Proof.
  apply (C75_windows_partial Z (L "a.inp") some_surfaces some_cells (Build_args false false [L "1,10"] [] [L "3,1"] [] false) [[1; 10]%Z] []).
  - exact some_drawable.
  - reflexivity.
  - constructor; [exact some_numbers|constructor].
  - constructor.
  - constructor; [exact (proj1 some_closed)|constructor].
Qed.
Example some_files :
  map (fun v => match v with Pdf f p => (f, map fst p) | Window p => ([], map fst p) end)
    (fst (visualize_main (L "a.inp") (Ok (shown_all Z some_surfaces, some_cells)) (plain_args true))) =
  [(L "a-cells.pdf", [L "1"; L "2"; L "3"; L "10"]); (L "a-surfaces.pdf", [L "1"; L "2"])].
Proof. reflexivity. Qed.
Example some_cell_file :
  map (fun v => match v with Pdf f p => (f, map fst p) | Window p => ([], map fst p) end)
    (fst (visualize_main (L "a.inp") (Ok (shown_all Z some_surfaces, some_cells)) (args_cell (L "3,1") true))) =
  [(L "a-cell_['3', '1'].pdf", [L "1"; L "3"])].
Proof. reflexivity. Qed.
Example some_like : snd (visualize_main (L "a.inp") (Ok (shown_all Z some_surfaces, some_cells)) (args_cells_skip (L "2") false)) = ([Disclaimer], Uncaught (inr KeyError)).
Proof. reflexivity. Qed.
(** The same number in another spelling is skipped, but not found. *)
Example some_spelling :
  map shown_numbers (fst (visualize_main (L "a.inp") (Ok (shown_all Z some_surfaces, some_cells)) (Build_args false false [L "01"] [] [L "01"] [] false))) =
  [[L "2"; L "3"; L "10"]; []].
Proof. reflexivity. Qed.
Example some_comma : In [] (split_on "," (L "1,")).
Proof. right. left. reflexivity. Qed.
