(** Properties C35, C36 and C67-C69: whole INP files.  [inp_preprocess] and
    [cut_blocks] are the first two steps of [Inp.from_mcnp], [read_inp] the whole of
    it; [inp_to_mcnp] is [Inp.to_mcnp], [file_text] the file it makes of the texts of
    the cards. *)

From Coq Require Import Ascii String NArith ZArith Bool Arith Lia List.
From Verif Require Import PyStr Regex RegexParse PyNum Types TypesSpec CardText CardTextSpec Cards Tables CardsSpec CardsFacts6 CardsFacts7 Geometry Numbered Problem
  InpFile InpSpec InpSpec2 InpFacts4 InpFacts5 RegexDer InpFacts6 InpFacts7 InpFacts8 InpFacts9 InpFacts10 OptSpec CellSpec GeometrySpec OptFacts6 CellFacts3 LikeFacts.
Import ListNotations.
Open Scope char_scope.
Open Scope list_scope.

(** ** A problem to look at *)

Definition text_of (ls : list string) : str := join [nl] (map L ls).
Definition ball : str := text_of
  ["a ball"; "1 1 -7.8 -1 imp:n 1"; "2 0 1 -2 imp:n 1 u 3"; "c the rest"; "3 0 2 imp:n 0"; ""; "1 so 5"; "*2 so 9"; ""; "mode n"; "nps 1000"; ""; "free text"]%string.

(** ** C35 *)

(** Full statement: a written problem splits again into its blocks.  Proved for
    every number of lines, words and continuation lines: each line comes back with its
    words, one blank between them, under the right heading, in its place.  Missing:
    the message, which keeps its line end (the next theorem but one); tables of
    vertical input, tabs, [=] and comments at the end of a line. *)
Theorem C35_blocks_partial : forall message title cells surfaces data other,
  file_ok message title cells surfaces data other ->
  exists m' t' cs ss ds o',
    cut_blocks (inp_preprocess (file_text (option_map row_text message) (row_text title) (map row_text cells) (map row_text surfaces) (map row_text data) (option_map rows_text other)))
    = Some {| b_message := option_map (fun m => m ++ [nl]) m'; b_title := t'; b_cells := cs; b_surfaces := ss; b_data := ds; b_other := option_map (join [nl]) o' |} /\
    match message with Some r => exists m, m' = Some m /\ shows r m | None => m' = None end /\
    shows title t' /\ Forall2 shows cells cs /\ Forall2 shows surfaces ss /\ Forall2 shows data ds /\
    match other with Some l => exists o, o' = Some o /\ Forall2 shows_line l o | None => o' = None end.
Proof. exact file_cut. Qed.
Print Assumptions C35_blocks_partial.

(** False of the code: the message of a problem that is written and read again has a
    line end more. *)
Definition with_message (m : str) (x : inp) : inp := mkinp (i_title x) (i_cells x) (i_surfaces x) (i_data x) (Some m) (i_other x).
Theorem C35_message_refuted : exists x y t, read_inp ball = Ok x /\
  inp_to_mcnp (with_message (L "message: run 3") x) = Ok t /\ read_inp t = Ok y /\
  y = with_message (L "message: run 3" ++ [nl]) x.
Proof. eexists. eexists. eexists. split; [vm_compute; reflexivity|]. split; [vm_compute; reflexivity|]. split; vm_compute; reflexivity. Qed.
Print Assumptions C35_message_refuted.

(** The hypotheses are met: two words with a continuation between them, and a
    comment, a message, an empty line in the last block. *)
Definition r_ (w : string) (l : list (str * string)) (t : str) : row := mkrow (L w) (map (fun x => (fst x, L (snd x))) l) t.
Definition b1 : str := [sp].
Definition amp : str := [sp; "&"; nl; sp; sp; sp; sp; sp].
Ltac clean_ := repeat split; try discriminate; try (repeat constructor); cbn; intuition discriminate.
Ltac row_ := unfold row_ok, r_; cbn [r_first r_more r_tail map fst snd]; split; [clean_|split; [discriminate|split; [|try (repeat constructor)]]].
Definition c_title : row := r_ "a" [(b1, "ball"%string)] [].
Definition c_cell : row := r_ "1" [(b1, "0"%string); (amp, "-1"%string); (b1, "imp:n"%string); ([sp; sp], "1"%string)] [sp].
Definition c_remark : row := r_ "c" [(b1, "the"%string); (b1, "rest"%string)] [].
Definition c_surface : row := r_ "1" [(b1, "so"%string); (b1, "5"%string)] [].
Definition c_data : row := r_ "nps" [(nl :: srepeat 5 b1, "1000"%string)] [].
Definition c_message : row := r_ "Message:" [(b1, "run"%string)] [].
Lemma fold1 : fold b1. Proof. apply F_blanks; [repeat constructor|discriminate]. Qed.
Lemma fold2 : fold [sp; sp]. Proof. apply F_blanks; [repeat constructor|discriminate]. Qed.
Lemma fold_amp : fold amp. Proof. apply (F_amp [sp] [] (srepeat 5 [sp])); try (repeat constructor). discriminate. Qed.
Lemma fold_nl : fold (nl :: srepeat 5 b1). Proof. apply (F_indent [] (srepeat 5 [sp])); try (repeat constructor). discriminate. Qed.
Example C35_case : file_ok (Some c_message) c_title [c_cell; c_remark] [c_surface] [c_data] (Some [Some c_title; None; Some c_title]).
Proof.
  assert (HT : row_ok c_title) by (row_; repeat (constructor; [split; [auto using fold1|clean_]|]); constructor).
  assert (HC : row_ok c_cell) by (row_; repeat (constructor; [split; [auto using fold1, fold2, fold_amp|clean_]|]); constructor).
  assert (HR : row_ok c_remark) by (row_; repeat (constructor; [split; [auto using fold1|clean_]|]); constructor).
  assert (HS : row_ok c_surface) by (row_; repeat (constructor; [split; [auto using fold1|clean_]|]); constructor).
  assert (HD : row_ok c_data) by (row_; repeat (constructor; [split; [auto using fold_nl|clean_]|]); constructor).
  assert (HM : row_ok c_message) by (row_; repeat (constructor; [split; [auto using fold1|clean_]|]); constructor).
  split; [exact HT|]. split; [auto|]. split; [discriminate|]. split; [auto|]. split; [discriminate|]. split; [auto|]. split; [discriminate|]. split.
  - split; [constructor; [exact HT|constructor; [exact I|constructor; [exact HT|constructor]]]|]. split; [eauto|]. exists [Some c_title; None], c_title. reflexivity.
  - split; [exact HM|]. split; [vm_compute; reflexivity|]. vm_compute. lia.
Qed.

(** ** C36 *)

(** False of the code: a comment at the end of a line is gone when the problem is
    written. *)
Definition commented : str := text_of ["a ball"; "1 1 -7.8 -1 imp:n 1 $ steel"; ""; "1 so 5"; ""; "mode n"]%string.
Fixpoint occurs (w s : str) : bool := match s with [] => starts_with w [] | _ :: t => starts_with w s || occurs w t end.
Theorem C36_refuted : exists x t, read_inp commented = Ok x /\ inp_to_mcnp x = Ok t /\
  occurs (L "steel") commented = true /\ occurs (L "steel") t = false.
Proof. eexists. eexists. split; [vm_compute; reflexivity|]. split; [vm_compute; reflexivity|]. split; vm_compute; reflexivity. Qed.
Print Assumptions C36_refuted.
(** False of the code: the text of a comment line is changed. *)
Definition spaced_comment : str := text_of ["a ball"; "c  a  =  b"; "1 1 -7.8 -1 imp:n 1"; ""; "1 so 5"; ""; "mode n"]%string.
Theorem C36_text_refuted : exists x l, read_inp spaced_comment = Ok x /\ i_cells x = (CComment (Some (L "a b")), []) :: l.
Proof. eexists. eexists. split; [vm_compute; reflexivity|]. vm_compute. reflexivity. Qed.
Print Assumptions C36_text_refuted.

(** What holds: a comment line is read as a comment with all its words, in every
    block and wherever it stands, and written with them. *)
Theorem C36_comment_lines_partial : forall message title cells surfaces data other x k r ws,
  file_ok message title cells surfaces data other ->
  read_inp (file_text (option_map row_text message) (row_text title) (map row_text cells) (map row_text surfaces) (map row_text data) (option_map rows_text other)) = Ok x ->
  row_words r = L "c" :: ws -> ws <> [] -> Forall plain_word ws ->
  (nth_error cells k = Some r -> nth_error (i_cells x) k = Some (CComment (Some (join [sp] ws)), [])) /\
  (nth_error surfaces k = Some r -> nth_error (i_surfaces x) k = Some (CComment (Some (join [sp] ws)), [])) /\
  (nth_error data k = Some r -> nth_error (i_data x) k = Some (CComment (Some (join [sp] ws)), [])).
Proof. exact comments_kept. Qed.
Print Assumptions C36_comment_lines_partial.
Theorem C36_written_partial : forall ws t, ws <> [] -> Forall plain_word ws -> card_text (CComment (Some (join [sp] ws))) = Ok t ->
  read_cell_card t = Ok (CComment (Some (join [sp] ws)), []) /\ read_surface_card t = Ok (CComment (Some (join [sp] ws)), []) /\
  read_data_card t = Ok (CComment (Some (join [sp] ws)), []).
Proof. exact comment_card_back. Qed.
Print Assumptions C36_written_partial.
Example C36_case : row_words c_remark = L "c" :: [L "the"; L "rest"] /\ Forall plain_word [L "the"; L "rest"].
Proof.
  split; [reflexivity|]. assert (P : forall w, clean w -> forallb (fun c => negb (is_digit c)) w = true -> (forall k, is_short k w = false) -> plain_word w).
  { intros w HC HD HS. split; [exact HC|]. split.
    - intros k n (ds & t & -> & HN & HF & _). destruct ds as [|c ds]; [congruence|]. inversion HF as [|? ? H1 _]; subst. cbn [app forallb] in HD. rewrite H1 in HD. discriminate.
    - intros k HK. rewrite HS in HK. discriminate. }
  repeat constructor; apply P; try reflexivity; try (intros []; vm_compute; reflexivity); clean_.
Qed.

(** ** C67 *)

(** False of the code: a problem with the importances on an IMP card cannot be read. *)
Definition imp_card : str := text_of ["a ball"; "1 1 -7.8 -1"; "2 0 1"; ""; "1 so 5"; ""; "imp:n 1 0"]%string.
Theorem C67_refuted : read_inp imp_card = Lib InpError /\
  (exists x, read_data_card (L "imp:n 1 0") = Ok x) /\ (exists x, read_cell_card (L "1 1 -7.8 -1") = Ok x) /\ (exists x, read_cell_card (L "2 0 1") = Ok x) /\
  (exists x, read_surface_card (L "1 so 5") = Ok x).
Proof. split; [vm_compute; reflexivity|]. repeat split; eexists; vm_compute; reflexivity. Qed.
Print Assumptions C67_refuted.
(** What is accepted: if every card is read, the problem is, when the title is shorter
    than eighty characters and some card of the cell block has an importance of its own
    or is not a cell. *)
Theorem C67_accepted_partial : forall message title cells surfaces data other cs ss ds,
  file_ok message title cells surfaces data other ->
  mapM read_cell_card (map row_text cells) = Ok cs -> mapM read_surface_card (map row_text surfaces) = Ok ss -> mapM read_data_card (map row_text data) = Ok ds ->
  (exists t, shows title t /\ exists x, (read_inp (file_text (option_map row_text message) (row_text title) (map row_text cells) (map row_text surfaces) (map row_text data) (option_map rows_text other))
     = if (Nat.ltb (length t) 80 && existsb (fun c => negb (no_imp (fst c))) cs)%bool then Ok x else Lib InpError) /\
     i_title x = t /\ i_cells x = cs /\ i_surfaces x = ss /\ i_data x = ds).
Proof. exact file_accepted. Qed.
Print Assumptions C67_accepted_partial.
Example C67_case : exists cs, mapM read_cell_card (map row_text [c_cell; c_remark]) = Ok cs /\ existsb (fun c => negb (no_imp (fst c))) cs = true.
Proof. eexists. split; vm_compute; reflexivity. Qed.

(** ** C68 *)

(** Full statement: a problem written and read again is the same problem.  Proved for
    every number of cards, for a data block of comments of plain words and of objects
    of every data card class of regular form (those of C25) but the eight of C69, with
    any proper values, or with a list of options (those of C70); for a surface block of
    comments and of surfaces with an option of every class, a number, and perhaps a
    transformation and a prefix; and for a cell block of comments, of cells with a
    number, a material, a density unless the material is 0, any geometry that is read
    as it is written (C15 says which), and perhaps options, and of cells that are like
    others.  Missing: the message (C35); options of cells with several values or of the
    classes that share their texts (C70); a cell without options whose last line has
    78 columns, after which a blank line is written; titles and last blocks with double
    blanks; cells without any importance (C67). *)
Theorem C68_problem_partial : forall x s,
  i_message x = None ->
  (exists r, row_ok r /\ settled r /\ row_text r = i_title x) -> announces (i_title x) = false -> length (i_title x) < 80 ->
  match i_other x with Some o => exists l, other_ok l /\ Forall (fun y => match y with Some r => settled r | None => True end) l /\ rows_text l = o | None => True end ->
  i_cells x <> [] -> i_surfaces x <> [] -> i_data x <> [] -> existsb (fun c => negb (no_imp (fst c))) (i_cells x) = true ->
  Forall (fun c => plain_remark c \/ plain_cell c \/ plain_like c) (i_cells x) ->
  Forall (fun c => plain_remark c \/ plain_surface c) (i_surfaces x) ->
  Forall (fun c => plain_remark c \/ plain_data c \/ listed_data c) (i_data x) ->
  inp_to_mcnp x = Ok s -> read_inp s = Ok x.
Proof. exact problem_back_cells. Qed.
Print Assumptions C68_problem_partial.

(** The hypotheses are met by the ball. *)
Definition inp_or_empty (r : result inp) : inp := match r with Ok x => x | _ => mkinp [] [] [] [] None None end.
Definition the_ball : inp := inp_or_empty (read_inp ball).
(** A cell comes back by itself. *)
Theorem C68_cell_partial : forall c t, plain_cell c \/ plain_like c -> card_text (fst c) = Ok t -> read_cell_card t = Ok c.
Proof. exact cell_again. Qed.
Print Assumptions C68_cell_partial.
(** The cells of the ball are such, and so are a cell with a union and without options,
    and a cell like another one. *)
Definition card_of (r : result remarked) : remarked := match r with Ok c => c | _ => (CComment None, []) end.
Ltac made i k hs v :=
  eapply (made_option _ i k _ hs v); [vm_compute; reflexivity|vm_compute; reflexivity|vm_compute; reflexivity|reflexivity| |vm_compute; reflexivity|repeat (split; [exact eq_refl|]); exact I|discriminate|repeat (constructor; try exact I)|vm_compute; reflexivity|vm_compute; reflexivity].
Definition importance (n : N) : val := obj_val k_cell_Imp (match construct ext fam k_cell_Imp [AVal (VDesig (L "n")); AVal (VReal (RVal (Fin false n 0)))] with Ok o => o | _ => [] end).
Definition universe : val := obj_val k_cell_U (match construct ext fam k_cell_U [AVal (int_val 3)] with Ok o => o | _ => [] end).
Definition other_material : val := obj_val k_like_Mat (match construct ext fam k_like_Mat [AVal (int_val 5)] with Ok o => o | _ => [] end).
Lemma importance_ok n : n = 0%N \/ n = 1%N -> plain_option f_cell_CellOption (importance n).
Proof.
  intros [->| ->]; [made 0 k_cell_Imp [Some (VDesig (L "n"))] [Some (VReal (RVal (Fin false 0 0)))]|made 0 k_cell_Imp [Some (VDesig (L "n"))] [Some (VReal (RVal (Fin false 1 0)))]];
    (constructor; [exists (L "n"); split; vm_compute; reflexivity|constructor]).
Qed.
Lemma universe_ok : plain_option f_cell_CellOption universe.
Proof. made 9 k_cell_U (@nil (option val)) [Some (int_val 3)]. replace (head_parts (decode k_cell_U)) with (@nil (string * aty * bool)) by (vm_compute; reflexivity). constructor. Qed.
Lemma material_ok : plain_option f_like_LikeOption other_material.
Proof. made 17 k_like_Mat (@nil (option val)) [Some (int_val 5)]. replace (head_parts (decode k_like_Mat)) with (@nil (string * aty * bool)) by (vm_compute; reflexivity). constructor. Qed.
Definition minus (n : string) : geo := GUnary "-" (GDigit (L n)).
Ltac cell_ z m d g os :=
  exists z, m, d, g, os, first_number; eexists; eexists; split; [vm_compute; reflexivity|]; split; [apply Nat.leb_le; vm_compute; reflexivity|]; split; [vm_compute; reflexivity|];
  split; [let x := fresh in let Q := fresh in intros x Q; first [discriminate Q|injection Q as <-; vm_compute; reflexivity]|]; split; [vm_compute; reflexivity|]; split; [|split; [vm_compute; reflexivity|split; [|vm_compute; reflexivity]]].
Definition bare_cell : remarked := card_of (read_cell_card (L "4 2 0.5 (1:-2) 3")).
Definition like_cell : remarked := card_of (read_cell_card (L "5 like 4 but mat=5")).
Example C68_cells :
  Forall (fun c => plain_remark c \/ plain_cell c \/ plain_like c) (i_cells the_ball) /\
  map (fun c => card_text (fst c)) (i_cells the_ball) = [Ok (L "1 1 -7.8 -1 imp:n 1"); Ok (L "2 0  1 -2 imp:n 1 u 3"); Ok (L "c the rest"); Ok (L "3 0  2 imp:n 0")] /\
  plain_cell bare_cell /\ card_text (fst bare_cell) = Ok (L "4 2 0.5 (1:-2) 3 ") /\ plain_like like_cell /\ card_text (fst like_cell) = Ok (L "5 like 4 but mat 5").
Proof.
  split; [|split; [vm_compute; reflexivity|split; [|split; [vm_compute; reflexivity|split; [|vm_compute; reflexivity]]]]].
  - assert (E : i_cells the_ball = [card_of (read_cell_card (L "1 1 -7.8 -1 imp:n 1")); card_of (read_cell_card (L "2 0 1 -2 imp:n 1 u 3"));
                                    (CComment (Some (L "the rest")), []); card_of (read_cell_card (L "3 0 2 imp:n 0"))]) by (vm_compute; reflexivity).
    rewrite E. clear E. constructor; [|constructor; [|constructor; [|constructor; [|constructor]]]].
    + right. left. cell_ 1%Z 1%Z (Some (RVal (Fin true 78 (-1)))) (minus "1") (Some [importance 1]); [|intros Q; discriminate Q]. split; [intros Q; discriminate Q|]. constructor; [apply importance_ok; now right|constructor].
    + right. left. cell_ 2%Z 0%Z (@None realv) (GInter (GDigit (L "1")) (minus "2")) (Some [importance 1; universe]); [|intros Q; discriminate Q]. split; [intros Q; discriminate Q|]. constructor; [apply importance_ok; now right|]. constructor; [exact universe_ok|constructor].
    + left. exists [L "the"; L "rest"]. split; [discriminate|]. split; [|vm_compute; reflexivity]. repeat (constructor; [split; [clean_|split]|]); try constructor.
      * intros k n (ds & t & E & N & D & _). destruct ds as [|x ds]; [congruence|]. injection E as <- _. inversion D; discriminate.
      * intros []; discriminate.
      * intros k n (ds & t & E & N & D & _). destruct ds as [|x ds]; [congruence|]. injection E as <- _. inversion D; discriminate.
      * intros []; discriminate.
    + right. left. cell_ 3%Z 0%Z (@None realv) (GDigit (L "2")) (Some [importance 0]); [|intros Q; discriminate Q]. split; [intros Q; discriminate Q|]. constructor; [apply importance_ok; now left|constructor].
  - cell_ 4%Z 2%Z (Some (RVal (Fin false 5 (-1)))) (GInter (GParen (GUnion (GDigit (L "1")) (minus "2"))) (GDigit (L "3"))) (@None (list val)); [exact I|].
    intros _ t Et. vm_compute in Et. injection Et as <-. repeat constructor; discriminate.
  - exists 5%Z, 4%Z, (Some [other_material]). eexists. split; [vm_compute; reflexivity|]. split; [apply Nat.leb_le; vm_compute; reflexivity|]. split; [vm_compute; reflexivity|]. split; [|split; [vm_compute; reflexivity|split; [intros Q; discriminate Q|vm_compute; reflexivity]]].
    split; [intros Q; discriminate Q|]. constructor; [exact material_ok|constructor].
Qed.
(** A surface comes back by itself. *)
Theorem C68_surface_partial : forall c t, plain_surface c -> card_text (fst c) = Ok t -> read_surface_card t = Ok c.
Proof. exact surface_again. Qed.
Print Assumptions C68_surface_partial.
(** The two spheres of the ball, and a plane with a transformation, are such. *)
Definition radius (n : N) : list (option val) := [Some (VReal (RVal (Fin false n 0)))].
Definition so_object (n : N) : obj := match construct ext fam k_surface_So (map to_arg (radius n)) with Ok o => o | _ => [] end.
Definition sphere (p : option ascii) (z : Z) (n : N) (t : option Z) : surfobj :=
  mksurf (option_map (fun x => VStr [x]) p) (Some (int_val z)) (option_map int_val t) (Some (obj_val k_surface_So (so_object n))).
Example C68_surfaces :
  Forall plain_surface (i_surfaces the_ball) /\ map (fun c => card_text (fst c)) (i_surfaces the_ball) = [Ok (L "1  so 5"); Ok (L "*2  so 9")] /\
  plain_surface (CSurface (sphere (Some "+") 7 3 (Some 4%Z)), []) /\ surf_to_mcnp (sphere (Some "+") 7 3 (Some 4%Z)) = L "+7 4 so 3".
Proof.
  assert (HF : has_form k_surface_So (decode k_surface_So)) by (apply regularb_ok; vm_compute; reflexivity).
  assert (H : forall p z n t m', p = None \/ p = Some "+" \/ p = Some "*" -> n = 5%N \/ n = 9%N \/ n = 3%N -> int_seq (IVal z) = true -> length (str_of_Z z) <= 76 -> (forall x, t = Some x -> int_seq (IVal x) = true) ->
    surf_new first_number {| sa_option := AVal (obj_val k_surface_So (so_object n)); sa_number := AVal (int_val z); sa_transform := to_arg (option_map int_val t);
                  sa_prefix := to_arg (option_map (fun x => VStr [x]) p) |} = (m', Ok (sphere p z n t)) -> plain_surface (CSurface (sphere p z n t), [])).
  { intros p z n t m' HP HN HZ HL HT HS. exists p, z, t, k_surface_So, (decode k_surface_So), (radius n), (so_object n), first_number, m', (sphere p z n t).
    split; [unfold f_surface_SurfaceOption; repeat (try (now left); right)|]. split; [exact HF|]. split; [|split; [|exact (conj HP (conj HZ (conj HL (conj HT (conj HS eq_refl)))))]].
    - exists [], (radius n). split; [reflexivity|]. split; [constructor|]. destruct HN as [->|[->| ->]]; vm_compute; repeat split; auto; constructor; auto.
    - destruct HN as [->|[->| ->]]; vm_compute; reflexivity. }
  assert (E : i_surfaces the_ball = [(CSurface (sphere None 1 5 None), []); (CSurface (sphere (Some "*") 2 9 None), [])]) by (vm_compute; reflexivity).
  rewrite E. repeat split.
  - constructor; [|constructor; [|constructor]]; (eapply H; auto; [apply Nat.leb_le; vm_compute; reflexivity|discriminate|vm_compute; reflexivity]).
  - eapply H; auto; [apply Nat.leb_le; vm_compute; reflexivity| |vm_compute; reflexivity]. intros x [= <-]. reflexivity.
Qed.

Definition ball_tr : list (option val) := Some (VStr (L "*")) :: Some (VInt (IVal 5)) :: map Some (map (fun z => VReal (RVal (Fin false z 0))) [1; 2; 3; 1; 0; 0; 0; 1; 0]%N) ++ [None].
Definition tr_object : obj := match construct ext fam k_Tr_1 (map to_arg ball_tr) with Ok o => o | _ => [] end.
Example C68_data : plain_data (CData k_Tr_1 tr_object, []) /\ card_to_mcnp k_Tr_1 tr_object = L "*tr5 1 2 3 1 0 0 0 1 0".
Proof.
  assert (HV : values_ok (decode k_Tr_1) ball_tr).
  { exists (firstn 2 ball_tr), (skipn 2 ball_tr). split; [reflexivity|]. split.
    + constructor; [reflexivity|]. constructor; [|constructor]. exists 5%N. split; vm_compute; reflexivity.
    + vm_compute. repeat split; auto; constructor; auto. }
  assert (HC : construct ext fam k_Tr_1 (map to_arg ball_tr) = Ok tr_object) by (vm_compute; reflexivity).
  assert (HL : length (head_text (c_kw k_Tr_1) (texts tr_object)) <= 78) by (apply Nat.leb_le; vm_compute; reflexivity).
  assert (HF : has_form k_Tr_1 (decode k_Tr_1)) by (apply regularb_ok; vm_compute; reflexivity).
  split; [|vm_compute; reflexivity].
  exists k_Tr_1, (decode k_Tr_1), ball_tr, tr_object. split; [unfold data_entries; repeat (try (now left); right)|].
  split; [|exact (conj HF (conj eq_refl (conj HV (conj HC (conj HL eq_refl)))))]. cbn. intuition discriminate.
Qed.

(** ** C69 *)

(** Full statement: a text that a data card class reads is read by [Inp] as a card of
    that class.  False of the code for the classes in [ambiguous_cards]: *)
Theorem C69_refuted : 
  (exists o o', card_from_mcnp ext fam k_Tf_1 (L "tf4 1 2 3") = Ok (o, []) /\ read_data_card (L "tf4 1 2 3") = Ok (CData k_Tf_0 o', [])) /\
  (exists o o', card_from_mcnp ext fam k_Phys_4 (L "phys:n 20") = Ok (o, []) /\ read_data_card (L "phys:n 20") = Ok (CData k_Phys_0 o', [])) /\
  (exists o, card_from_mcnp ext fam k_Df_1 (L "df4 log") = Ok (o, []) /\
     read_data_card (L "df4 log") = Ok (CData k_Df_0 [("suffix"%string, Some (VInt (IVal 4))); ("method"%string, None); ("values"%string, Some (VTup [VReal (RHor (HLog None))]))], [])).
Proof.
  split; [|split].
  - eexists. eexists. split; vm_compute; reflexivity.
  - eexists. eexists. split; vm_compute; reflexivity.
  - eexists. split; vm_compute; reflexivity.
Qed.
Print Assumptions C69_refuted.
(** Proved for all others. *)
Theorem C69_cards_partial : forall c s o cs, In (Known c) data_entries ->
  ~ In (c_name c) ["Df_1"; "Ds_3"; "F_4"; "Phys_4"; "Si_1"; "Si_2"; "Tf_1"; "Tr_2"]%string ->
  card_from_mcnp ext fam c s = Ok (o, cs) -> read_data_card s = Ok (CData c o, cs).
Proof. exact data_class_read. Qed.
Print Assumptions C69_cards_partial.
Theorem C69_comments : forall s x, comment_from_mcnp s = Ok x -> read_data_card s = Ok x.
Proof. exact data_comment_read. Qed.
Print Assumptions C69_comments.
(** False for some options, too: a source direction with cosine 0 is read as the
    distribution of number 0, and is written as such. *)
Theorem C69_options_refuted :
  family_from_mcnp ext fam [k_sdef_Dir_0] (L "dir 0") = Ok (k_sdef_Dir_0, [("cosine"%string, Some (VReal (RVal (Fin false 0 0))))]) /\
  family_from_mcnp ext fam f_sdef_SdefOption (L "dir 0") = Ok (k_sdef_Dir_1, [("cosine"%string, Some (VDist (IVal 0)))]) /\
  bind (read_data_card (L "sdef erg 2 dir 0")) (fun c => card_text (fst c)) = Ok (L "sdef erg 2 dir d0").
Proof. repeat split; vm_compute; reflexivity. Qed.
Print Assumptions C69_options_refuted.
(** Proved for the others: reading an option by its class gives what
    reading it as any option of the card gives. *)
Theorem C69_options_partial : forall ext fam fn cs c s x, In (fn, cs) families -> In c cs ->
  ~ In (c_name c) ["mplot_Xs_1"; "mplot_Xs_2"; "sdef_Cel_1"; "sdef_Dir_0"; "sdef_Erg_1"; "sdef_Ext_1"; "sdef_Rad_1"; "sdef_Tme_1";
                   "sdef_Tr_1"; "sdef_X_1"; "sdef_Y_1"; "sdef_Z_1"; "ssr_Tr_1"; "cell_Trcl_3"; "cell_Fill_2"; "cell_Fill_3"; "cell_Fill_4"; "cell_Fill_5"; "cell_Fill_6";
                   "like_Trcl_3"; "like_Fill_2"; "like_Fill_3"; "like_Fill_4"; "like_Fill_5"; "like_Fill_6"]%string ->
  family_from_mcnp ext fam [c] s = Ok x -> family_from_mcnp ext fam cs s = Ok x.
Proof. exact option_class_read. Qed.
Print Assumptions C69_options_partial.
Example C69_case : In (Known k_Tr_1) data_entries /\ (exists o, card_from_mcnp ext fam k_Tr_1 (L "*tr5 1 2 3 1 0 0 0 1 0") = Ok (o, [])) /\
  In ("surface_SurfaceOption"%string, f_surface_SurfaceOption) families /\ In k_surface_P_0 f_surface_SurfaceOption /\
  (exists x, family_from_mcnp ext fam [k_surface_P_0] (L "p 1 0 0 5") = Ok x).
Proof.
  split; [unfold data_entries; repeat (try (now left); right)|]. split; [eexists; vm_compute; reflexivity|].
  split; [unfold families; repeat (try (now left); right)|]. split; [unfold f_surface_SurfaceOption; repeat (try (now left); right)|]. eexists. vm_compute. reflexivity.
Qed.
