(** C71: blank lines. *)

From Coq Require Import Ascii String NArith ZArith Bool Arith List.
From Verif Require Import PyStr Types CardText Cards Tables Problem InpFile InpSpec InpSpec2 OptSpec CellSpec LineFacts Prop_Inp.
Import ListNotations.
Open Scope list_scope.

(** A cell without options of 78 columns is written with a blank line after it.  The
    text of a problem with it has one block more, and its second block is not the one
    of the surfaces. *)
Definition long_cell : string := "1 1 -7.8 -1 -1 -1 -1 -1 -1 -1 -1 -1 -1 -1 -1 -1 -1 -1 -1 -1 -1 -1 -1 -1 -1 -10".
Definition long_problem : str := L "A long cell
" ++ L long_cell ++ L "
2 0 1 imp:n 0

1 so 5
10 so 6

nps 100

".
Theorem C71_blocks_refuted : exists x s c t surfaces, read_inp long_problem = Ok x /\ In c (i_cells x) /\ card_text (fst c) = Ok t /\ ~ no_blank_line t /\
  inp_to_mcnp x = Ok s /\ card_texts (i_surfaces x) = Ok surfaces /\ nth 1 (blocks (lines s)) [] <> concat (map lines surfaces) /\
  length (blocks (lines s)) <> length (blocks (lines long_problem)).
Proof.
  exists (inp_or_empty (read_inp long_problem)). do 4 eexists.
  split; [vm_compute; reflexivity|]. split; [vm_compute; left; reflexivity|]. split; [vm_compute; reflexivity|].
  split; [intros H; inversion H as [|? ? ? H']; inversion H' as [|? ? H'' ?]; apply H''; reflexivity|].
  split; [vm_compute; reflexivity|]. split; [vm_compute; reflexivity|]. split; intros H; vm_compute in H; discriminate H.
Qed.
Print Assumptions C71_blocks_refuted.

(** No other card proved to come back has a blank line in its text: comments, surfaces,
    data cards, and cells with options.  Missing: the cards that C68 leaves out. *)
Theorem C71_card_partial : forall c t, unbroken c -> card_text (fst c) = Ok t -> no_blank_line t.
Proof. exact unbroken_lines. Qed.
Print Assumptions C71_card_partial.

(** So the text of a problem of such cards has the blocks of the problem: the title and
    the cells, the surfaces, the data cards, and what comes after.  Missing: the message,
    empty blocks, and the cards that C68 leaves out. *)
Theorem C71_blocks_partial : forall x s,
  i_message x = None -> no_blank_line (i_title x) -> i_cells x <> [] -> i_surfaces x <> [] -> i_data x <> [] ->
  Forall unbroken (i_cells x) -> Forall unbroken (i_surfaces x) -> Forall unbroken (i_data x) ->
  inp_to_mcnp x = Ok s ->
  exists cells surfaces data,
    card_texts (i_cells x) = Ok cells /\ card_texts (i_surfaces x) = Ok surfaces /\ card_texts (i_data x) = Ok data /\
    blocks (lines s) = (lines (i_title x) ++ concat (map lines cells)) :: concat (map lines surfaces) :: concat (map lines data) ::
                       blocks (lines (match i_other x with Some o => o | None => [] end)).
Proof. exact problem_blocks. Qed.
Print Assumptions C71_blocks_partial.
(** The cells and the surfaces of the ball with a transformation are such a problem. *)
Definition moved_ball : inp := mkinp (i_title the_ball) (i_cells the_ball) (i_surfaces the_ball) [(CData k_Tr_1 tr_object, [])] None (i_other the_ball).
Lemma ball_options : forallb optioned (i_cells the_ball) = true.
Proof. vm_compute. reflexivity. Qed.
Lemma ball_title : no_blank_line (i_title the_ball).
Proof. replace (i_title the_ball) with (L "a ball") by (vm_compute; reflexivity). repeat constructor. discriminate. Qed.
Example C71_moved_ball : no_blank_line (i_title the_ball) /\ i_cells the_ball <> [] /\ i_surfaces the_ball <> [] /\
  Forall unbroken (i_cells the_ball) /\ Forall unbroken (i_surfaces the_ball) /\ unbroken (CData k_Tr_1 tr_object, []) /\
  exists s, inp_to_mcnp moved_ball = Ok s /\ length (blocks (lines s)) = 4.
Proof.
  destruct C68_cells as (HC & _). destruct C68_surfaces as (HS & _). destruct C68_data as (HD & _).
  split; [exact ball_title|]. split; [apply nonempty_ok; vm_compute; reflexivity|]. split; [apply nonempty_ok; vm_compute; reflexivity|].
  split; [|split; [|split]].
  - exact (options_enough _ HC ball_options).
  - refine (Forall_impl _ _ HS). intros c H. right. right. left. exact H.
  - right. right. right. left. exact HD.
  - exists (match inp_to_mcnp moved_ball with Ok s => s | _ => [] end). split; vm_compute; reflexivity.
Qed.
