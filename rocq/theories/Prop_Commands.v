(** C73: what the commands show; C74: the filter of MESHTAL files; C72, for whole problems. *)

From Coq Require Import Ascii String NArith ZArith Bool List.
From Verif Require Import PyStr Types InpFile Cli OutpTables Outp OutpSamples Prop_Inp Prop_Calm.
From Verif Require Import Commands CommandsSpec CommandsFacts.
Import ListNotations.

(** ** C72 *)

(** A problem that is not read is refused with one of two errors of the library, or with
    the error of Python that one of its cards raises. *)
Theorem C72_problem_partial s :
  (exists x, read_inp s = Ok x) \/ read_inp s = Lib InpError \/ read_inp s = Lib TypesError \/
  exists e t, read_inp s = Py e /\ (read_cell_card t = Py e \/ read_surface_card t = Py e \/ read_data_card t = Py e).
Proof.
  destruct (read_inp s) as [x|e|e] eqn:E.
  - left. now exists x.
  - destruct (read_inp_lib s e E) as [->| ->]; right; [left|right; left]; reflexivity.
  - right. right. right. destruct (read_inp_py s e E) as (t & T). exists e, t. split; [reflexivity|exact T].
Qed.
Print Assumptions C72_problem_partial.
(** What is read can be written. *)
Theorem C49_problem_partial s x : read_inp s = Ok x -> exists t, inp_to_mcnp x = Ok t.
Proof. exact (read_written s x). Qed.
Print Assumptions C49_problem_partial.

(** ** C73 *)

(** [check]: unless reading breaks (C72), it says it is done exactly if the file is a problem,
    and the file stays as it is. *)
Theorem C73_check_partial pytest file : ~ breaks file ->
  fst (check_main pytest false file) = [file] /\ proper (problem file) (snd (check_main pytest false file)).
Proof. exact (check_proper pytest file). Qed.
Print Assumptions C73_check_partial.
(** [check --fix]: the same, and then the file has the text of the problem. *)
Theorem C73_fix_partial file : ~ breaks file -> proper (problem file) (snd (check_main false true file)) /\
  forall s x t, file = Some s -> read_inp s = Ok x -> inp_to_mcnp x = Ok t -> last (fst (check_main false true file)) None = Some t.
Proof. exact (check_fix file). Qed.
Print Assumptions C73_fix_partial.
(** When it breaks there is no message, whatever the file. *)
Theorem C73_check_refuted s e : read_inp s = Py e -> snd (check_main false false (Some s)) = ([Disclaimer], Uncaught (inr e)).
Proof. intros E. unfold check_main, check_file. rewrite E. reflexivity. Qed.
Print Assumptions C73_check_refuted.

(** [run]: if the command is there and the directory is new, it says it is done exactly if all
    files are problems; it starts all jobs then, and none otherwise. *)
Theorem C73_run_partial cmd path stamp files : Forall (fun f => ~ breaks f) files ->
  proper (Forall problem files) (snd (run_main true cmd path stamp false files)) /\
  (forall inps, Forall2 (fun f x => exists s, f = Some s /\ read_inp s = Ok x) files inps ->
     fst (run_main true cmd path stamp false files) = fst (run cmd path stamp false (map inp_to_mcnp inps))) /\
  (~ Forall problem files -> fst (run_main true cmd path stamp false files) = []).
Proof. exact (run_proper cmd path stamp files). Qed.
Print Assumptions C73_run_partial.
(** If the command is not there, nothing is run, and after the message it says it is done and
    returns 0. *)
Theorem C73_run_refuted cmd path stamp taken files : Forall problem files ->
  run_main false cmd path stamp taken files = ([], ([Disclaimer; Failure CliError; Done], Exit 0)).
Proof. exact (run_not_found cmd path stamp taken files). Qed.
Print Assumptions C73_run_refuted.
(** A second run in the same second is not caught. *)
Theorem C73_run_twice_refuted cmd path stamp files : Forall problem files ->
  run_main true cmd path stamp true files = ([], ([Disclaimer], Uncaught (inr FileExistsError))).
Proof. exact (run_taken cmd path stamp files). Qed.
Print Assumptions C73_run_twice_refuted.

(** [convert]: for a name with a suffix, and a number that the file has if it is an OUTP file at
    all, it says it is done exactly if it wrote the last tally of that number; it writes nothing
    if the file is no OUTP file. *)
Theorem C73_convert_partial table name file number old : In "."%char name ->
  (forall s x, file = Some s -> read_outp s = Ok x -> ~ no_tally x number) ->
  proper (exists s x b, file = Some s /\ read_outp s = Ok x /\ tally_of x number b) (snd (convert_main table name file number old)) /\
  (forall s x b, file = Some s -> read_outp s = Ok x -> tally_of x number b -> last (fst (convert_main table name file number old)) None = Some (table b)) /\
  ((forall s x, file = Some s -> read_outp s <> Ok x) -> fst (convert_main table name file number old) = [old]).
Proof. exact (convert_proper table name file number old). Qed.
Print Assumptions C73_convert_partial.
(** A number that the file does not have: the KeyError is not caught, and what was in the place
    of the new file is lost. *)
Theorem C73_convert_refuted table name s x number old : read_outp s = Ok x -> In "."%char name -> no_tally x number ->
  convert_main table name (Some s) number old = ([old; Some []], ([Disclaimer], Uncaught (inr KeyError))).
Proof. exact (convert_no_tally table name s x number old). Qed.
Print Assumptions C73_convert_refuted.
(** A name without a suffix, such as MCNP's own [outp]. *)
Theorem C73_convert_name_refuted table name s x number old : read_outp s = Ok x -> ~ In "."%char name ->
  convert_main table name (Some s) number old = ([old], ([Disclaimer], Uncaught (inr ValueError))).
Proof. exact (convert_no_dot table name s x number old). Qed.
Print Assumptions C73_convert_name_refuted.
(** [plot]: done exactly if the file has the tally; for [--pdf] the name needs a suffix. *)
Theorem C73_plot_partial pdf name file number : (pdf = true -> In "."%char name) ->
  proper (exists s x b, file = Some s /\ read_outp s = Ok x /\ tally_of x number b) (plot_main pdf name file number).
Proof. exact (plot_proper pdf name file number). Qed.
Print Assumptions C73_plot_partial.

(** The hypotheses are met. *)
Lemma not_breaking s : (forall e, read_inp s <> Py e) -> ~ breaks (Some s).
Proof. intros H (t & e & E & R). injection E as <-. exact (H e R). Qed.
Lemma not_problem s : (forall x, read_inp s <> Ok x) -> ~ problem (Some s).
Proof. intros H (t & x & E & R). injection E as <-. exact (H x R). Qed.
Definition no_text : str := L "no problem".
Example C73_ball : ~ breaks (Some ball) /\ problem (Some ball) /\ ~ breaks (Some no_text) /\ ~ problem (Some no_text) /\ breaks (Some jump_file).
Proof.
  assert (B : exists x, read_inp ball = Ok x) by (eexists; vm_compute; reflexivity).
  assert (N : read_inp no_text = Lib InpError) by (vm_compute; reflexivity). destruct B as (x & B).
  split; [apply not_breaking; intros e; rewrite B; discriminate|]. split; [exists ball, x; split; [reflexivity|exact B]|].
  split; [apply not_breaking; intros e; rewrite N; discriminate|]. split; [apply not_problem; intros y; rewrite N; discriminate|].
  exists jump_file, TypeError. split; [reflexivity|]. exact (proj1 C72_file_refuted).
Qed.
Definition one_tally : str := removelast sample_HEADER ++ nl :: sample_TALLY_8B.
Example C73_tally : exists x b, read_outp one_tally = Ok x /\ tally_of x (L "18") b /\ no_tally x (L "4") /\ In "."%char (L "a.outp") /\ ~ In "."%char (L "outp").
Proof.
  do 2 eexists. split; [vm_compute; reflexivity|]. split; [exists [], []; split; [reflexivity|]; split; [vm_compute; reflexivity|constructor]|].
  split; [constructor; [vm_compute; discriminate|constructor]|]. split; [cbn; auto|]. cbn. intros H. repeat (destruct H as [H|H]; [discriminate H|]). exact H.
Qed.

(** ** C74 *)

(** The filter keeps the tallies that [check] accepts, in order, and no others. *)
Theorem C74_filter_partial {A} (check : A -> result bool) l : (forall x, In x l -> exists b, check x = Ok b) ->
  snd (mesh_filter check l) = Ok tt /\ picked (fun x => check x = Ok true) l (fst (mesh_filter check l)).
Proof. exact (filter_picks check l). Qed.
Print Assumptions C74_filter_partial.
(** If [check] raises, the tallies before were kept in the same way. *)
Theorem C74_raises_partial {A} (check : A -> result bool) l x l' e : (forall y, In y l -> exists b, check y = Ok b) -> check x = Py e ->
  snd (mesh_filter check (l ++ x :: l')) = Py e /\ picked (fun y => check y = Ok true) l (fst (mesh_filter check (l ++ x :: l'))).
Proof. exact (filter_stops check l x l' e). Qed.
Print Assumptions C74_raises_partial.
Definition over_two (n : nat) : result bool := match n with 0 => Py ValueError | S (S (S _)) => Ok true | _ => Ok false end.
Example C74_numbers : mesh_filter over_two [5; 1; 7; 2; 3] = ([5; 7; 3], Ok tt) /\ mesh_filter over_two [5; 1; 0; 3] = ([5], Py ValueError).
Proof. split; reflexivity. Qed.
