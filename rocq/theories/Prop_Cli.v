(** C42, C43, C44, C45, C51: jobs, fixed files, output files and error texts. *)

From Coq Require Import Ascii String NArith ZArith Bool Arith List Lia.
From Verif Require Import PyStr PyNum Cli CliSpec CliFacts.
Import ListNotations.
Open Scope list_scope.

(** ** C42 *)

(** Two jobs with distinct numbers have distinct directories. *)
Theorem C42_own_directory : forall path stamp i j, i <> j -> job_dir path stamp i <> job_dir path stamp j.
Proof. intros path stamp i j N E. apply N. exact (subdir_inj (batch_dir path stamp) i j E). Qed.
Print Assumptions C42_own_directory.

(** Whatever the jobs do, at every moment: nothing happened twice, and a job was
    started only on the written input, in its directory, after the batch
    pre-hook and its own pre-hook. *)
Theorem C42_start : forall command path stamp inps rest t,
  reach (fst (run command path stamp false inps)) (rest, t) ->
  NoDup t /\
  forall t1 t2 i c, t = t1 ++ Start i c :: t2 ->
    exists text, nth_error inps i = Some (Ok text) /\
      In (BatchPre (batch_dir path stamp)) t1 /\
      In (MkDir i (job_dir path stamp i)) t1 /\
      In (WriteInput i (job_file path stamp i (L "inp")) text) t1 /\
      In (FilePre i (job_dir path stamp i)) t1 /\
      c = [command; L "inp=" ++ job_file path stamp i (L "inp") ++ L " outp=" ++ job_file path stamp i (L "outp")
                    ++ L " ptrac=" ++ job_file path stamp i (L "ptrac")].
Proof.
  intros command path stamp inps rest t R. destruct (run_ordered command path stamp inps rest t R) as (N & Q & _ & _). split; [exact N|].
  intros t1 t2 i c E. destruct (Q _ _ _ _ E) as (text & A & B & C & D & F & G). exists text. repeat apply conj; try assumption; exact B.
Qed.
Print Assumptions C42_start.

(** A post-hook is called only after its job ended, and in the order of the
    jobs; the batch post-hook only after all of them. *)
Theorem C42_post_hooks : forall command path stamp inps rest t,
  reach (fst (run command path stamp false inps)) (rest, t) ->
  (forall t1 t2 i d, t = t1 ++ FilePost i d :: t2 ->
     d = job_dir path stamp i /\ In (Finish i) t1 /\ forall j, j < i -> In (FilePost j (job_dir path stamp j)) t1) /\
  (forall t1 t2 d, t = t1 ++ BatchPost d :: t2 ->
     d = batch_dir path stamp /\ forall i, i < length inps -> In (FilePost i (job_dir path stamp i)) t1).
Proof. intros command path stamp inps rest t R. exact (proj2 (proj2 (run_ordered command path stamp inps rest t R))). Qed.
Print Assumptions C42_post_hooks.

(** A run never gets stuck while its jobs can still end, and takes a bounded
    number of steps, whatever the order in which they end. *)
Theorem C42_terminates : forall command path stamp inps n rest t,
  reach_in (fst (run command path stamp false inps)) n (rest, t) ->
  n <= length (fst (run command path stamp false inps)) + length inps /\
  (rest <> [] -> exists next, step (rest, t) next).
Proof.
  intros command path stamp inps n rest t R. split; [exact (run_bounded command path stamp inps n rest t R)|].
  apply (run_progress command path stamp inps). clear -R. remember (rest, t) as c. clear Heqc rest t.
  induction R; [constructor|eapply reach_step; eassumption].
Qed.
Print Assumptions C42_terminates.

(** When it returns, every job was started, ended and had its post-hook, and
    the batch post-hook was called. *)
Theorem C42_complete : forall command path stamp inps t, Forall (fun r => is_ok r = true) inps ->
  reach (fst (run command path stamp false inps)) ([], t) ->
  snd (run command path stamp false inps) = Ok (batch_dir path stamp) /\
  (forall i, i < length inps -> (exists c, In (Start i c) t) /\ In (Finish i) t /\ In (FilePost i (job_dir path stamp i)) t) /\
  In (BatchPost (batch_dir path stamp)) t.
Proof. intros command path stamp inps t H R. apply (run_complete command path stamp inps t R). now apply run_ok. Qed.
Print Assumptions C42_complete.

(** A directory that exists already is not touched. *)
Theorem C42_taken : forall command path stamp inps, run command path stamp true inps = ([], Py FileExistsError).
Proof. reflexivity. Qed.
Print Assumptions C42_taken.

(** Two jobs, the second of which ends first. *)
Example C42_case : exists t, reach (fst (run (L "mcnp6") (L "/tmp") (L "now") false [Ok (L "a"); Ok (L "b")])) ([], t) /\
  exists t1 t2 t3, t = t1 ++ Finish 1 :: t2 ++ Finish 0 :: t3 /\ In (BatchPost (batch_dir (L "/tmp") (L "now"))) t3.
Proof.
  exists two_jobs. split; [exact two_jobs_run|].
  exists (firstn 10 two_jobs), [], (skipn 12 two_jobs). split; [reflexivity|]. right; right; now left.
Qed.

(** ** C52 *)

(** When one input cannot be written, the run fails and no post-hook is ever
    called, not even for the jobs started before. *)
Theorem C52_failed_batch : forall command path stamp inps r rest t, In r inps -> is_ok r = false ->
  reach (fst (run command path stamp false inps)) (rest, t) ->
  is_ok (snd (run command path stamp false inps)) = false /\
  forall e, In e t -> match e with FilePost _ _ | BatchPost _ => False | _ => True end.
Proof. exact failed_batch. Qed.
Print Assumptions C52_failed_batch.
(** So a run can be over while a job it started is still going on. *)
Theorem C52_abandoned_refuted : exists inps t, reach (fst (run (L "mcnp6") (L "/tmp") (L "now") false inps)) ([], t) /\
  (exists c, In (Start 0 c) t) /\ ~ In (Finish 0) t.
Proof. exists [Ok (L "a"); Lib InpError]. exact abandoned. Qed.
Print Assumptions C52_abandoned_refuted.

(** ** C43 *)

(** A file that cannot be read or whose problem cannot be written keeps its
    content throughout. *)
Theorem C43_refused : forall (inp : Type) (from_mcnp : str -> result inp) (to_mcnp : inp -> result str) pytest old,
  (forall i, from_mcnp old = Ok i -> is_ok (to_mcnp i) = false) ->
  Forall (fun content => content = Some old) (fst (fix_file from_mcnp to_mcnp pytest (Some old))).
Proof.
  intros inp fm tm pytest old H. unfold fix_file, from_file. destruct (fm old) as [i|e|e] eqn:E; [|repeat constructor..].
  specialize (H i eq_refl). destruct pytest; [repeat constructor|]. unfold to_file. destruct (tm i); [discriminate|repeat constructor..].
Qed.
Print Assumptions C43_refused.
Example C43_refused_case : forall i : str, (fun s => if seqb s (L "bad") then Lib InpError else Ok s) (L "bad") = Ok i -> is_ok (@Ok str i) = false.
Proof. discriminate. Qed.

(** An uninterrupted fix ends with the rewritten problem. *)
Theorem C43_done : forall (inp : Type) (from_mcnp : str -> result inp) (to_mcnp : inp -> result str) old i new,
  from_mcnp old = Ok i -> to_mcnp i = Ok new ->
  snd (fix_file from_mcnp to_mcnp false (Some old)) = Ok tt /\ last (fst (fix_file from_mcnp to_mcnp false (Some old))) None = Some new.
Proof.
  intros inp fm tm old i new E1 E2. unfold fix_file, from_file, to_file. rewrite E1, E2. split; [reflexivity|].
  cbn [fst]. unfold write_text. rewrite fix_last. reflexivity.
Qed.
Print Assumptions C43_done.

(** At every moment the file holds the old text or a beginning of the new one;
    a missing file stays missing. *)
Theorem C43_contents_partial : forall (inp : Type) (from_mcnp : str -> result inp) (to_mcnp : inp -> result str) pytest file content,
  In content (fst (fix_file from_mcnp to_mcnp pytest file)) ->
  content = file \/ exists old i new rest done, file = Some old /\ from_mcnp old = Ok i /\ to_mcnp i = Ok new /\ content = Some done /\ new = done ++ rest.
Proof. exact fix_contents. Qed.
Print Assumptions C43_contents_partial.

(** Interrupted right after the file was opened, the fix has lost everything:
    neither the old nor the new text is there. *)
Theorem C43_atomic_refuted : forall (inp : Type) (from_mcnp : str -> result inp) (to_mcnp : inp -> result str) old i new,
  from_mcnp old = Ok i -> to_mcnp i = Ok new -> old <> [] -> new <> [] ->
  exists content, In content (fst (fix_file from_mcnp to_mcnp false (Some old))) /\ content <> Some old /\ content <> Some new.
Proof.
  intros inp fm tm old i new E1 E2 N1 N2. exists (Some []). unfold fix_file, from_file, to_file. rewrite E1, E2. cbn [fst].
  repeat split; [|congruence..]. right. apply in_map. destruct new; now left.
Qed.
Print Assumptions C43_atomic_refuted.
Example C43_case : fst (fix_file (fun s => Ok s) (fun _ => Ok (L "xy")) false (Some (L "abc"))) = [Some (L "abc"); Some []; Some (L "x"); Some (L "xy")].
Proof. reflexivity. Qed.

(** ** C44 *)

(** Tally numbers end in 1, 2, 4, 5, 6, 7 or 8.  Two distinct ones that do not
    end in zero are converted to distinct files. *)
Theorem C44_convert_partial : forall file n m a b, (n mod 10 <> 0)%N -> (m mod 10 <> 0)%N -> n <> m ->
  convert_csv_file file (str_of_N n) = Ok a -> convert_csv_file file (str_of_N m) = Ok b -> a <> b.
Proof.
  intros file n m a b Hn Hm N A B E. subst b. apply N. apply str_of_N_inj'. eapply outfile_inj; [now apply str_of_N_no_zero..|exact A|exact B].
Qed.
Print Assumptions C44_convert_partial.
Theorem C44_convert_parquet_partial : forall file n m a b, (n mod 10 <> 0)%N -> (m mod 10 <> 0)%N -> n <> m ->
  convert_parquet_file file (str_of_N n) = Ok a -> convert_parquet_file file (str_of_N m) = Ok b -> a <> b.
Proof.
  intros file n m a b Hn Hm N A B E. subst b. apply N. apply str_of_N_inj'. eapply outfile_inj; [now apply str_of_N_no_zero..|exact A|exact B].
Qed.
Print Assumptions C44_convert_parquet_partial.
Example C44_case : convert_csv_file (L "run/x.out") (L "4") = Ok (L "run/x-40000.csv") /\ convert_csv_file (L "run/x.out") (L "44") = Ok (L "run/x-44000.csv").
Proof. split; reflexivity. Qed.

(** Numbers 4 and 40 share a file. *)
Theorem C44_convert_refuted : exists file n m, n <> m /\ is_ok (convert_csv_file file (str_of_N n)) = true /\
  convert_csv_file file (str_of_N n) = convert_csv_file file (str_of_N m).
Proof. exists (L "x.out"), 4%N, 40%N. split; [discriminate|]. vm_compute. auto. Qed.
Print Assumptions C44_convert_refuted.
(** All plots of a file overwrite each other. *)
Theorem C44_plot_refuted : forall file n m, plot_pdf_file file n = plot_pdf_file file m.
Proof. reflexivity. Qed.
Print Assumptions C44_plot_refuted.

(** ** C51 *)

(** When the name of the input has an extension, the output lies in the same
    directory and has the input's name without the extension as its beginning. *)
Theorem C51_beside_input : forall dir stem old ext number, ~ In "."%char old -> ~ In "/"%char old ->
  exists name, get_outfile (dir ++ L "/" ++ stem ++ L "." ++ old) ext number = Ok (dir ++ L "/" ++ stem ++ name ++ L "." ++ ext).
Proof. exact outfile_beside. Qed.
Print Assumptions C51_beside_input.
Example C51_case : get_outfile (L "a.d/run.1.out") (L "csv") (Some (L "14")) = Ok (L "a.d/run.1-14000.csv").
Proof. reflexivity. Qed.
(** Without an extension the output goes elsewhere, or there is none. *)
Theorem C51_no_extension_refuted :
  get_outfile (L "a.d/out") (L "csv") (Some (L "14")) = Ok (L "a-14000.csv") /\
  forall path ext number, ~ In "."%char path -> get_outfile path ext number = Py ValueError.
Proof. split; [reflexivity|exact outfile_none]. Qed.
Print Assumptions C51_no_extension_refuted.

(** ** C45 *)

(** The text of an error is a heading on one line and at most four lines of the
    source, then three dots exactly when something is left out. *)
Theorem C45_bounded : forall class code info t, error_str class code info = Ok t ->
  exists heading shown hidden, one_line heading /\ Forall one_line shown /\ length shown <= 4 /\
    info = in_lines (shown ++ hidden) /\
    t = heading ++ quoted shown ++ (match hidden with [] => [] | _ => quoted [L "..."] end).
Proof. exact error_text. Qed.
Print Assumptions C45_bounded.
(** Hence a text has at most six lines. *)
Theorem C45_six_lines : forall class code info t, error_str class code info = Ok t -> count_occ ascii_dec t nl <= 5.
Proof. exact error_lines. Qed.
Print Assumptions C45_six_lines.
(** Every error the library raises has a text. *)
Theorem C45_defined : forall class code, In (class, code) raised -> forall info, exists t, error_str class code info = Ok t.
Proof. exact raised_texts. Qed.
Print Assumptions C45_defined.
Example C45_case : error_str InpError 1 (in_lines [L "a"; L "b"; L "c"; L "d"; L "e"]) = Ok (L "INP card not recognized." ++ quoted [L "a"; L "b"; L "c"; L "d"; L "..."]).
Proof. reflexivity. Qed.
