(** Model of the commands of the command line: /repo/src/pymcnp/_cli/check.py, run.py,
    convert.py and plot.py, after docopt has read the arguments. *)

From Coq Require Import Ascii String NArith ZArith Bool List.
From Verif Require Import PyStr Types InpFile Cli OutpTables Outp.
Import ListNotations.

(** What is printed (_io.py:14-51): the disclaimer, the message of an error, [Done!]. *)
Inductive msg := Disclaimer | Failure (e : liberr) | Done.
(** How the program ends: with a status, or with an exception that nobody caught. *)
Inductive ending := Exit (status : nat) | Uncaught (e : liberr + pyerr).
Definition shown := (list msg * ending)%type.

(** The end of each command: [_io.done()], and the status of a program that returns. *)
Definition finish : shown := ([Done], Exit 0).
(** [_io.error(str(err)); exit(n)] *)
Definition stop (e : liberr) (n : nat) : shown := ([Failure e], Exit n).
(** [try: r except InpError: ... exit(1) except CliError: ... exit(2) except TypesError:
    ... exit(3)], then [k] (check.py:30-42, run.py:34-45). *)
Definition guarded {A} (r : result A) (k : A -> shown) : shown :=
  match r with
  | Ok x => k x
  | Lib InpError => stop InpError 1
  | Lib CliError => stop CliError 2
  | Lib TypesError => stop TypesError 3
  | Lib e => ([], Uncaught (inl e))
  | Py e => ([], Uncaught (inr e))
  end.
(** The same with OutpError, and without the last clause, which is commented out
    (convert.py:37-48, plot.py:34-56). *)
Definition guarded_outp {A} (r : result A) (k : A -> shown) : shown :=
  match r with
  | Ok x => k x
  | Lib OutpError => stop OutpError 1
  | Lib CliError => stop CliError 2
  | Lib e => ([], Uncaught (inl e))
  | Py e => ([], Uncaught (inr e))
  end.
(** A statement outside of any [try]. *)
Definition bare {A} (r : result A) (k : A -> shown) : shown :=
  match r with Ok x => k x | Lib e => ([], Uncaught (inl e)) | Py e => ([], Uncaught (inr e)) end.
(** [_io.disclaimer()] comes first. *)
Definition command (x : shown) : shown := (Disclaimer :: fst x, snd x).

(** [Check.check] (Check.py:35-46): the text is written anew to be compared; the
    difference is not looked at.  [None] is a missing file. *)
Definition check_file (file : option str) : result unit :=
  match file with
  | None => Lib CliError
  | Some s => bind (read_inp s) (fun x => bind (inp_to_mcnp x) (fun _ => Ok tt))
  end.
(** check.py:19-47: the contents the file goes through (Cli.v), and what is shown. *)
Definition check_main (pytest fix_ : bool) (file : option str) : list (option str) * shown :=
  match check_file file with
  | Ok _ =>
      if fix_ then let '(steps, r) := fix_file read_inp inp_to_mcnp pytest file in (steps, command (bare r (fun _ => finish)))
      else ([file], command finish)
  | r => ([file], command (guarded r (fun _ => finish)))
  end.

(** [Run.__init__] (Run.py:22-41): [found] says that [shutil.which] finds the command.
    The inputs are never [None] here. *)
Definition run_new (found : bool) : result unit := if found then Ok tt else Lib CliError.
(** run.py:22-52: what the program does outside (Cli.v), and what it shows.  A CliError of
    the second [try] is printed and passed over. *)
Definition run_main (found : bool) (cmd path stamp : str) (taken : bool) (files : list (option str)) : list act * shown :=
  match mapM (from_file read_inp) files with
  | Ok inps =>
      match run_new found with
      | Ok _ =>
          let '(acts, r) := run cmd path stamp taken (map inp_to_mcnp inps) in
          (acts, command (match r with
                          | Lib CliError => ([Failure CliError; Done], Exit 0)
                          | r => bare r (fun _ => finish)
                          end))
      | Lib CliError => ([], command ([Failure CliError; Done], Exit 0))
      | r => ([], command (bare r (fun _ => finish)))
      end
  | r => ([], command (guarded r (fun _ => finish)))
  end.

(** Reading an OUTP file (_file.py:14-32). *)
Definition outp_file_of (file : option str) : result (outp (list str) block) := from_file read_outp file.
Definition frames (x : outp (list str) block) : list (str * block) := dataframe (list str) block block_number x.
Fixpoint frame_of (k : str) (d : list (str * block)) : option block :=
  match d with [] => None | (k', b) :: d' => if seqb k' k then Some b else frame_of k d' end.

Section Convert.
  (** [to_csv] or [to_parquet] of the frame of a tally. *)
  Variable table : block -> str.
  (** [Convert.to_csv] and [to_parquet] (Convert.py:33-47, 49-61): the contents the written
      file goes through after the one it has; opening it empties it, the tally is looked up
      after that. *)
  Definition to_table (x : outp (list str) block) (number : str) : list (option str) * result unit :=
    match frame_of number (frames x) with
    | None => ([Some []], Py KeyError)
    | Some b => (write_text (table b), Ok tt)
    end.
  (** convert.py:26-56; [name] is the path of the OUTP file, [old] what is at the place
      of the new file.  The suffix of the new file is of no consequence. *)
  Definition convert_main (name : str) (file : option str) (number : str) (old : option str) : list (option str) * shown :=
    match outp_file_of file with
    | Ok x =>
        match convert_csv_file name number with
        | Ok _ => let '(steps, r) := to_table x number in (old :: steps, command (bare r (fun _ => finish)))
        | r => ([old], command (bare r (fun _ => finish)))
        end
    | r => ([old], command (guarded_outp r (fun _ => finish)))
    end.
End Convert.

(** [Plot.to_show] (Plot.py:42-75) without the figures. *)
Definition to_show_tally (x : outp (list str) block) (number : str) : result unit :=
  match frame_of number (frames x) with Some _ => Ok tt | None => Lib CliError end.
(** plot.py:23-59, without or with [--pdf] (the name of the file comes first). *)
Definition plot_main (pdf : bool) (name : str) (file : option str) (number : str) : shown :=
  command (guarded_outp
    (bind (outp_file_of file) (fun x =>
     bind (if pdf then plot_pdf_file name number else Ok []) (fun _ => to_show_tally x number)))
    (fun _ => finish)).

(** * The filter of MESHTAL files *)

(** MeshtalFilter.py:25-42: the generator is drained; the first [check] that raises ends
    it after what was yielded. *)
Fixpoint mesh_filter {A} (check : A -> result bool) (l : list A) : list A * result unit :=
  match l with
  | [] => ([], Ok tt)
  | t :: l' =>
      match check t with
      | Ok b => let (out, r) := mesh_filter check l' in (if b then t :: out else out, r)
      | Lib e => ([], Lib e)
      | Py e => ([], Py e)
      end
  end.
