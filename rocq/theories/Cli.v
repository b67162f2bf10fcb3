(** Model of the error texts, of the output file names, of [Check.fix] and of
    [Run.run]. *)

From Coq Require Import Ascii String NArith ZArith Bool Arith List.
From Verif Require Import PyStr PyNum.
Import ListNotations.
Open Scope list_scope.

(** * Error texts *)

(** /repo/src/pymcnp/errors/_error.py:5 *)
Definition CUTOFF : nat := 4.

(** The first line written for each code, in source order:
    /repo/src/pymcnp/errors/InpError.py:37-52, OutpError.py:31-38,
    PtracError.py:33-48, MeshtalError.py:31-42, TypesError.py:28-31,
    CliError.py:22-25.  The code classes derive from [enum.EnumMeta]
    (_error.py:8), so a code is the plain integer written in the class body
    (InpError.py:17-25, OutpError.py:15-19, PtracError.py:13-21,
    MeshtalError.py:13-19, TypesError.py:14-16, CliError.py:9-10). *)
Definition headers (c : liberr) : list (Z * str) :=
  match c with
  | InpError =>
      [(0%Z, L "INP file not recognized."); (1%Z, L "INP card not recognized."); (2%Z, L "INP option not recognized."); (3%Z, L "INP entry not recognized.");
       (10%Z, L "Invalid INP file."); (11%Z, L "Invalid INP card."); (12%Z, L "Invalid INP option."); (13%Z, L "Invalid INP entry.")]
  | OutpError =>
      [(0%Z, L "OUTP file not recognized."); (1%Z, L "OUTP table not recognized."); (10%Z, L "Invalid OUTP file."); (11%Z, L "Invalid OUTP table.")]
  | PtracError =>
      [(0%Z, L "PTRAC file not recognized."); (1%Z, L "PTRAC table not recognized."); (2%Z, L "PTRAC line not recognized."); (3%Z, L "PTRAC keyword not recognized.");
       (10%Z, L "Invalid PTRAC file."); (11%Z, L "Invalid PTRAC table."); (12%Z, L "Invalid PTRAC line."); (13%Z, L "Invalid PTRAC keyword.")]
  | MeshtalError =>
      [(0%Z, L "MESHTAL file not recognized."); (1%Z, L "MESHTAL table not recognized."); (2%Z, L "MESHTAL line not recognized.");
       (10%Z, L "Invalid MESHTAL file."); (11%Z, L "Invalid MESHTAL table."); (12%Z, L "Invalid MESHTAL line.")]
  | TypesError => [(0%Z, L "MCNP data type not recognized."); (10%Z, L "Invalid MCNP data type.")]
  | CliError => [(0%Z, L "Bad path."); (1%Z, L "Bad parameter.")]
  end.

(** The chain of [if self.code == ...] statements. *)
Fixpoint header_of (code : Z) (l : list (Z * str)) : option str :=
  match l with
  | [] => None
  | (k, h) :: t => if Z.eqb code k then Some h else header_of code t
  end.

(** [str(error)]: InpError.py:33-52 and its five siblings, which have the same
    body.  [info] is [str(self.info)].  When no test succeeds [__str__] returns
    [None] and [str] raises [TypeError]. *)
Definition error_str (c : liberr) (code : Z) (info : str) : result str :=
  let pieces := split_on nl info in
  let shown := join (nl :: L "> ") (if (CUTOFF <? length pieces)%nat then firstn CUTOFF pieces ++ [L "..."] else pieces) in
  match header_of code (headers c) with
  | Some h => Ok (h ++ nl :: L "> " ++ shown)
  | None => Py TypeError
  end.

(** The error class and code of every [raise] statement of the library
    ([grep -rhoE "errors\.\w+Error\(errors\.\w+\.\w+"] over /repo/src/pymcnp). *)
Definition raised : list (liberr * Z) :=
  [(CliError, 1%Z); (CliError, 0%Z);
   (InpError, 11%Z); (InpError, 10%Z); (InpError, 12%Z); (InpError, 1%Z); (InpError, 0%Z); (InpError, 2%Z);
   (MeshtalError, 11%Z); (MeshtalError, 10%Z); (MeshtalError, 12%Z); (MeshtalError, 1%Z); (MeshtalError, 0%Z); (MeshtalError, 2%Z);
   (OutpError, 10%Z); (OutpError, 11%Z); (OutpError, 1%Z);
   (PtracError, 11%Z); (PtracError, 10%Z); (PtracError, 12%Z); (PtracError, 1%Z); (PtracError, 0%Z); (PtracError, 3%Z); (PtracError, 2%Z);
   (TypesError, 10%Z); (TypesError, 0%Z)].

(** * Output file names *)

(** [s.rsplit(c, maxsplit=1)] with a two-name target: the parts around the last
    [c]; [None] when [c] does not occur (the unpacking then fails). *)
Fixpoint rsplit1 (c : ascii) (s : str) : option (str * str) :=
  match s with
  | [] => None
  | x :: t =>
      match rsplit1 c t with
      | Some (a, b) => Some (x :: a, b)
      | None => if ceqb x c then Some ([], t) else None
      end
  end.

(** [f'{s:05}'] for a string [s]: from Python 3.10 (the oldest version the
    project supports, /repo/pyproject.toml:16) the zero is only a fill
    character and strings are aligned to the left. *)
Definition fmt05 (s : str) : str := s ++ srepeat (5 - length s) ["0"%char].

(** /repo/src/pymcnp/_cli/_io.py:7-11 (get_outfile).  [path] is [str(path)] and
    the result is the text given to [pathlib.Path]. *)
Definition get_outfile (path ext : str) (i : option str) : result str :=
  match rsplit1 "." path with
  | None => Py ValueError
  | Some (base, _) =>
      let mark := match i with
                  | None | Some [] => []
                  | Some n => "-"%char :: fmt05 n
                  end in
      Ok (base ++ mark ++ "."%char :: ext)
  end.

(** /repo/src/pymcnp/_cli/convert.py:51-54: the file written for a tally. *)
Definition convert_csv_file (file number : str) : result str := get_outfile file (L "csv") (Some number).
Definition convert_parquet_file (file number : str) : result str := get_outfile file (L "parquet") (Some number).
(** /repo/src/pymcnp/_cli/plot.py:41 *)
Definition plot_pdf_file (file number : str) : result str := get_outfile file (L "pdf") None.

(** * Check.fix *)

Section Fix.
Context {inp : Type}.
Variable from_mcnp : str -> result inp.      (* Inp.from_mcnp *)
Variable to_mcnp : inp -> result str.        (* Inp.to_mcnp *)

(** Every text a file holds while [text] is written to it piece by piece. *)
Fixpoint prefixes (text : str) : list str :=
  match text with
  | [] => [[]]
  | c :: t => [] :: map (cons c) (prefixes t)
  end.

(** [pathlib.Path.write_text]: the file is opened for writing, which empties
    it, then filled.  Each entry is the content after one more step; where the
    operating system flushes is left open, so every prefix is listed. *)
Definition write_text (text : str) : list (option str) := map Some (prefixes text).

(** /repo/src/pymcnp/_file.py:14-32 (from_file); [None] is a missing file. *)
Definition from_file (file : option str) : result inp :=
  match file with
  | None => Lib CliError
  | Some source => from_mcnp source
  end.

(** /repo/src/pymcnp/_file.py:34-43 (to_file): the text is computed before the
    file is opened. *)
Definition to_file (i : inp) : list (option str) * result unit :=
  match to_mcnp i with
  | Ok text => (write_text text, Ok tt)
  | Lib e => ([], Lib e)
  | Py e => ([], Py e)
  end.

(** /repo/src/pymcnp/Check.py:48-56 (fix): the contents the file goes through,
    starting with the one it has, and the outcome.  [pytest] is the presence of
    [PYTEST_CURRENT_TEST] in the environment. *)
Definition fix_file (pytest : bool) (file : option str) : list (option str) * result unit :=
  match from_file file with
  | Ok i =>
      if pytest then ([file], Ok tt)
      else let '(steps, r) := to_file i in (file :: steps, r)
  | Lib e => ([file], Lib e)
  | Py e => ([file], Py e)
  end.

End Fix.

(** * Run.run *)

(** What the outside world sees of a run.  [Finish i] is the end of job [i], at
    a time the library does not choose. *)
Inductive event :=
| MkBatch (dir : str)                        (* directory.mkdir() *)
| BatchPre (dir : str)                       (* prehook_batch *)
| MkDir (i : nat) (dir : str)                (* subdirectory.mkdir() *)
| WriteInput (i : nat) (file : str) (text : str)
| FilePre (i : nat) (dir : str)              (* prehook_file *)
| Start (i : nat) (command : list str)       (* subprocess.Popen *)
| Finish (i : nat)
| FilePost (i : nat) (dir : str)             (* posthook_file *)
| BatchPost (dir : str).                     (* posthook_batch *)

(** A statement of [run]: an effect, or [process.wait()] on job [i]. *)
Inductive act := Do (e : event) | Wait (i : nat).

(** [a / b] on paths, for a non-empty [a] without a trailing slash. *)
Definition slash (a b : str) : str := a ++ "/"%char :: b.

(** [f'run-{i:05}'] *)
Definition run_name (i : nat) : str := L "run-" ++ zpad 5 (str_of_N (N.of_nat i)).

(** /repo/src/pymcnp/Run.py:98-101 *)
Definition subdir (dir : str) (i : nat) : str := slash dir (run_name i).
Definition input_file (dir : str) (i : nat) : str := slash (subdir dir i) (run_name i ++ L ".inp").
Definition outp_file (dir : str) (i : nat) : str := slash (subdir dir i) (run_name i ++ L ".outp").
Definition ptrac_file (dir : str) (i : nat) : str := slash (subdir dir i) (run_name i ++ L ".ptrac").

(** Run.py:107: the command line, two words. *)
Definition command_line (command dir : str) (i : nat) : list str :=
  [command; L "inp=" ++ input_file dir i ++ L " outp=" ++ outp_file dir i ++ L " ptrac=" ++ ptrac_file dir i].

(** Run.py:97-108: the first loop, from job [i] on.  An input is the outcome
    of its [to_mcnp]; the loop stops at the first one that cannot be written. *)
Fixpoint launch (command dir : str) (i : nat) (inps : list (result str)) : list act * result unit :=
  match inps with
  | [] => ([], Ok tt)
  | r :: t =>
      match r with
      | Ok text =>
          let '(acts, out) := launch command dir (S i) t in
          (Do (MkDir i (subdir dir i)) :: Do (WriteInput i (input_file dir i) text)
           :: Do (FilePre i (subdir dir i)) :: Do (Start i (command_line command dir i)) :: acts, out)
      | Lib e => ([Do (MkDir i (subdir dir i))], Lib e)
      | Py e => ([Do (MkDir i (subdir dir i))], Py e)
      end
  end.

(** Run.py:110-112: the second loop over [n] jobs from job [i] on. *)
Fixpoint collect (dir : str) (i n : nat) : list act :=
  match n with
  | O => []
  | S n' => Wait i :: Do (FilePost i (subdir dir i)) :: collect dir (S i) n'
  end.

(** Run.py:83-116 (run).  [stamp] is the time of day in the directory's name;
    [taken] says that the directory exists already.  The hooks are assumed to
    return. *)
Definition run (command path stamp : str) (taken : bool) (inps : list (result str)) : list act * result str :=
  let dir := slash path (L "pymcnp-" ++ stamp) in
  if taken then ([], Py FileExistsError)
  else
    let '(acts, out) := launch command dir 0 inps in
    let start := Do (MkBatch dir) :: Do (BatchPre dir) :: acts in
    match out with
    | Ok _ => (start ++ collect dir 0 (length inps) ++ [Do (BatchPost dir)], Ok dir)
    | Lib e => (start, Lib e)
    | Py e => (start, Py e)
    end.

(** A running program: the statements to come and what happened so far.  A
    [wait] goes on only when its job has ended; a started job may end at any
    time, once. *)
Inductive step : list act * list event -> list act * list event -> Prop :=
| step_do : forall e p t, step (Do e :: p, t) (p, t ++ [e])
| step_wait : forall i p t, In (Finish i) t -> step (Wait i :: p, t) (p, t)
| step_end : forall i c p t, In (Start i c) t -> ~ In (Finish i) t -> step (p, t) (p, t ++ [Finish i]).

(** Every state reachable from the start of program [p]. *)
Inductive reach (p : list act) : list act * list event -> Prop :=
| reach_start : reach p (p, [])
| reach_step : forall c c', reach p c -> step c c' -> reach p c'.

(** The same, counting the steps. *)
Inductive reach_in (p : list act) : nat -> list act * list event -> Prop :=
| reach_in_start : reach_in p 0 (p, [])
| reach_in_step : forall n c c', reach_in p n c -> step c c' -> reach_in p (S n) c'.
