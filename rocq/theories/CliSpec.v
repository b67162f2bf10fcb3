(** What the properties of the command line speak about, without reference to
    how the library does it. *)

From Coq Require Import Ascii String NArith ZArith Bool Arith List.
From Verif Require Import PyStr PyNum Cli.
Import ListNotations.
Open Scope list_scope.

(** A text on one line. *)
Definition one_line (s : str) : Prop := ~ In nl s.

(** Lines quoted under a heading, each on a line of its own behind "> ". *)
Definition quoted (lines : list str) : str := concat (map (fun l => nl :: L "> " ++ l) lines).

(** The text in which [lines] are separated by line feeds. *)
Fixpoint in_lines (lines : list str) : str :=
  match lines with
  | [] => []
  | [l] => l
  | l :: t => l ++ [nl] ++ in_lines t
  end.

(** A non-empty text whose last character is not a zero. *)
Definition no_final_zero (s : str) : Prop := exists u c, s = u ++ [c] /\ c <> "0"%char.

(** The directory of a batch. *)
Definition batch_dir (path stamp : str) : str := path ++ L "/pymcnp-" ++ stamp.

(** The number of a job on at least five digits, its directory and its files. *)
Definition five_digits (i : nat) : str := zpad 5 (str_of_N (N.of_nat i)).
Definition job_dir (path stamp : str) (i : nat) : str := batch_dir path stamp ++ L "/run-" ++ five_digits i.
Definition job_file (path stamp : str) (i : nat) (ext : str) : str := job_dir path stamp i ++ L "/run-" ++ five_digits i ++ "."%char :: ext.
