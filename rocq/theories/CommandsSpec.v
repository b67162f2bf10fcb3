(** What a command may show. *)

From Coq Require Import Ascii String Bool List.
From Verif Require Import PyStr InpFile OutpTables Outp Commands.
Import ListNotations.

(** It says that it is done and returns 0, or it says what went wrong and returns the
    number of that sort of error. *)
Definition says_done (x : shown) : Prop := x = ([Disclaimer; Done], Exit 0).
Definition status_of (e : liberr) : nat := match e with CliError => 2 | TypesError => 3 | _ => 1 end.
Definition says_error (x : shown) (e : liberr) : Prop := x = ([Disclaimer; Failure e], Exit (status_of e)).
(** Done exactly if the work was done. *)
Definition proper (worked : Prop) (x : shown) : Prop := (worked /\ says_done x) \/ (~ worked /\ exists e, says_error x e).

(** A file that is a problem. *)
Definition problem (file : option str) : Prop := exists s x, file = Some s /\ read_inp s = Ok x.
(** Reading it raises an error of Python (C72). *)
Definition breaks (file : option str) : Prop := exists s e, file = Some s /\ read_inp s = Py e.
(** The tally of this number, the last one, is [b]. *)
Definition tally_of (x : outp (list str) block) (number : str) (b : block) : Prop :=
  exists l1 l2, o_blocks x = l1 ++ b :: l2 /\ block_number b = Some number /\ Forall (fun c => block_number c <> Some number) l2.
Definition no_tally (x : outp (list str) block) (number : str) : Prop := Forall (fun c => block_number c <> Some number) (o_blocks x).
(** What [l] has where [f] says so, in order. *)
Inductive picked {A} (f : A -> Prop) : list A -> list A -> Prop :=
| picked_nil : picked f [] []
| picked_in x l l' : f x -> picked f l l' -> picked f (x :: l) (x :: l')
| picked_out x l l' : ~ f x -> picked f l l' -> picked f (x :: l) l'.
