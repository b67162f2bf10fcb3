(** C14: lazy sequences. *)

From Coq Require Import Ascii String ZArith Bool Arith List.
From Verif Require Import PyStr Regex Types Generator GeneratorSpec GeneratorFacts.
Import ListNotations.
Open Scope list_scope.

(** Whatever else is done to the sequence in between, each iterator gives all values
    in order, then stays at its end. Missing: elements that fail to read. *)
Theorem C14_iteration_partial : forall (A : Type) (to : A -> str) vs ops i,
  let l := given i (snd (run to (gen_new (map Ok vs)) ops)) in l = answers vs [] (length l).
Proof. exact iterators_clean. Qed.
Print Assumptions C14_iteration_partial.
(** And every text is the text of all values. *)
Theorem C14_text_partial : forall (A : Type) (to : A -> str) vs ops,
  Forall (fun r => r = Ok (join [sp] (map to vs))) (texts_of (snd (run to (gen_new (map Ok vs)) ops))).
Proof. exact texts_clean. Qed.
Print Assumptions C14_text_partial.
(** With an element that fails, each iterator gives the values before it, and the
    exception comes out at most once over all iterators and texts. *)
Theorem C14_failing_partial : forall (A : Type) (to : A -> str) vs e t ops i, is_ok e = false ->
  let tr := snd (run to (gen_new (map Ok vs ++ e :: t)) ops) in
  (given i tr = answers vs [] (length (given i tr)) \/ given i tr = answers vs [Raise (failure e)] (length (given i tr))) /\ raises tr <= 1.
Proof. exact iterators_failing. Qed.
Print Assumptions C14_failing_partial.
(** So a second reading is silently short, for every sequence with a failing element. *)
Theorem C14_failure_refuted : forall (A : Type) (to : A -> str) vs e t, is_ok e = false ->
  texts_of (snd (run to (gen_new (map Ok vs ++ e :: t)) [Text; Text])) = [failure e; Ok (join [sp] (map to vs))].
Proof. exact failure_forgotten. Qed.
Print Assumptions C14_failure_refuted.

(** Two interleaved iterators over the numbers of a text. *)
Example C14_case : exists a b, let tr := snd (run integer_to_mcnp (gen_from_mcnp pat_number integer_from_mcnp (L "12 -3")) [Iter; Next 0; Iter; Next 1; Text; Next 1; Next 1; Next 0; Next 0]) in
  given 0 tr = [Yield a; Yield b; Stop] /\ given 1 tr = [Yield a; Yield b; Stop] /\ texts_of tr = [Ok (L "12 -3")].
Proof. eexists _, _. vm_compute. repeat split; reflexivity. Qed.
Example C14_failing_case : texts_of (snd (run integer_to_mcnp (gen_from_mcnp pat_number integer_from_mcnp (L "12 -- 3")) [Text; Text])) = [Lib TypesError; Ok (L "12")].
Proof. vm_compute. reflexivity. Qed.
