(** C33, C34: the number of histories and the seed of a problem. *)

From Coq Require Import Ascii String NArith ZArith Bool Arith List.
From Verif Require Import PyStr PyNum Types Cards Tables Numbered Problem ProblemSpec ProblemFacts.
Import ListNotations.
Open Scope list_scope.

(** A problem with the data cards [nonu], [rand gen 2 seed 7] and [nps 10]. *)
Definition nonu_card : card := CData k_Nonu [("settings"%string, None)].
Definition rand_card : card := CData k_Rand [("options"%string, Some (VTup [VObj k_rand_Gen [Some (VInt (IVal 2))]; VObj k_rand_Seed [Some (VInt (IVal 7))]]))].
Definition nps_card : card := CData k_Nps [("npp"%string, Some (VInt (IVal 10))); ("npsmg"%string, None)].
Definition some_problem : state := ([nonu_card; rand_card; nps_card; nps_card], mkproblem (L "title") [] [] [0; 1; 2; 3] None None).
Definition bare_problem : state := ([nonu_card], mkproblem (L "title") [] [] [0] None None).
Example problems_sound : sound some_problem /\ sound bare_problem.
Proof.
  split; (split; [unfold wf; cbn; repeat constructor|]).
  - intros [|[|[|[|i]]]] k o; cbn; try (intros [= <- <-]; discriminate); [|destruct i; discriminate].
    intros [= <- <-] _. right. eexists. split; [reflexivity|]. repeat constructor;
    (eexists _, _; split; [reflexivity|split; [unfold fam; cbn; tauto|reflexivity]]).
  - intros [|i] k o; cbn; [intros [= <- <-]; discriminate|destruct i; discriminate].
Qed.

(** ** C33 *)

(** After any history, an accepted [inp.nps = n] is read back. *)
Theorem C33_get_after_set : forall s l a s', sound s -> nps_set a (after s l) = (s', Ok tt) -> exists v, given a v /\ nps_get s' = Ok (Some v).
Proof. intros s l a s' HS. apply nps_get_set. exact (proj1 (after_sound l s HS)). Qed.
Print Assumptions C33_get_after_set.
(** Every positive number is accepted. *)
Theorem C33_accepts : forall z s, (0 < z)%Z -> snd (nps_set (AInt z) s) = Ok tt.
Proof. exact nps_accepts. Qed.
Print Assumptions C33_accepts.
(** Accepted or not: title, message, cells, surfaces and the rest are the same, the
    data block keeps its cards in order and grows by at most one at the end, and no
    card changes but the first NPS card, in its number only. *)
Theorem C33_rest_unchanged : forall a s s' r, nps_set a s = (s', r) ->
  same_rest (snd s) (snd s') /\
  (exists e, p_data (snd s') = p_data (snd s) ++ e /\ length e <= 1) /\
  forall i c, nth_error (fst s) i = Some c ->
    nth_error (fst s') i = Some c \/
    exists k o o', c = CData k o /\ is_first "Nps" s i k o /\ nth_error (fst s') i = Some (CData k o') /\ differ_in "npp" o o'.
Proof. exact nps_frame. Qed.
Print Assumptions C33_rest_unchanged.
Theorem C33_refused : forall a s, snd (nps_set a s) <> Ok tt -> fst (nps_set a s) = s.
Proof. exact nps_refused. Qed.
Print Assumptions C33_refused.
(** Reading gives the number of the first NPS card, or nothing. *)
Theorem C33_read : forall s, (no_card "Nps" s -> nps_get s = Ok None) /\
  (forall i k o v, is_first "Nps" s i k o -> assoc "npp"%string o = Some v -> nps_get s = Ok v).
Proof. exact nps_read. Qed.
Print Assumptions C33_read.
Example C33_case : nps_get (fst (nps_set (AStr (L "5000")) some_problem)) = Ok (Some (VInt (IVal 5000))) /\
  nth_error (fst (fst (nps_set (AStr (L "5000")) some_problem))) 3 = Some nps_card /\
  nps_get (fst (nps_set (AInt 5) bare_problem)) = Ok (Some (VInt (IVal 5))) /\
  nps_set (AInt 0) some_problem = (some_problem, Lib InpError).
Proof. repeat split; vm_compute; reflexivity. Qed.

(** ** C34 *)

Theorem C34_get_after_set : forall s l a s', sound s -> seed_set a (after s l) = (s', Ok tt) -> exists v, given a v /\ seed_get s' = Ok (Some v).
Proof. intros s l a s' HS. destruct (after_sound l s HS). now apply seed_get_set. Qed.
Print Assumptions C34_get_after_set.
(** Every odd number is accepted. *)
Theorem C34_accepts : forall z s l, sound s -> (z mod 2 = 1)%Z -> snd (seed_set (AInt z) (after s l)) = Ok tt.
Proof. intros z s l HS. apply seed_accepts. exact (proj2 (after_sound l s HS)). Qed.
Print Assumptions C34_accepts.
(** Nothing else changes: of the first RAND card one SEED option is replaced or one
    is added after its options. *)
Theorem C34_rest_unchanged : forall a s s', sound s -> seed_set a s = (s', Ok tt) ->
  same_rest (snd s) (snd s') /\
  (exists e, p_data (snd s') = p_data (snd s) ++ e /\ length e <= 1) /\
  forall i c, nth_error (fst s) i = Some c ->
    nth_error (fst s') i = Some c \/
    exists k o o', c = CData k o /\ is_first "Rand" s i k o /\ nth_error (fst s') i = Some (CData k o') /\
      differ_in "options" o o' /\ one_seed (stored_options o) (stored_options o').
Proof. intros a s s' [_ HT]. exact (seed_frame a s s' HT). Qed.
Print Assumptions C34_rest_unchanged.
Theorem C34_refused : forall a s, sound s -> snd (seed_set a s) <> Ok tt -> fst (seed_set a s) = s.
Proof. intros a s [_ HT]. now apply seed_refused. Qed.
Print Assumptions C34_refused.
(** Reading gives the first SEED option of the first RAND card, or nothing. *)
Theorem C34_read : forall s, (no_card "Rand" s -> seed_get s = Ok None) /\
  (forall i k o, is_first "Rand" s i k o -> assoc "options"%string o = Some None -> seed_get s = Ok None) /\
  (forall i k o l, is_first "Rand" s i k o -> assoc "options"%string o = Some (Some (VTup l)) -> Forall (fun v => ~ seed_option v) l -> seed_get s = Ok None) /\
  (forall i k o b v t, is_first "Rand" s i k o -> assoc "options"%string o = Some (Some (VTup (b ++ VObj k_rand_Seed [v] :: t))) ->
     Forall (fun v => ~ seed_option v) b -> seed_get s = Ok v).
Proof. exact seed_read. Qed.
Print Assumptions C34_read.
Example C34_case : seed_get (fst (seed_set (AInt 11) some_problem)) = Ok (Some (VInt (IVal 11))) /\
  nth_error (fst (fst (seed_set (AInt 11) some_problem))) 1 =
    Some (CData k_Rand [("options"%string, Some (VTup [VObj k_rand_Gen [Some (VInt (IVal 2))]; VObj k_rand_Seed [Some (VInt (IVal 11))]]))]) /\
  seed_get (fst (seed_set (AInt 11) bare_problem)) = Ok (Some (VInt (IVal 11))) /\
  seed_set (AInt 12) some_problem = (some_problem, Lib InpError).
Proof. repeat split; vm_compute; reflexivity. Qed.
