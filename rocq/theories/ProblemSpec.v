(** Vocabulary for the properties of whole problems. *)

From Coq Require Import Ascii String NArith ZArith Bool Arith List.
From Verif Require Import PyStr PyNum Types Cards Tables Numbered Problem.
Import ListNotations.
Open Scope list_scope.

(** Every reference of the data block leads to a card. *)
Definition wf (s : state) : Prop := Forall (fun i => i < length (fst s)) (p_data (snd s)).
(** The Integer a caller gives. *)
Definition given (a : arg) (v : val) : Prop :=
  match a with
  | AInt z => v = VInt (IVal z)
  | AStr s => exists i, integer_from_mcnp s = Ok i /\ v = VInt i
  | AVal w => v = w
  | _ => False
  end.
(** Apart from the data block the problem is the same. *)
Definition same_rest (p q : problem) : Prop :=
  p_title p = p_title q /\ p_cells p = p_cells q /\ p_surfaces p = p_surfaces q /\ p_message p = p_message q /\ p_other p = p_other q.
(** Two objects that differ at most in one attribute. *)
Definition differ_in (n : string) (o o' : obj) : Prop := forall m, m <> n -> assoc m o' = assoc m o.
(** The first data card of a class. *)
Definition is_first (n : string) (s : state) (i : nat) (k : cls) (o : obj) : Prop :=
  exists b t, p_data (snd s) = b ++ i :: t /\ nth_error (fst s) i = Some (CData k o) /\ c_name k = n /\
    Forall (fun j => forall k' o', nth_error (fst s) j = Some (CData k' o') -> c_name k' <> n) b.
(** The options of every RAND card are RAND options. *)
Definition rand_option (v : val) : Prop := exists k l, v = VObj k l /\ In k (fam "rand_RandOption") /\ length l = length (c_attrs k).
Definition rand_typed (s : state) : Prop :=
  forall i k o, nth_error (fst s) i = Some (CData k o) -> c_name k = "Rand"%string ->
  assoc "options"%string o = Some None \/ exists l, assoc "options"%string o = Some (Some (VTup l)) /\ Forall rand_option l.
(** What programs have: references lead to cards, RAND cards hold RAND options. *)
Definition sound (s : state) : Prop := wf s /\ rand_typed s.
(** A history of assignments to the two properties, accepted or refused. *)
Inductive edit := SetNps (a : arg) | SetSeed (a : arg).
Definition edited (s : state) (e : edit) : state :=
  match e with SetNps a => fst (nps_set a s) | SetSeed a => fst (seed_set a s) end.
Definition after (s : state) (l : list edit) : state := fold_left edited l s.
(** Two option lists that differ in one SEED option, or by one added at the end. *)
Definition seed_option (v : val) : Prop := exists k l, v = VObj k l /\ c_name k = "rand_Seed"%string.
Definition one_seed (l l' : list val) : Prop :=
  l' = l \/ (exists b x y t, l = b ++ x :: t /\ l' = b ++ y :: t /\ seed_option x /\ seed_option y) \/ (exists y, l' = l ++ [y] /\ seed_option y).
Definition stored_options (o : obj) : list val := match assoc "options"%string o with Some (Some (VTup l)) => l | _ => [] end.
(** No data card of a class. *)
Definition no_card (n : string) (s : state) : Prop :=
  forall i k o, In i (p_data (snd s)) -> nth_error (fst s) i = Some (CData k o) -> c_name k <> n.
