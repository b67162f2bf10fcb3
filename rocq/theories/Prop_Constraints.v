(** C28: what the tests of the setters mean for the stored values. *)

From Coq Require Import Ascii String NArith ZArith QArith Bool List Lia Lqa.
From Verif Require Import PyStr PyNum Types Cards CardsSpec CardsFacts8 CardsFacts6 Tables ConstraintsSpec ConstraintsFacts Prop_Cards.
Import ListNotations.
Open Scope list_scope.

(** After any history no stored value is one that its setter refuses, where the
    test is read as arithmetic over rationals and equality of texts. Missing:
    infinite numbers, tests on other attributes, and the eight tests of
    [C28_meaning_coverage]. *)
Theorem C28_meaning_partial : forall ext fam c o a x b,
  NoDup (map a_name (c_attrs c)) -> reachable ext fam c o ->
  In a (c_attrs c) -> independent a = true -> assoc (a_name a) o = Some x -> finite x ->
  In b (a_checks a) -> covered b = true -> ~ means x b.
Proof. exact constraint_meaning. Qed.
Print Assumptions C28_meaning_partial.

(** A test that answers at all, answers by its meaning. *)
Theorem C28_tests_decide : forall o x, finite x -> forall b r,
  covered b = true -> beval o x b = Ok r -> (r = true <-> means x b).
Proof. exact test_means. Qed.
Print Assumptions C28_tests_decide.

Definition own_tests : list (string * string * bexp) :=
  flat_map (fun c => flat_map (fun a => if independent a then map (fun b => (c_name c, a_name a, b)) (a_checks a) else []) (c_attrs c)) all_classes.
Theorem C28_meaning_coverage :
  length own_tests = 1205%nat /\ length (filter (fun x => covered (snd x)) own_tests) = 1197%nat /\
  map (fun x => fst (fst x)) (filter (fun x => negb (covered (snd x))) own_tests) =
    ["mplot_Title"; "mplot_Subtitle"; "mplot_Xtitle"; "mplot_Ytitle"; "mplot_Ztitle"; "mplot_Label"; "cell_Tmp"; "like_Tmp"]%string.
Proof. repeat split; vm_compute; reflexivity. Qed.
Print Assumptions C28_meaning_coverage.

(** ACT THRESH: the fraction lies between 0 and 1. *)
Theorem C28_thresh_range : forall o n c e, reachable ext fam k_act_Thresh o ->
  assoc "fraction"%string o = Some (Some (VReal (RVal (Fin n c e)))) -> (0 <= dec_Q n c e <= 1)%Q.
Proof.
  intros o n c e HR HA.
  assert (HN : NoDup (map a_name (c_attrs k_act_Thresh))) by (apply nodupb_ok; reflexivity).
  pose proof (C28_meaning_partial ext fam k_act_Thresh o _ _ _ HN HR (or_introl eq_refl) eq_refl HA I (or_introl eq_refl) eq_refl) as H.
  cbn [means holds operand meant] in H. split.
  - destruct (Qlt_le_dec (dec_Q n c e) 0); [|assumption]. exfalso. apply H. right. intros [A _]. change (inject_Z 0) with 0%Q in A. lra.
  - destruct (Qlt_le_dec 1 (dec_Q n c e)); [|assumption]. exfalso. apply H. right. intros [_ A]. change (inject_Z 1) with 1%Q in A. lra.
Qed.
Print Assumptions C28_thresh_range.
Example C28_thresh_case : exists o, reachable ext fam k_act_Thresh o /\
  assoc "fraction"%string o = Some (Some (VReal (RVal (Fin false 25 (-2))))).
Proof.
  destruct (construct ext fam k_act_Thresh [AStr (L "0.25")]) as [o| |] eqn:E; try discriminate E.
  exists o. split; [now apply (made ext fam k_act_Thresh [AStr (L "0.25")])|]. vm_compute in E. injection E as <-. reflexivity.
Qed.

(** F_1 (point detectors): the number of the tally ends in 5. *)
Theorem C28_detector_number : forall o z, reachable ext fam k_F_1 o ->
  assoc "suffix"%string o = Some (Some (VInt (IVal z))) -> (z <= 99999999 /\ z mod 10 = 5)%Z.
Proof.
  intros o z HR HA.
  assert (HN : NoDup (map a_name (c_attrs k_F_1))) by (apply nodupb_ok; reflexivity).
  pose proof (C28_meaning_partial ext fam k_F_1 o _ _ _ HN HR (or_intror (or_introl eq_refl)) eq_refl HA I (or_introl eq_refl) eq_refl) as H.
  cbn [means holds operand meant same] in H. rewrite <- Zle_Qle, inject_Z_injective in H.
  destruct (Z.le_gt_cases z 99999999); [|exfalso; apply H; right; lia].
  destruct (Z.eq_dec (z mod 10) 5); [auto|exfalso; apply H; right; tauto].
Qed.
Print Assumptions C28_detector_number.
