(** Evaluating a setter's test agrees with its meaning. *)

From Coq Require Import Ascii String NArith ZArith QArith Qpower Bool List Lia Lqa.
From Verif Require Import PyStr PyNum Types SubFacts Cards CardsSpec CardsFacts2 CardsFacts8 ConstraintsSpec.
Import ListNotations.
Open Scope list_scope.

Lemma dec_Q_align n c e lo : (lo <= e)%Z -> (dec_Q n c e == inject_Z (fin_Z n c (e - lo)) * Qpower 10 lo)%Q.
Proof.
  intros H. unfold dec_Q, fin_Z.
  assert (E : (inject_Z (if n then - (Z.of_N c * 10 ^ (e - lo)) else Z.of_N c * 10 ^ (e - lo)) ==
     inject_Z (if n then - Z.of_N c else Z.of_N c) * inject_Z (10 ^ (e - lo)))%Q).
  { rewrite <- inject_Z_mult. apply inject_Z_injective. destruct n; ring. }
  rewrite E, <- Qmult_assoc.
  assert (E2 : (inject_Z (10 ^ (e - lo)) == Qpower 10 (e - lo))%Q).
  { rewrite Zpower_Qpower by lia. reflexivity. }
  rewrite E2, <- Qpower_plus by (unfold Qeq; cbn; lia). replace (e - lo + lo)%Z with e by lia. reflexivity.
Qed.
Lemma pow_pos e : (0 < Qpower 10 e)%Q.
Proof. apply Qpower_0_lt. reflexivity. Qed.

Lemma dec_cmp_Q n c e n' c' e' : exists r, dec_cmp (Fin n c e) (Fin n' c' e') = Some r /\ (dec_Q n c e ?= dec_Q n' c' e')%Q = r.
Proof.
  eexists. split; [reflexivity|]. set (lo := Z.min e e').
  rewrite (dec_Q_align n c e lo), (dec_Q_align n' c' e' lo) by lia.
  set (a := fin_Z n c (e - lo)). set (b := fin_Z n' c' (e' - lo)). pose proof (pow_pos lo) as HP.
  destruct (Z.compare_spec a b) as [E|E|E].
  - apply Qeq_alt. now rewrite E.
  - apply Qlt_alt. apply Qmult_lt_compat_r; auto. now rewrite <- Zlt_Qlt.
  - apply Qgt_alt. apply Qmult_lt_compat_r; auto. now rewrite <- Zlt_Qlt.
Qed.
Lemma dec_Z_Q z : (dec_Q (z <? 0)%Z (Z.abs_N z) 0 == inject_Z z)%Q.
Proof.
  unfold dec_Q. rewrite Qmult_1_r. apply inject_Z_injective. destruct (Z.ltb_spec z 0); rewrite N2Z.inj_abs_N; lia.
Qed.

(** [of_cmp] and order. *)
Lemma of_cmp_Q op p q : of_cmp op (p ?= q)%Q = true <-> holds op (Some (TQ p)) (Some (TQ q)).
Proof.
  destruct (Qcompare p q) eqn:E; destruct op; cbn;
    rewrite <- ?Qeq_alt, <- ?Qlt_alt, <- ?Qgt_alt in E;
    split; intros H; try discriminate; try reflexivity; try (exfalso; lra); try (exfalso; tauto); lra || (intros H'; lra).
Qed.

Definition of_num (n : num) : option term :=
  match n with
  | NZ z => Some (TQ (inject_Z z))
  | ND (Fin s c e) => Some (TQ (dec_Q s c e))
  | NStr s => Some (TS s)
  | _ => None
  end.
Definition num_fin (n : num) : Prop := match n with ND (Fin _ _ _) => True | ND _ => False | _ => True end.

Lemma same_compat a a' b b' : same a a' -> same b b' -> (same a b <-> same a' b').
Proof.
  destruct a as [[]|], a' as [[]|], b as [[]|], b' as [[]|]; cbn; try tauto; intros H1 H2; subst; try tauto.
  now rewrite H1, H2.
Qed.
Lemma holds_compat op p p' q q' : (p == p')%Q -> (q == q')%Q -> (holds op (Some (TQ p)) (Some (TQ q)) <-> holds op (Some (TQ p')) (Some (TQ q'))).
Proof. intros H1 H2. destruct op; cbn; rewrite ?H1, ?H2; tauto. Qed.

Lemma cmp_dec_Q op n c e n' c' e' r : cmp_dec op (Fin n c e) (Fin n' c' e') = Ok r ->
  (r = true <-> holds op (Some (TQ (dec_Q n c e))) (Some (TQ (dec_Q n' c' e')))).
Proof.
  unfold cmp_dec. destruct (dec_cmp_Q n c e n' c' e') as (k & -> & <-). intros [= <-]. apply of_cmp_Q.
Qed.

Lemma compare_means op p q r : num_fin (num_of p) -> num_fin (num_of q) ->
  (match num_of p, num_of q with NHor _, NHor _ => False | _, _ => True end) ->
  compare op p q = Ok r -> (r = true <-> holds op (of_num (num_of p)) (of_num (num_of q))).
Proof.
  intros FP FQ HH H. unfold compare in H.
  destruct (num_of p) as [a|[]| | |], (num_of q) as [b|[]| | |]; cbn [num_fin] in *; try tauto;
  try (destruct op; cbn in *; try discriminate; injection H as <-; split; (discriminate || tauto); fail).
  - injection H as <-. cbn [of_num]. rewrite <- of_cmp_Q. unfold Qcompare. cbn [inject_Z Qnum Qden]. now rewrite !Z.mul_1_r.
  - unfold dec_Z in H. apply cmp_dec_Q in H. rewrite H. cbn [of_num]. apply holds_compat; [apply dec_Z_Q|reflexivity].
  - unfold dec_Z in H. apply cmp_dec_Q in H. rewrite H. cbn [of_num]. apply holds_compat; [reflexivity|apply dec_Z_Q].
  - now apply cmp_dec_Q in H.
  - destruct (ordering op) eqn:EO; [discriminate|]. injection H as <-. cbn [of_num].
    destruct (seqb s s0) eqn:E; [apply seqb_eq in E|assert (E' : s <> s0) by (intros X; apply seqb_eq in X; congruence)]; destruct op; cbn in *; try discriminate; split; intros; try discriminate; try tauto; congruence.
Qed.

Lemma operand_num o x e p : simple e = true -> finite x -> neval o x e = Ok p ->
  num_fin (num_of p) /\ operand x e = of_num (num_of p) /\ (constant e = true -> forall h, num_of p <> NHor h).
Proof.
  intros HS HF H. destruct e as [|z|d|s|n|e|e|e|e|e n|n e|b e f]; try discriminate HS; try (destruct e; discriminate HS).
  - injection H as <-. cbn [operand constant]. split; [|split; [|discriminate]];
      destruct x as [[[]|[[]|]|  | | | | | | | | | | |]|]; cbn in *; auto; tauto.
  - injection H as <-. cbn. repeat split; discriminate.
  - destruct d; try discriminate. injection H as <-. cbn. repeat split; discriminate.
  - injection H as <-. cbn. repeat split; discriminate.
  - destruct e; try discriminate HS. cbn in H. cbn [operand constant].
    destruct x as [[[]|[[]|]|  | | | | | | | | | | |]|]; cbn in *; try discriminate; try tauto; injection H as <-; cbn; repeat split; discriminate.
  - destruct e; try discriminate HS. cbn in H. cbn [operand constant].
    destruct x as [[[]|[[]|]|  | | | | | | | | | | |]|]; cbn in *; try discriminate; try tauto; injection H as <-; cbn; repeat split; discriminate.
  - destruct e; try discriminate HS. cbn in H. cbn [operand constant].
    destruct x as [[[]|[[]|]|  | | | | | | | | | | |]|]; cbn in *; try discriminate; try tauto; injection H as <-; cbn; repeat split; discriminate.
Qed.

Theorem test_means o x : finite x -> forall b r, covered b = true -> beval o x b = Ok r -> (r = true <-> means x b).
Proof.
  intros HF. induction b; intros r HC H; rewrite beval_eq in H; cbn [covered means] in *; try discriminate HC.
  - injection H as <-. tauto.
  - destruct e; try discriminate HC. cbn in H. destruct x; injection H as <-; split; (discriminate || tauto || congruence).
  - destruct (beval o x b) as [c| |] eqn:E; try discriminate. injection H as <-. rewrite <- (IHb c HC eq_refl).
    destruct c; cbn; split; (discriminate || tauto || congruence || auto).
  - apply andb_prop in HC as [C1 C2]. destruct (beval o x b1) as [c| |] eqn:E; try discriminate. cbn [bind] in H.
    rewrite <- (IHb1 c C1 eq_refl). destruct c.
    + rewrite <- (IHb2 r C2 H). tauto.
    + injection H as <-. split; [discriminate|]. intros [X _]. discriminate.
  - apply andb_prop in HC as [C1 C2]. destruct (beval o x b1) as [c| |] eqn:E; try discriminate. cbn [bind] in H.
    rewrite <- (IHb1 c C1 eq_refl). destruct c.
    + injection H as <-. tauto.
    + rewrite <- (IHb2 r C2 H). split; [auto|]. intros [X|X]; [discriminate|auto].
  - apply andb_prop in HC as [HC C3]. apply andb_prop in HC as [C1 C2].
    destruct (neval o x e) as [p| |] eqn:E1; try discriminate. destruct (neval o x f) as [q| |] eqn:E2; try discriminate. cbn [bind] in H.
    destruct (operand_num o x e p C1 HF E1) as (A1 & -> & A3). destruct (operand_num o x f q C2 HF E2) as (B1 & -> & B3).
    apply compare_means; auto. apply orb_prop in C3 as [C3|C3].
    + specialize (A3 C3). destruct (num_of p); auto. now destruct (A3 h).
    + specialize (B3 C3). destruct (num_of p); auto. destruct (num_of q); auto. now destruct (B3 h0).
  - apply andb_prop in HC as [C1 C2]. destruct (neval o x e) as [p| |] eqn:E1; try discriminate. cbn [bind] in H.
    destruct (hashable p) eqn:EH; try discriminate. destruct (operand_num o x e p C1 HF E1) as (A1 & -> & _).
    revert r H. induction l as [|k l IH]; intros r H.
    + injection H as <-. split; [discriminate|]. intros (k & [] & _).
    + cbn [forallb] in C2. apply andb_prop in C2 as [C2 C3].
      destruct (neval o x k) as [q| |] eqn:E2; try discriminate. cbn [bind] in H.
      destruct (compare OEq p q) as [c| |] eqn:E3; try discriminate. cbn [bind] in H.
      assert (CS : simple k = true) by (destruct k; auto; discriminate).
      destruct (operand_num o x k q CS HF E2) as (B1 & B2 & B3). specialize (B3 C2).
      apply compare_means in E3; auto; [|destruct (num_of p); auto; destruct (num_of q); auto; now destruct (B3 h0)].
      cbn [holds] in E3. destruct c.
      * injection H as <-. split; [|reflexivity]. intros _. exists k. split; [now left|]. rewrite B2. now apply E3.
      * rewrite (IH C3 r H). split; intros (k' & HI & HS).
        -- exists k'. split; [now right|exact HS].
        -- destruct HI as [->|HI]; [|exists k'; auto]. exfalso. rewrite B2 in HS. apply E3 in HS. discriminate.
  - destruct e; try discriminate HC. cbn in H.
    destruct x as [[[z|[]]|[d|[]]|  | | | | | | | | | | |]|]; cbn in *; try discriminate; injection H as <-; split;
      first [intros _; eexists; (left + right); reflexivity | discriminate | intros (? & [X|X]); discriminate | idtac].
Qed.

Section Reach.
  Variable ext : string -> str -> result val.
  Variable fam : string -> list cls.
  Theorem constraint_meaning c o a x b : NoDup (map a_name (c_attrs c)) -> reachable ext fam c o ->
    In a (c_attrs c) -> independent a = true -> assoc (a_name a) o = Some x -> finite x ->
    In b (a_checks a) -> covered b = true -> ~ means x b.
  Proof.
    intros HN HR HI HD HA HF HB HC HM. destruct (reachable_satisfied ext fam c o HN HR a HI HD) as (v & E & HS).
    assert (v = x) by congruence. subst v. rewrite Forall_forall in HS. apply HS in HB.
    apply (test_means o x HF b false HC) in HB. apply HB in HM. discriminate.
  Qed.
End Reach.
