(** Soundness of the test of Calm.v: setter tests. *)

From Coq Require Import Ascii String NArith ZArith Bool Arith List Lia.
From Verif Require Import PyStr Regex RegexParse RegexFacts PyNum Types CardText Cards CardsSpec Calm.
Import ListNotations.

(** Which operands are of a kind. *)
Definition is_k (k : akind) (p : pv) : Prop :=
  match k with
  | KNone => p = PNone
  | KInt => exists z, p = PLib (VInt (IVal z))
  | KZ => exists z, p = PZ z
  | KN => (exists z, p = PLib (VInt (IVal z))) \/ (exists z, p = PZ z)
  | KReal => exists a b c, p = PLib (VReal (RVal (Fin a b c)))
  | KD => exists a b c, p = PD (Fin a b c)
  | KHor => (exists h, p = PLib (VInt (IHor h))) \/ (exists h, p = PLib (VReal (RHor h)))
  | KHorB => exists h, p = PHor h
  | KStr => exists s, p = PLib (VStr s)
  | KS => exists s, p = PS s
  | KTup => exists l, p = PLib (VTup l)
  | KOther => p <> PNone
  end.

Lemma akind_eqb_ok a b : akind_eqb a b = true -> a = b.
Proof. destruct a, b; cbn; congruence. Qed.
Lemma avalue_ok k l p : avalue k = Some l -> is_k k p -> exists q, value_of p = Ok q /\ is_k l q.
Proof.
  destruct k; cbn; try discriminate; intros [= <-] H; cbn.
  - destruct H as (z & ->). cbn. eauto.
  - destruct H as (a & b & c & ->). cbn. eauto 6.
  - destruct H as [(h & ->)|(h & ->)]; cbn; eauto.
  - destruct H as (s & ->). cbn. eauto.
  - destruct H as (s & ->). cbn. eauto.
Qed.
Lemma cmp_dec_fin o a b c a' b' c' : exists r, cmp_dec o (Fin a b c) (Fin a' b' c') = Ok r.
Proof. unfold cmp_dec. cbn. eauto. Qed.
Lemma compare_num o k l p q : numeric k = true -> numeric l = true -> is_k k p -> is_k l q -> exists r, compare o p q = Ok r.
Proof.
  intros Hk Hl HP HQ.
  assert (A : forall k p, numeric k = true -> is_k k p -> (exists z, num_of p = NZ z) \/ (exists a b c, num_of p = ND (Fin a b c))).
  { clear. intros k p. destruct k; cbn; try discriminate; intros _ H.
    - destruct H as (z & ->). cbn. eauto.
    - destruct H as (z & ->). cbn. eauto.
    - destruct H as (a & b & c & ->). cbn. eauto.
    - destruct H as (a & b & c & ->). cbn. eauto 6.
    - destruct H as [(z & ->)|(z & ->)]; cbn; eauto. }
  unfold compare. destruct (A _ _ Hk HP) as [(z & ->)|(a & b & c & ->)]; destruct (A _ _ Hl HQ) as [(z' & ->)|(a' & b' & c' & ->)]; eauto using cmp_dec_fin; apply cmp_dec_fin.
Qed.
Lemma compare_eq o k l p q : ordering o = false -> k <> KOther -> l <> KOther -> is_k k p -> is_k l q -> exists r, compare o p q = Ok r.
Proof.
  intros HO Hk Hl HP HQ.
  assert (A : forall k p, k <> KOther -> is_k k p -> (exists z, num_of p = NZ z) \/ (exists a b c, num_of p = ND (Fin a b c)) \/ (exists h, num_of p = NHor h) \/ (exists s, num_of p = NStr s) \/ num_of p = NNo).
  { clear. intros k p N. destruct k; cbn; intros H; try congruence.
    - subst. cbn. auto.
    - destruct H as (z & ->). cbn. eauto.
    - destruct H as (z & ->). cbn. eauto.
    - destruct H as (a & b & c & ->). cbn. eauto 6.
    - destruct H as (a & b & c & ->). cbn. eauto 6.
    - destruct H as [(z & ->)|(z & ->)]; cbn; eauto 6.
    - destruct H as (h & ->). cbn. eauto.
    - destruct H as (h & ->). cbn. eauto 6.
    - destruct H as (h & ->). cbn. eauto 6.
    - destruct H as (h & ->). cbn. auto 6.
    - destruct H as [(z & ->)|(z & ->)]; cbn; eauto. }
  unfold compare. rewrite HO.
  destruct (A _ _ Hk HP) as [(z & E1)|[(a & b & c & E1)|[(h & E1)|[(s & E1)|E1]]]];
  destruct (A _ _ Hl HQ) as [(z' & E2)|[(a' & b' & c' & E2)|[(h' & E2)|[(s' & E2)|E2]]]]; rewrite E1, ?E2; eauto; apply cmp_dec_fin.
Qed.
Lemma acompare_ok o k l r p q : acompare o k l = Some r -> is_k k p -> is_k l q -> r = None /\ exists c, compare o p q = Ok c.
Proof.
  unfold acompare. destruct (akind_eqb k KOther || akind_eqb l KOther)%bool eqn:E; [discriminate|]. apply orb_false_elim in E as [E1 E2].
  assert (N1 : k <> KOther) by (intros ->; discriminate). assert (N2 : l <> KOther) by (intros ->; discriminate).
  destruct (ordering o) eqn:EO.
  - destruct (numeric k && numeric l)%bool eqn:EN; [|discriminate]. apply andb_prop in EN as [A B]. intros [= <-] HP HQ. split; [reflexivity|]. exact (compare_num o k l p q A B HP HQ).
  - intros [= <-] HP HQ. split; [reflexivity|]. exact (compare_eq o k l p q EO N1 N2 HP HQ).
Qed.

Definition says (r : option bool) (c : bool) : Prop := match r with Some d => c = d | None => True end.

(** Unfolding equations (the evaluators are mutually recursive). *)
Lemma ab_BConst env kx c : abeval env kx (BConst c) =
    Some (Some c).
Proof. reflexivity. Qed.
Lemma ab_BIsNone env kx e : abeval env kx (BIsNone e) =
    match aneval env kx e with
        | Some KNone => Some (Some true)
        | Some _ => Some (Some false)
        | None => None
        end.
Proof. reflexivity. Qed.
Lemma ab_BNot env kx b : abeval env kx (BNot b) =
    match abeval env kx b with Some (Some c) => Some (Some (negb c)) | r => r end.
Proof. reflexivity. Qed.
Lemma ab_BAnd env kx a b : abeval env kx (BAnd a b) =
    match abeval env kx a with
        | Some (Some false) => Some (Some false)
        | Some (Some true) => abeval env kx b
        | Some None => match abeval env kx b with Some (Some false) => Some (Some false) | Some _ => Some None | None => None end
        | None => None
        end.
Proof. reflexivity. Qed.
Lemma ab_BOr env kx a b : abeval env kx (BOr a b) =
    match abeval env kx a with
        | Some (Some true) => Some (Some true)
        | Some (Some false) => abeval env kx b
        | Some None => match abeval env kx b with Some (Some true) => Some (Some true) | Some _ => Some None | None => None end
        | None => None
        end.
Proof. reflexivity. Qed.
Lemma ab_BIte env kx a b c : abeval env kx (BIte a b c) =
    match abeval env kx a with
        | Some (Some true) => abeval env kx b
        | Some (Some false) => abeval env kx c
        | Some None => match abeval env kx b, abeval env kx c with Some _, Some _ => Some None | _, _ => None end
        | None => None
        end.
Proof. reflexivity. Qed.
Lemma ab_BCmp env kx op e f : abeval env kx (BCmp op e f) =
    match aneval env kx e, aneval env kx f with
        | Some k, Some l => acompare op k l
        | _, _ => None
        end.
Proof. reflexivity. Qed.
Lemma ab_BIn env kx e l : abeval env kx (BIn e l) =
    match aneval env kx e with
        | Some k =>
            if (match k with KInt | KStr | KZ | KN | KS | KNone | KReal | KD => true | _ => false end
                && forallb (fun f => match aneval env kx f with Some q => match acompare OEq k q with Some _ => true | None => false end | None => false end) l)%bool
            then Some None else None
        | None => None
        end.
Proof. reflexivity. Qed.
Lemma ab_BJump env kx e : abeval env kx (BJump e) =
    match aneval env kx e with
        | Some k => match avalue k with Some KHorB => Some None | Some _ => Some (Some false) | None => None end
        | None => None
        end.
Proof. reflexivity. Qed.
Lemma ab_BTruth env kx e : abeval env kx (BTruth e) =
    match aneval env kx e with
        | Some KNone => Some (Some false)
        | Some (KHor | KOther) => None
        | Some _ => Some None
        | None => None
        end.
Proof. reflexivity. Qed.
Lemma ab_BExt env kx w0 : abeval env kx (BExt w0) =
    None.
Proof. reflexivity. Qed.
Lemma bb_BConst o x c : beval o x (BConst c) =
    Ok c.
Proof. reflexivity. Qed.
Lemma bb_BIsNone o x e : beval o x (BIsNone e) =
    bind (neval o x e) (fun p => Ok (match p with PNone => true | _ => false end)).
Proof. reflexivity. Qed.
Lemma bb_BNot o x b : beval o x (BNot b) =
    bind (beval o x b) (fun c => Ok (negb c)).
Proof. reflexivity. Qed.
Lemma bb_BAnd o x a b : beval o x (BAnd a b) =
    bind (beval o x a) (fun c => if c then beval o x b else Ok false).
Proof. reflexivity. Qed.
Lemma bb_BOr o x a b : beval o x (BOr a b) =
    bind (beval o x a) (fun c => if c then Ok true else beval o x b).
Proof. reflexivity. Qed.
Lemma bb_BIte o x b c d : beval o x (BIte b c d) =
    bind (beval o x b) (fun z => if z then beval o x c else beval o x d).
Proof. reflexivity. Qed.
Lemma bb_BCmp o x op e f : beval o x (BCmp op e f) =
    bind (neval o x e) (fun p => bind (neval o x f) (fun q => compare op p q)).
Proof. reflexivity. Qed.
Lemma bb_BIn o x e l : beval o x (BIn e l) =
    bind (neval o x e) (fun p =>
        if hashable p then
          (fix any l := match l with
                        | [] => Ok false
                        | f :: l' => bind (neval o x f) (fun q =>
                                     bind (compare OEq p q) (fun c => if c then Ok true else any l'))
                        end) l
        else Py TypeError).
Proof. reflexivity. Qed.
Lemma bb_BJump o x e : beval o x (BJump e) =
    bind (neval o x e) (fun p => bind (value_of p) (fun q =>
        Ok (match q with PHor (HJump _) => true | _ => false end))).
Proof. reflexivity. Qed.
Lemma bb_BTruth o x e : beval o x (BTruth e) =
    bind (neval o x e) truth.
Proof. reflexivity. Qed.
Lemma bb_BExt o x w0 : beval o x (BExt w0) =
    Ok false.
Proof. reflexivity. Qed.
Lemma an_EIte env kx b e f : aneval env kx (EIte b e f) =
  match abeval env kx b, aneval env kx e, aneval env kx f with
  | Some (Some true), r, _ => r
  | Some (Some false), _, r => r
  | Some None, Some k, Some l => if akind_eqb k l then Some k else if (whole_kind k && whole_kind l)%bool then Some KN else None
  | _, _, _ => None
  end.
Proof. reflexivity. Qed.
Lemma nn_EIte o x b e f : neval o x (EIte b e f) = bind (beval o x b) (fun c => if c then neval o x e else neval o x f).
Proof. reflexivity. Qed.

Section Sound.
  Variables (o : obj) (x : option val) (env : string -> option akind) (kx : akind).
  Hypothesis (HX : is_k kx (opt_pv x)).
  Hypothesis (HE : forall n k, env n = Some k -> exists v, assoc n o = Some v /\ is_k k (opt_pv v)).

  Definition N_ok (e : nexp) : Prop := forall k, aneval env kx e = Some k -> exists p, neval o x e = Ok p /\ is_k k p.
  Definition B_ok (b : bexp) : Prop := forall r, abeval env kx b = Some r -> exists c, beval o x b = Ok c /\ says r c.

  Lemma any_ok l : Forall N_ok l -> forall k p, is_k k p ->
    forallb (fun f => match aneval env kx f with Some q => match acompare OEq k q with Some _ => true | None => false end | None => false end) l = true ->
    exists c, (fix any l := match l with
                        | [] => Ok false
                        | f :: l' => bind (neval o x f) (fun q =>
                                     bind (compare OEq p q) (fun c => if c then Ok true else any l'))
                        end) l = Ok c.
  Proof.
    induction 1 as [|e l HN F IH]; intros k p HP HB; [eauto|]. cbn [forallb] in HB. apply andb_prop in HB as [HB HB'].
    destruct (aneval env kx e) as [q|] eqn:EA; [|discriminate]. destruct (HN _ EA) as (v & EV & HV). rewrite EV. cbn [bind].
    destruct (acompare OEq k q) as [r|] eqn:EC; [|discriminate]. destruct (acompare_ok _ _ _ _ _ _ EC HP HV) as (_ & c & ECC). rewrite ECC. cbn [bind].
    destruct c; [eauto|]. exact (IH k p HP HB').
  Qed.

  Fixpoint N_sound (e : nexp) : N_ok e
  with B_sound (b : bexp) : B_ok b.
  Proof.
    - destruct e; intros k H0; pose proof H0 as H; cbn [aneval] in H; cbn [neval].
      + injection H as <-. eauto.
      + injection H as <-. cbn. eauto.
      + destruct d; try discriminate. injection H as <-. cbn. eauto 6.
      + injection H as <-. cbn. eauto.
      + destruct (HE _ _ H) as (v & -> & HV). eauto.
      + destruct (aneval env kx e) as [l|] eqn:E; [|discriminate]. destruct (N_sound e _ E) as (p & -> & HP). cbn [bind]. exact (avalue_ok _ _ _ H HP).
      + destruct (aneval env kx e) as [l|] eqn:E; [|discriminate]. destruct l; try discriminate. injection H as <-.
        destruct (N_sound e _ E) as (p & -> & s & ->). cbn. eauto.
      + destruct (aneval env kx e) as [l|] eqn:E; [|discriminate]. destruct l; try discriminate. injection H as <-.
        destruct (N_sound e _ E) as (p & -> & s & ->). cbn. eauto.
      + discriminate.
      + destruct (aneval env kx e) as [l|] eqn:E; [|discriminate]. destruct l; try discriminate. injection H as <-.
        destruct (N_sound e _ E) as (p & -> & s & ->). cbn. eauto.
      + destruct (aneval env kx e) as [l|] eqn:E; [|discriminate]. destruct (N_sound e _ E) as (p & -> & HP).
        destruct l; try discriminate; injection H as <-; cbn [is_k] in *.
        * destruct HP as (z & ->). cbn. eauto.
        * destruct HP as (z & ->). cbn. eauto.
        * destruct HP as [(z & ->)|(z & ->)]; cbn; eauto.
      + change (exists p, bind (beval o x b) (fun c => if c then neval o x e1 else neval o x e2) = Ok p /\ is_k k p).
        clear H. rewrite an_EIte in H0. rename H0 into H. destruct (abeval env kx b) as [[[]|]|] eqn:EB; [| | |destruct (aneval env kx e1), (aneval env kx e2); discriminate].
        * destruct (B_sound b _ EB) as (c & -> & ->). cbn [bind]. apply N_sound; exact H.
        * destruct (B_sound b _ EB) as (c & -> & ->). cbn [bind]. apply N_sound; exact H.
        * destruct (B_sound b _ EB) as (c & -> & _). cbn [bind].
          destruct (aneval env kx e1) as [k1|] eqn:E1; [|discriminate]. destruct (aneval env kx e2) as [k2|] eqn:E2; [|discriminate].
          destruct (N_sound e1 _ E1) as (p1 & EP1 & HP1). destruct (N_sound e2 _ E2) as (p2 & EP2 & HP2).
          destruct (akind_eqb k1 k2) eqn:EK.
          -- apply akind_eqb_ok in EK. subst k2. injection H as <-. destruct c; eauto.
          -- destruct (whole_kind k1 && whole_kind k2)%bool eqn:EW; [|discriminate]. injection H as <-. apply andb_prop in EW as [W1 W2].
             assert (A : forall k p, whole_kind k = true -> is_k k p -> is_k KN p).
             { clear. intros k p. destruct k; cbn; try discriminate; auto. }
             destruct c; [exists p1|exists p2]; eauto.
    - destruct b; intros r H;
      rewrite ?ab_BConst, ?ab_BIsNone, ?ab_BNot, ?ab_BAnd, ?ab_BOr, ?ab_BIte, ?ab_BCmp, ?ab_BIn, ?ab_BJump, ?ab_BTruth, ?ab_BExt in H;
      rewrite ?bb_BConst, ?bb_BIsNone, ?bb_BNot, ?bb_BAnd, ?bb_BOr, ?bb_BIte, ?bb_BCmp, ?bb_BIn, ?bb_BJump, ?bb_BTruth, ?bb_BExt.
      + injection H as <-. cbn. eauto.
      + destruct (aneval env kx e) as [k|] eqn:E; [|discriminate]. destruct (N_sound e _ E) as (p & -> & HP). cbn [bind].
        eexists. split; [reflexivity|]. destruct k; injection H as <-; cbn in *; try (subst; reflexivity);
          repeat match goal with HH : exists _, _ |- _ => destruct HH | HH : _ \/ _ |- _ => destruct HH end; subst; try reflexivity.
        destruct p; congruence.
      + destruct (abeval env kx b) as [q|] eqn:E; [|discriminate]. destruct (B_sound b _ E) as (c & -> & HC). cbn [bind].
        eexists. split; [reflexivity|]. destruct q; injection H as <-; cbn in *; congruence.
      + destruct (abeval env kx b1) as [q|] eqn:E1; [|discriminate]. destruct (B_sound b1 _ E1) as (c & -> & HC). cbn [bind].
        destruct q as [[]|]; cbn in HC; subst.
        * apply B_sound; exact H.
        * injection H as <-. cbn. eauto.
        * destruct (abeval env kx b2) as [q|] eqn:E2; [|discriminate]. destruct (B_sound b2 _ E2) as (d & ED & HD).
          destruct c; [rewrite ED|]; eexists; (split; [reflexivity|]); destruct q as [[]|]; injection H as <-; cbn in *; auto.
      + destruct (abeval env kx b1) as [q|] eqn:E1; [|discriminate]. destruct (B_sound b1 _ E1) as (c & -> & HC). cbn [bind].
        destruct q as [[]|]; cbn in HC; subst.
        * injection H as <-. cbn. eauto.
        * apply B_sound; exact H.
        * destruct (abeval env kx b2) as [q|] eqn:E2; [|discriminate]. destruct (B_sound b2 _ E2) as (d & ED & HD).
          destruct c; [|rewrite ED]; eexists; (split; [reflexivity|]); destruct q as [[]|]; injection H as <-; cbn in *; auto.
      + destruct (abeval env kx b1) as [q|] eqn:E1; [|discriminate]. destruct (B_sound b1 _ E1) as (c & -> & HC). cbn [bind].
        destruct q as [[]|]; cbn in HC; subst.
        * apply B_sound; exact H.
        * apply B_sound; exact H.
        * destruct (abeval env kx b2) as [q|] eqn:E2; [|discriminate]. destruct (abeval env kx b3) as [q'|] eqn:E3; [|discriminate].
          destruct (B_sound b2 _ E2) as (d & ED & _). destruct (B_sound b3 _ E3) as (d' & ED' & _). injection H as <-.
          destruct c; [rewrite ED|rewrite ED']; eexists; (split; [reflexivity|exact I]).
      + destruct (aneval env kx e) as [k|] eqn:E1; [|discriminate]. destruct (aneval env kx f) as [l|] eqn:E2; [|discriminate].
        destruct (N_sound e _ E1) as (p & -> & HP). destruct (N_sound f _ E2) as (q & -> & HQ). cbn [bind].
        destruct (acompare_ok _ _ _ _ _ _ H HP HQ) as (-> & c & ->). exists c. split; [reflexivity|exact I].
      + destruct (aneval env kx e) as [k|] eqn:E1; [|discriminate]. destruct (N_sound e _ E1) as (p & -> & HP). cbn [bind].
        match type of H with (if ?g then _ else _) = _ => destruct g eqn:EG; [|discriminate] end. injection H as <-. apply andb_prop in EG as [EG EL].
        assert (HH : hashable p = true).
        { destruct k; try discriminate; cbn in HP; repeat match goal with HH : exists _, _ |- _ => destruct HH | HH : _ \/ _ |- _ => destruct HH end; subst; reflexivity. }
        rewrite HH. destruct (any_ok l) with (k := k) (p := p) as (c & EC); [|exact HP|exact EL|exists c; split; [exact EC|exact I]].
        clear - N_sound. revert l. fix go 1. intros [|e l]; constructor; [apply N_sound|apply go].
      + destruct (aneval env kx e) as [k|] eqn:E1; [|discriminate]. destruct (N_sound e _ E1) as (p & -> & HP). cbn [bind].
        destruct (avalue k) as [l|] eqn:EA; [|discriminate]. destruct (avalue_ok _ _ _ EA HP) as (q & -> & HQ). cbn [bind].
        eexists. split; [reflexivity|]. destruct k; cbn in EA; try discriminate; injection EA as <-; injection H as <-; cbn in *; auto;
          repeat match goal with HH : exists _, _ |- _ => destruct HH end; subst; reflexivity.
      + destruct (aneval env kx e) as [k|] eqn:E1; [|discriminate]. destruct (N_sound e _ E1) as (p & -> & HP). cbn [bind].
        destruct k; try discriminate; injection H as <-; cbn in HP;
          repeat match goal with HH : exists _, _ |- _ => destruct HH | HH : _ \/ _ |- _ => destruct HH end; subst; cbn; eexists; (split; [reflexivity|]); cbn; auto.
      + discriminate.
  Qed.

  Lemma checks_sound l : achecks env kx l = true -> is_py (run_checks o x l) = false.
  Proof.
    induction l as [|b l IH]; cbn [achecks run_checks]; [reflexivity|]. destruct (abeval env kx b) as [r|] eqn:E; [|discriminate].
    destruct (B_sound b _ E) as (c & -> & HC). cbn [bind]. destruct c; [reflexivity|]. destruct r as [[]|]; cbn in HC; try discriminate; exact IH.
  Qed.
  Lemma checks_certain l : (exists b, In b l /\ abeval env kx b = Some (Some true)) -> forall u, run_checks o x l <> Ok u.
  Proof.
    intros (b & HB & HA) u. destruct (B_sound b _ HA) as (c & HC & ->). induction l as [|d l IH]; [destruct HB|]. cbn [run_checks]. destruct HB as [->|HB].
    - rewrite HC. discriminate.
    - destruct (beval o x d) as [[]| |]; try discriminate. cbn [bind]. auto.
  Qed.
End Sound.
