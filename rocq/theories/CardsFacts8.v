(** Gaps; histories of assignments. *)

From Coq Require Import Ascii String NArith ZArith Bool Arith List Lia.
From Verif Require Import PyStr Regex RegexParse RegexFacts RegexLang PyNum Types TypesSpec SubFacts CardText CardTextSpec Cards CardsSpec CardsFacts CardsFacts2 CardsFacts3 CardsFacts4 CardsFacts5.
Import ListNotations.
Open Scope char_scope.
Open Scope list_scope.

(** * Gaps *)

Lemma set_texts_somes names : forall vs, Forall (fun n => head_attr n = false) names -> length vs = length names ->
  set_texts names vs = map write (somes vs).
Proof.
  unfold set_texts. induction names as [|n names IH]; intros [|v vs] HN HL; try discriminate; auto.
  inversion HN as [|? ? N1 N2]; subst. cbn [map combine flat_map fst snd]. rewrite N1, IH by auto.
  destruct v; reflexivity.
Qed.

Section Gap.
  Variable ext : string -> str -> result val.
  Variable fam : string -> list cls.

  Lemma conv_fitting l : forall (fa : list attr) vs, fitting l vs -> map a_ty fa = map fst l ->
    Forall2 (fun a v => conv ext fam (a_ty a) (to_arg v) = Ok v) fa vs.
  Proof.
    intros fa vs H. revert fa. induction H as [|x v l vs H HF IH]; intros fa HM.
    - destruct fa; [constructor|discriminate].
    - destruct fa as [|a fa]; [discriminate|]. injection HM as E HM. constructor; auto. rewrite E.
      destruct v as [v|]; cbn [to_arg]; [apply conv_val; auto|]. destruct (fst x); reflexivity.
  Qed.

  Lemma somes_text c f hh fs fs' o o' : has_form c f -> Forall2 head_ok (head_parts f) hh ->
    fitting (f_fields f) fs -> fitting (f_fields f) fs' -> somes fs = somes fs' ->
    construct ext fam c (map to_arg (hh ++ fs)) = Ok o -> construct ext fam c (map to_arg (hh ++ fs')) = Ok o' ->
    headed c -> obj_text c (texts o) = obj_text c (texts o').
  Proof.
    intros (HP & (ha & fa & HA & HH & HFT & HFN) & HND & _) HV HF HF' ES HC HC' HE.
    assert (X : forall gs p, fitting (f_fields f) gs -> construct ext fam c (map to_arg (hh ++ gs)) = Ok p ->
      p = combine (map a_name (c_attrs c)) (hh ++ gs)).
    { intros gs p HX HC0. apply construct_combine in HC0; auto. rewrite HA. apply Forall2_app.
      - apply (read_heads ext fam (head_parts f)); auto using head_parts_in.
      - now apply (conv_fitting (f_fields f)). }
    rewrite (X _ _ HF HC), (X _ _ HF' HC'). clear X HC HC'. unfold obj_text. destruct HE as [HE|HE]; rewrite HE;
    (assert (HN : map a_name (c_attrs c) = hnames f ++ map a_name fa)
      by (rewrite HA, map_app; f_equal; unfold hnames; rewrite <- (map_map fst fst (head_parts f)), <- HH, map_map; reflexivity);
    assert (HFN' : Forall (fun n => head_attr n = false) (map a_name fa)) by (apply Forall_map; exact HFN);
    assert (HLF : length (map a_name fa) = length (f_fields f)) by (rewrite map_length, <- (map_length a_ty), HFT, map_length; reflexivity);
    rewrite !texts_combine, HN, !map_app;
    rewrite head_parts_eq in HV; apply Forall2_app_inv_l in HV as (hp & h2 & VP & HV & ->);
    apply Forall2_app_inv_l in HV as (hs & hd & VS & VD & ->);
    rewrite <- !map_app, !map_app;
    rewrite <- (map_app owrite hs hd), <- (map_app owrite hp (hs ++ hd));
    rewrite !head_written, !value_written by auto;
    rewrite !set_texts_somes by (auto; rewrite HLF; symmetry; eapply F2_length; eassumption);
    now rewrite ES).
  Qed.

  Lemma gapless_fitting l : forall vs, gapless l vs -> fitting l vs.
  Proof.
    induction l as [|[a q] l IH]; intros [|v vs] H; cbn [gapless] in H; try (destruct H; fail); [constructor|].
    destruct v as [v|].
    - destruct H as [H0 H]. constructor; [intros y [= <-]; assumption|]. now apply IH.
    - destruct H as (_ & H0 & HL). constructor; [discriminate|]. clear - H0 HL. revert l HL.
      induction H0 as [|v vs -> H0 IH]; intros [|x l] HL; try discriminate; constructor; [discriminate|]. apply IH. now injection HL.
  Qed.

  Theorem gap_closes c f hh fs fs' o o' : has_form c f -> c_kind c = KCard -> Forall2 head_ok (head_parts f) hh ->
    fitting (f_fields f) fs -> gapless (f_fields f) fs' -> somes fs = somes fs' ->
    construct ext fam c (map to_arg (hh ++ fs)) = Ok o -> construct ext fam c (map to_arg (hh ++ fs')) = Ok o' ->
    length (head_text (c_kw c) (texts o')) <= 78 ->
    card_from_mcnp ext fam c (card_to_mcnp c o) = Ok (o', []).
  Proof.
    intros HF HK HH HS HG ES HC HC' HL.
    pose proof (somes_text c f hh fs fs' o o' HF HH HS (gapless_fitting _ _ HG) ES HC HC' (or_introl HK)) as E.
    assert (E' : card_to_mcnp c o = card_to_mcnp c o') by (unfold card_to_mcnp; now rewrite E).
    rewrite E'. apply (card_round_trip ext fam c f (hh ++ fs') o'); auto. exists hh, fs'. auto.
  Qed.
End Gap.

(** * Histories *)

Lemma assoc_upd n m v o : assoc n (upd m v o) = if String.eqb m n then Some v else assoc n o.
Proof.
  induction o as [|[x w] o IH]; cbn.
  - now destruct (String.eqb m n).
  - destruct (String.eqb x m) eqn:E; cbn.
    + apply String.eqb_eq in E. subst. now destruct (String.eqb m n).
    + rewrite IH. destruct (String.eqb x n) eqn:E2; auto. apply String.eqb_eq in E2. subst.
      rewrite String.eqb_sym in E. now rewrite E.
Qed.
Lemma upd_names m v o : In m (map fst o) -> map fst (upd m v o) = map fst o.
Proof.
  induction o as [|[x w] o IH]; cbn; [tauto|]. intros H. destruct (String.eqb x m) eqn:E; cbn; auto. f_equal. apply IH.
  destruct H; auto. subst. now rewrite String.eqb_refl in E.
Qed.

Definition agree (o o' : obj) (l : list string) : Prop := forall n, In n l -> assoc n o = assoc n o'.
Lemma agree_app o o' a b : agree o o' (a ++ b) <-> agree o o' a /\ agree o o' b.
Proof.
  unfold agree. split.
  - intros H. split; intros n HI; apply H, in_or_app; auto.
  - intros [H1 H2] n HI. apply in_app_or in HI as [HI|HI]; auto.
Qed.

Lemma beval_eq o x b : beval o x b =
  match b with
  | BConst c => Ok c
  | BIsNone e => bind (neval o x e) (fun p => Ok (match p with PNone => true | _ => false end))
  | BNot b => bind (beval o x b) (fun c => Ok (negb c))
  | BAnd a b => bind (beval o x a) (fun c => if c then beval o x b else Ok false)
  | BOr a b => bind (beval o x a) (fun c => if c then Ok true else beval o x b)
  | BIte b c d => bind (beval o x b) (fun z => if z then beval o x c else beval o x d)
  | BCmp op e f => bind (neval o x e) (fun p => bind (neval o x f) (fun q => compare op p q))
  | BIn e l =>
      bind (neval o x e) (fun p =>
      if hashable p then
        (fix any l := match l with
                      | [] => Ok false
                      | f :: l' => bind (neval o x f) (fun q =>
                                   bind (compare OEq p q) (fun c => if c then Ok true else any l'))
                      end) l
      else Py TypeError)
  | BJump e =>
      bind (neval o x e) (fun p => bind (value_of p) (fun q =>
      Ok (match q with PHor (HJump _) => true | _ => false end)))
  | BTruth e => bind (neval o x e) truth
  | BExt _ => Ok false
  end.
Proof. destruct b; reflexivity. Qed.

Fixpoint neval_refs (o o' : obj) (x : option val) (e : nexp) {struct e} : agree o o' (nrefs e) -> neval o x e = neval o' x e
with beval_refs (o o' : obj) (x : option val) (b : bexp) {struct b} : agree o o' (brefs b) -> beval o x b = beval o' x b.
Proof.
  - destruct e; cbn [nrefs]; intros H; try reflexivity; try (cbn [neval]; rewrite (neval_refs o o' x e H); reflexivity).
    + cbn [neval]. rewrite (H name) by (now left). reflexivity.
    + apply agree_app in H as [H1 H]. apply agree_app in H as [H2 H3].
      change (neval o x (EIte b e1 e2)) with (bind (beval o x b) (fun c => if c then neval o x e1 else neval o x e2)).
      change (neval o' x (EIte b e1 e2)) with (bind (beval o' x b) (fun c => if c then neval o' x e1 else neval o' x e2)).
      rewrite (beval_refs o o' x b H1), (neval_refs o o' x e1 H2), (neval_refs o o' x e2 H3). reflexivity.
  - destruct b; cbn [brefs]; intros H; rewrite (beval_eq o), (beval_eq o'); try reflexivity.
    + rewrite (neval_refs o o' x e H). reflexivity.
    + rewrite (beval_refs o o' x b H). reflexivity.
    + apply agree_app in H as [H1 H2]. rewrite (beval_refs o o' x b1 H1), (beval_refs o o' x b2 H2). reflexivity.
    + apply agree_app in H as [H1 H2]. rewrite (beval_refs o o' x b1 H1), (beval_refs o o' x b2 H2). reflexivity.
    + apply agree_app in H as [H1 H]. apply agree_app in H as [H2 H3].
      rewrite (beval_refs o o' x b1 H1), (beval_refs o o' x b2 H2), (beval_refs o o' x b3 H3). reflexivity.
    + apply agree_app in H as [H1 H2]. rewrite (neval_refs o o' x e H1), (neval_refs o o' x f H2). reflexivity.
    + apply agree_app in H as [H1 H2]. rewrite (neval_refs o o' x e H1).
      destruct (neval o' x e) as [p| |]; cbn [bind]; auto. destruct (hashable p); auto.
      clear - H2 neval_refs. induction l as [|f l IH]; auto. cbn [flat_map] in H2. apply agree_app in H2 as [H2 H3].
      rewrite (neval_refs o o' x f H2). rewrite (IH H3). reflexivity.
    + rewrite (neval_refs o o' x e H). reflexivity.
    + rewrite (neval_refs o o' x e H). reflexivity.
Qed.

Section Hist.
  Variable ext : string -> str -> result val.
  Variable fam : string -> list cls.

  Lemma set_attr_cases a v o : 
    (exists x, conv ext fam (a_ty a) v = Ok x /\ run_checks o x (a_checks a) = Ok tt /\ set_attr ext fam a v o = (upd (a_name a) x o, Ok tt)) \/
    (fst (set_attr ext fam a v o) = o /\ snd (set_attr ext fam a v o) <> Ok tt).
  Proof.
    unfold set_attr. destruct (conv ext fam (a_ty a) v) as [x| |]; [|right; cbn; split; [reflexivity|discriminate]..].
    destruct (run_checks o x (a_checks a)) as [[]| |] eqn:E; [left; eauto|right; cbn; split; [reflexivity|discriminate]..].
  Qed.
  Lemma run_checks_all o x l : run_checks o x l = Ok tt -> Forall (fun b => beval o x b = Ok false) l.
  Proof.
    induction l as [|b l IH]; intros H; constructor; cbn in H; destruct (beval o x b) as [[]| |]; try discriminate; auto.
  Qed.

  Lemma checks_agree o o' x a : agree o o' (refs a) -> Forall (fun b => beval o x b = Ok false) (a_checks a) ->
    Forall (fun b => beval o' x b = Ok false) (a_checks a).
  Proof.
    unfold refs. induction (a_checks a) as [|b l IH]; intros HA HF; [constructor|]. cbn [flat_map] in HA. apply agree_app in HA as [H1 H2].
    inversion HF; subst. constructor; auto. now rewrite <- (beval_refs o o' x b H1).
  Qed.

  Lemma init_ok l : forall o o', NoDup (map fst o ++ map (fun x => a_name (fst x)) l) -> init_attrs ext fam l o = Ok o' ->
    map fst o' = map fst o ++ map (fun x => a_name (fst x)) l /\
    agree o o' (map fst o) /\
    (forall l1 a v l2, l = l1 ++ (a, v) :: l2 -> incl (refs a) (map fst o ++ map (fun x => a_name (fst x)) l1) -> satisfied o' a).
  Proof.
    induction l as [|[a v] l IH]; intros o o' HN H.
    - injection H as <-. cbn. rewrite app_nil_r. split; [reflexivity|]. split; [intros n; auto|]. intros [|? ?]; discriminate.
    - cbn [init_attrs map fst] in *. destruct (set_attr_cases a v o) as [(x & E1 & E2 & E3)|(E1 & E2)].
      2:{ destruct (set_attr ext fam a v o) as [o1 [[]| |]]; cbn in *; congruence. }
      rewrite E3 in H.
      assert (HX : ~ In (a_name a) (map fst o)).
      { intros HX. apply NoDup_remove_2 in HN. apply HN. apply in_or_app. now left. }
      rewrite upd_new in H by exact HX.
      apply IH in H as (A & B & C); [|rewrite map_app, <- app_assoc; exact HN].
      rewrite map_app in *. cbn [map fst] in *.
      assert (HA : agree o o' (map fst o)).
      { intros n HI. rewrite <- (B n) by (apply in_or_app; now left).
        rewrite assoc_app. destruct (assoc n o) eqn:EN; auto. exfalso. clear - HI EN. induction o as [|[y w] o IH]; cbn in *; [tauto|].
        destruct (String.eqb y n) eqn:E; [discriminate|]. destruct HI as [->|HI]; [now rewrite String.eqb_refl in E|auto]. }
      split; [rewrite A, <- app_assoc; reflexivity|]. split; [exact HA|].
      intros l1 b w l2 EL HI. destruct l1 as [|[c u] l1].
      + injection EL as -> -> ->. exists x. split.
        * rewrite <- (B (a_name b)) by (apply in_or_app; right; now left). rewrite assoc_app.
          replace (assoc (a_name b) o) with (@None (option val)).
          2:{ symmetry. clear - HX. induction o as [|[y w] o IH]; cbn in *; auto. destruct (String.eqb y (a_name b)) eqn:E; [|tauto].
              apply String.eqb_eq in E. tauto. }
          cbn. now rewrite String.eqb_refl.
        * apply (checks_agree o); [|now apply run_checks_all]. intros n HR. apply HA. apply HI in HR. cbn in HR. now rewrite app_nil_r in HR.
      + injection EL as -> -> EL. eapply C; [exact EL|]. intros n HR. apply HI in HR. cbn in HR. rewrite <- app_assoc. exact HR.
  Qed.

  Lemma combine_fst {A B} (a : list A) (b : list B) : length b = length a -> map fst (combine a b) = a.
  Proof. revert b. induction a; intros [|y b] H; try discriminate; auto. cbn. f_equal. auto. Qed.
  Lemma names_combine (l : list attr) (args : list arg) : length args = length l ->
    map (fun x => a_name (fst x)) (combine l args) = map a_name l.
  Proof. intros H. rewrite <- (map_map fst a_name). now rewrite combine_fst. Qed.

  Lemma refs_before_split l : forall seen l1 a l2, refs_before seen l = true -> l = l1 ++ a :: l2 ->
    forall n, In n (refs a) -> In n seen \/ In n (map a_name l1).
  Proof.
    induction l as [|b l IH]; intros seen l1 a l2 H E n HI; [destruct l1; discriminate|].
    cbn [refs_before] in H. apply andb_prop in H as [H1 H2]. destruct l1 as [|c l1]; injection E as -> ->.
    - rewrite forallb_forall in H1. specialize (H1 n HI). apply existsb_exists in H1 as (m & H3 & H4). apply String.eqb_eq in H4. subst. auto.
    - destruct (IH _ l1 a l2 H2 eq_refl n HI) as [[HX|HX]|HX]; cbn; auto.
  Qed.

  Theorem constructed_satisfied c args o : NoDup (map a_name (c_attrs c)) -> refs_before [] (c_attrs c) = true ->
    length args = length (c_attrs c) -> construct ext fam c args = Ok o -> Forall (satisfied o) (c_attrs c).
  Proof.
    intros HN HR HL HC. unfold construct in HC. apply init_ok in HC as (_ & _ & HS); [|cbn; now rewrite names_combine].
    apply Forall_forall. intros a HI. apply in_split in HI as (l1 & l2 & E).
    assert (X : exists v2 args1 args2, args = args1 ++ v2 :: args2 /\ length args1 = length l1).
    { exists (nth (length l1) args ANone), (firstn (length l1) args), (skipn (S (length l1)) args).
      assert (HLL : length l1 < length args) by (rewrite HL, E, app_length; cbn; lia). split.
      - rewrite <- (firstn_skipn (length l1) args) at 1. f_equal. clear - HLL. revert args HLL. induction (length l1); intros [|y args] H; cbn in *; try lia; auto.
        apply IHn. lia.
      - rewrite firstn_length. lia. }
    destruct X as (v2 & a1 & a2 & EA & EL). eapply (HS (combine l1 a1) a v2 (combine l2 a2)).
    - rewrite E, EA, combine_app' by auto. reflexivity.
    - cbn [map app]. rewrite names_combine by auto. intros n HI. destruct (refs_before_split _ [] l1 a l2 HR E n HI) as [[]|]; auto.
  Qed.

  Lemma same_attr l a b : NoDup (map a_name l) -> In a l -> In b l -> a_name a = a_name b -> a = b.
  Proof.
    induction l as [|x l IH]; intros HN HA HB E; [destruct HA|]. inversion HN as [|? ? N1 N2]; subst.
    destruct HA as [->|HA], HB as [->|HB]; auto.
    - exfalso. apply N1. rewrite E. now apply in_map.
    - exfalso. apply N1. rewrite <- E. now apply in_map.
  Qed.

  Theorem reachable_satisfied c o : NoDup (map a_name (c_attrs c)) -> reachable ext fam c o ->
    forall a, In a (c_attrs c) -> independent a = true -> satisfied o a.
  Proof.
    intros HN HR. induction HR as [args o HL HC|b v o HR IH HB]; intros a HI HD.
    - unfold construct in HC. apply init_ok in HC as (_ & _ & HS); [|cbn; now rewrite names_combine].
      apply in_split in HI as (l1 & l2 & E).
      assert (X : exists v2 args1 args2, args = args1 ++ v2 :: args2 /\ length args1 = length l1).
      { exists (nth (length l1) args ANone), (firstn (length l1) args), (skipn (S (length l1)) args).
        assert (HLL : length l1 < length args) by (rewrite HL, E, app_length; cbn; lia). split.
        - rewrite <- (firstn_skipn (length l1) args) at 1. f_equal. clear - HLL. revert args HLL. induction (length l1); intros [|y args] H; cbn in *; try lia; auto.
          apply IHn. lia.
        - rewrite firstn_length. lia. }
      destruct X as (v2 & a1 & a2 & EA & EL). eapply (HS (combine l1 a1) a v2 (combine l2 a2)).
      + rewrite E, EA, combine_app' by auto. reflexivity.
      + unfold independent in HD. destruct (refs a); [|discriminate]. intros n [].
    - specialize (IH a HI HD). destruct (set_attr_cases b v o) as [(x & E1 & E2 & E3)|[-> _]]; auto. rewrite E3. cbn [fst].
      assert (HA : forall o o', agree o o' (refs a)).
      { unfold independent in HD. destruct (refs a); [|discriminate]. intros p q n []. }
      destruct (String.eqb (a_name b) (a_name a)) eqn:E.
      + apply String.eqb_eq in E. apply (same_attr (c_attrs c)) in E; auto. subst b. exists x. split.
        * rewrite assoc_upd, String.eqb_refl. reflexivity.
        * apply (checks_agree o); auto. now apply run_checks_all.
      + destruct IH as (w & W1 & W2). exists w. split; [rewrite assoc_upd, E; exact W1|]. now apply (checks_agree o).
  Qed.

  (** A successful assignment establishes the constraint of its attribute, whatever
      other attributes it mentions. *)
  Theorem assigned_satisfied a v o : ~ In (a_name a) (refs a) -> snd (set_attr ext fam a v o) = Ok tt ->
    satisfied (fst (set_attr ext fam a v o)) a.
  Proof.
    intros HN H. destruct (set_attr_cases a v o) as [(x & E1 & E2 & E3)|[_ X]]; [|congruence]. rewrite E3. cbn [fst].
    exists x. split; [now rewrite assoc_upd, String.eqb_refl|]. apply (checks_agree o); [|now apply run_checks_all].
    intros n HI. rewrite assoc_upd. destruct (String.eqb (a_name a) n) eqn:E; auto. apply String.eqb_eq in E. subst. tauto.
  Qed.

  (** * Rejected assignments *)

  Theorem rejected_unchanged a v o : snd (set_attr ext fam a v o) <> Ok tt -> fst (set_attr ext fam a v o) = o.
  Proof. intros H. destruct (set_attr_cases a v o) as [(x & E1 & E2 & E3)|[E _]]; auto. rewrite E3 in H. cbn in H. congruence. Qed.

  Theorem accepted_one a v o : snd (set_attr ext fam a v o) = Ok tt ->
    forall n, assoc n (fst (set_attr ext fam a v o)) = if String.eqb (a_name a) n then match conv ext fam (a_ty a) v with Ok x => Some x | _ => None end else assoc n o.
  Proof.
    intros H n. destruct (set_attr_cases a v o) as [(x & E1 & E2 & E3)|[_ X]]; [|congruence]. rewrite E3, E1. cbn [fst]. apply assoc_upd.
  Qed.

  Theorem history_accepted l : forall o, assign_all ext fam o l = assign_all ext fam o (accepted ext fam o l).
  Proof.
    induction l as [|[a v] l IH]; intros o; auto. cbn [accepted]. unfold assign_all at 1. cbn [fold_left fst snd].
    destruct (set_attr_cases a v o) as [(x & E1 & E2 & E3)|[E1 E2]].
    - rewrite E3. cbn [fst]. fold (assign_all ext fam (upd (a_name a) x o) l). rewrite IH.
      unfold assign_all at 2. cbn [fold_left fst snd]. rewrite E3. reflexivity.
    - rewrite E1. fold (assign_all ext fam o l). rewrite IH. destruct (set_attr ext fam a v o) as [o1 [[]| |]]; cbn in *; auto. congruence.
  Qed.
End Hist.
