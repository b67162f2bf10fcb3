(** Context-free reading of anchor-free expressions: which text is consumed and
    which captures are recorded; tools to compute [re_match] on symbolic text. *)

From Coq Require Import Ascii String NArith Bool Arith List Lia.
From Verif Require Import PyStr Regex RegexFacts.
Import ListNotations.

Definition capl := list (nat * str).

(** Anchor-free expressions. *)
Fixpoint plain (r : re) : bool :=
  match r with
  | REps | RSet _ => true
  | RCat a b | RAlt a b => plain a && plain b
  | RRep _ _ _ a | RGrp _ a => plain a
  | RBeg | REnd | RBehind _ _ => false
  end.

(** [W r u c]: [r] can consume [u], recording the captures [c] (latest first). *)
Fixpoint W (r : re) (u : str) (c : capl) : Prop :=
  match r with
  | REps => u = [] /\ c = []
  | RSet cs => exists x, u = [x] /\ inset cs x = true /\ c = []
  | RCat a b => exists u1 u2 c1 c2, W a u1 c1 /\ W b u2 c2 /\ u = u1 ++ u2 /\ c = c2 ++ c1
  | RAlt a b => W a u c \/ W b u c
  | RRep _ mn mx a =>
      exists l : list (str * capl),
        Forall (fun x => W a (fst x) (snd x)) l /\
        mn <= length l /\ (match mx with Some n => length l <= max mn n | None => True end) /\
        u = concat (map fst l) /\ c = concat (rev (map snd l))
  | RGrp n a => exists c', W a u c' /\ c = (n, u) :: c'
  | _ => False
  end.

Lemma firstn_consumed (u t : str) : firstn (length (u ++ t) - length t) (u ++ t) = u.
Proof.
  rewrite app_length. replace (length u + length t - length t) with (length u) by lia.
  rewrite firstn_app, Nat.sub_diag, firstn_all, firstn_O. apply app_nil_r.
Qed.

Lemma M_W r : plain r = true -> forall s s', M r s s' ->
  exists u c, W r u c /\ rest s = u ++ rest s' /\ pre s' = rev u ++ pre s /\ caps s' = c ++ caps s.
Proof.
  induction r; simpl; intros PL s s' H; try apply andb_prop in PL as [PL1 PL2]; try discriminate.
  - subst. exists [], []. auto.
  - destruct H as (x & t & E & I & ->). exists [x], []. simpl. repeat split; auto. eauto.
  - destruct H as (s1 & H1 & H2).
    apply IHr1 in H1 as (u1 & c1 & W1 & A1 & B1 & C1); auto.
    apply IHr2 in H2 as (u2 & c2 & W2 & A2 & B2 & C2); auto.
    exists (u1 ++ u2), (c2 ++ c1). repeat split.
    + exists u1, u2, c1, c2. auto.
    + now rewrite A1, A2, app_assoc.
    + now rewrite B2, B1, rev_app_distr, app_assoc.
    + now rewrite C2, C1, app_assoc.
  - destruct H as [H|H]; [apply IHr1 in H|apply IHr2 in H]; auto;
      destruct H as (u & c & HW & R); exists u, c; split; auto.
  - assert (HL : forall b s s', loopR (M r) b s s' -> exists l : list (str * capl),
        Forall (fun x => W r (fst x) (snd x)) l /\
        (match b with Some n => length l <= n | None => True end) /\
        rest s = concat (map fst l) ++ rest s' /\
        pre s' = rev (concat (map fst l)) ++ pre s /\
        caps s' = concat (rev (map snd l)) ++ caps s).
    { intros b s0 s0' HL; induction HL as [b s0|b s0 s1 Z HM P|b s0 s1 s2 Z HM P HL IHL].
      - exists []. simpl. repeat split; auto. destruct b; lia.
      - apply IHr in HM as (u & c & HW & A & B & C); auto.
        exists [(u, c)]. simpl. rewrite !app_nil_r. repeat split; auto.
        destruct b as [[|n]|]; simpl in *; try discriminate; auto; lia.
      - apply IHr in HM as (u & c & HW & A & B & C); auto.
        destruct IHL as (l & F & Hb & A2 & B2 & C2).
        exists ((u, c) :: l). simpl. repeat split; auto.
        + destruct b as [[|n]|]; simpl in *; try discriminate; auto; lia.
        + now rewrite A, A2, app_assoc.
        + now rewrite B2, B, rev_app_distr, app_assoc.
        + rewrite C2, C, concat_app. simpl. now rewrite app_nil_r, app_assoc. }
    assert (HN : forall n b s s', needR (M r) n (loopR (M r) b) s s' -> exists l : list (str * capl),
        Forall (fun x => W r (fst x) (snd x)) l /\ n <= length l /\
        (match b with Some m => length l <= n + m | None => True end) /\
        rest s = concat (map fst l) ++ rest s' /\
        pre s' = rev (concat (map fst l)) ++ pre s /\
        caps s' = concat (rev (map snd l)) ++ caps s).
    { clear s s' H. induction n as [|n IHn]; simpl; intros b s s' H.
      - apply HL in H as (l & F & Hb & R). exists l. split; [auto|split; [lia|split; [|auto]]].
        destruct b; auto.
      - destruct H as (s1 & HM & H). apply IHr in HM as (u & c & HW & A & B & C); auto.
        apply IHn in H as (l & F & Hn & Hb & A2 & B2 & C2).
        exists ((u, c) :: l). simpl. repeat split; auto.
        + lia.
        + destruct b; auto; lia.
        + now rewrite A, A2, app_assoc.
        + now rewrite B2, B, rev_app_distr, app_assoc.
        + rewrite C2, C, concat_app. simpl. now rewrite app_nil_r, app_assoc. }
    apply HN in H as (l & F & Hn & Hb & A & B & C).
    exists (concat (map fst l)), (concat (rev (map snd l))). repeat split; auto.
    exists l. repeat split; auto. unfold maxleft in Hb. destruct mx; auto. lia.
  - destruct H as (s1 & H1 & ->). apply IHr in H1 as (u & c & HW & A & B & C); auto.
    exists u, ((n, u) :: c). repeat split; auto.
    + eauto.
    + simpl. rewrite A, firstn_consumed, C. reflexivity.
Qed.

(** [accc r u c]: [r] really can consume [u] recording [c], wherever it stands. *)
Definition accc (r : re) (u : str) (c : capl) : Prop :=
  forall p t cp, M r (mkst p (u ++ t) cp) (mkst (rev u ++ p) t (c ++ cp)).

Lemma acc_accc r u : acc r u <-> accc r u [].
Proof. split; intros H p t cp; apply H. Qed.

Lemma accc_cat a b u v c d : accc a u c -> accc b v d -> accc (RCat a b) (u ++ v) (d ++ c).
Proof.
  intros HA HB p t cp. simpl. exists (mkst (rev u ++ p) (v ++ t) (c ++ cp)). split.
  - rewrite <- app_assoc. apply HA.
  - rewrite rev_app_distr, <- !app_assoc. apply HB.
Qed.
Lemma accc_altl a b u c : accc a u c -> accc (RAlt a b) u c.
Proof. intros H p t cp. left. apply H. Qed.
Lemma accc_altr a b u c : accc b u c -> accc (RAlt a b) u c.
Proof. intros H p t cp. right. apply H. Qed.
Lemma accc_grp n a u c : accc a u c -> accc (RGrp n a) u ((n, u) :: c).
Proof.
  intros H p t cp. simpl. eexists. split; [apply H|]. unfold addcap. simpl.
  now rewrite firstn_consumed.
Qed.

Lemma accc_rep lz mn mx a (l : list (str * capl)) :
  Forall (fun x => accc a (fst x) (snd x) /\ fst x <> []) l ->
  mn <= length l -> (match mx with Some n => length l <= n | None => True end) ->
  accc (RRep lz mn mx a) (concat (map fst l)) (concat (rev (map snd l))).
Proof.
  intros HF Hn Hx p t cp. cbn [M].
  assert (HL : forall l b p t cp,
    Forall (fun x => accc a (fst x) (snd x) /\ fst x <> []) l ->
    (match b with Some n => length l <= n | None => True end) ->
    loopR (M a) b (mkst p (concat (map fst l) ++ t) cp)
      (mkst (rev (concat (map fst l)) ++ p) t (concat (rev (map snd l)) ++ cp))).
  { clear. intros l b p t cp HF. revert b p cp.
    induction HF as [|[u c] l [HA HN] HF IH]; intros b p cp Hb.
    - constructor.
    - simpl in *. eapply L_step with (s1 := mkst (rev u ++ p) (concat (map fst l) ++ t) (c ++ cp)).
      + destruct b as [[|n]|]; simpl in *; auto; lia.
      + rewrite <- app_assoc. apply HA.
      + rewrite <- app_assoc. now apply progress_app.
      + rewrite rev_app_distr, <- app_assoc, concat_app. simpl. rewrite app_nil_r, <- app_assoc.
        apply IH. destruct b as [n|]; simpl in *; auto; lia. }
  assert (HN : forall n l b p t cp,
    Forall (fun x => accc a (fst x) (snd x) /\ fst x <> []) l -> n <= length l ->
    (match b with Some m => length l <= n + m | None => True end) ->
    needR (M a) n (loopR (M a) b) (mkst p (concat (map fst l) ++ t) cp)
      (mkst (rev (concat (map fst l)) ++ p) t (concat (rev (map snd l)) ++ cp))).
  { clear - HL. induction n as [|n IH]; simpl; intros l b p t cp HF Hn Hb.
    - apply HL; auto.
    - destruct l as [|[u c] l]; simpl in *; [lia|]. inversion HF as [|? ? [HA HNN] HF']; subst.
      exists (mkst (rev u ++ p) (concat (map fst l) ++ t) (c ++ cp)). split.
      + rewrite <- app_assoc. apply HA.
      + rewrite rev_app_distr, <- app_assoc, concat_app. simpl. rewrite app_nil_r, <- app_assoc.
        apply IH; auto; [lia|]. destruct b; auto; lia. }
  apply HN; auto. unfold maxleft. destruct mx; auto. lia.
Qed.

Lemma accc_opt_some lz a u c : accc a u c -> u <> [] -> accc (RRep lz 0 (Some 1) a) u c.
Proof.
  intros HA HN. pose proof (accc_rep lz 0 (Some 1) a [(u, c)]) as H. simpl in H.
  rewrite !app_nil_r in H. apply H; auto.
Qed.
Lemma accc_opt_none lz a : accc (RRep lz 0 (Some 1) a) [] [].
Proof. apply (accc_rep lz 0 (Some 1) a []); simpl; auto. Qed.

(** Whole-text patterns [\A ... \Z]. *)
Fixpoint snoc_end (r : re) : re :=
  match r with REps => REnd | RCat a b => RCat a (snoc_end b) | r => RCat r REnd end.
Definition whole (r : re) : re := RCat RBeg (snoc_end r).

Lemma M_snoc_end r s s' : M (snoc_end r) s s' <-> (M r s s' /\ rest s' = []).
Proof.
  revert s s'. induction r; intros s s'; simpl in *.
  2, 4-9: split; [intros (s1 & H1 & H2 & ->); auto | intros [H1 H2]; eexists; split; eauto; fail].
  - split; [intros [H ->]|intros [-> H]]; auto.
  - split.
    + intros (s1 & H1 & H2). apply IHr2 in H2 as [H2 H3]. split; eauto.
    + intros [(s1 & H1 & H2) H3]. exists s1. split; auto. now apply IHr2.
Qed.

(** The whole text matches with these captures, and no other reading of it records
    different captures. *)
Lemma match_whole r s c :
  plain r = true -> accc r s c -> (forall c', W r s c' -> c' = c) ->
  re_match (whole r) s = Some {| mpre := []; mtext := s; mrest := []; mcaps := c |}.
Proof.
  intros PL HA HU. unfold re_match, match_at.
  assert (E : m (whole r) (mkst [] s []) Some = Some (mkst (rev s) [] c)).
  { eapply m_unique with (s' := mkst (rev s) [] c); auto.
    - simpl. exists (mkst [] s []). split; auto. apply M_snoc_end. split; auto.
      specialize (HA [] [] []). now rewrite !app_nil_r in HA.
    - intros s1 y H1 [= <-]. simpl in H1. destruct H1 as (s0 & [_ ->] & H1).
      apply M_snoc_end in H1 as [H1 H2]. apply M_W in H1 as (u & c' & HW & A & B & C); auto.
      simpl in *. rewrite H2, app_nil_r in A. subst u. rewrite app_nil_r in B, C.
      apply HU in HW. subst c'. destruct s1; simpl in *. congruence. }
  rewrite E. simpl. rewrite Nat.sub_0_r, firstn_all. reflexivity.
Qed.

Lemma match_whole_none r s :
  plain r = true -> (forall c, ~ W r s c) -> re_match (whole r) s = None.
Proof.
  intros PL HN. unfold re_match, match_at.
  replace (m (whole r) (mkst [] s []) Some) with (@None st); auto.
  symmetry. apply m_none. intros s1 H1. exfalso. simpl in H1. destruct H1 as (s0 & [_ ->] & H1).
  apply M_snoc_end in H1 as [H1 H2]. apply M_W in H1 as (u & c' & HW & A & B & C); auto.
  simpl in A. rewrite H2, app_nil_r in A. subst u. eapply HN; eauto.
Qed.

(** Conversely a successful whole match is a reading of the whole text. *)
Lemma match_whole_inv r s o :
  plain r = true -> re_match (whole r) s = Some o -> mtext o = s /\ W r s (mcaps o).
Proof.
  intros PL H. unfold re_match, match_at in H.
  destruct (m (whole r) (mkst [] s []) Some) as [s1|] eqn:E; [|discriminate].
  inversion H; subst; simpl. apply m_sound in E as (s2 & HM & [= ->]).
  simpl in HM. destruct HM as (s0 & [_ ->] & HM).
  apply M_snoc_end in HM as [H1 H2]. apply M_W in H1 as (u & c' & HW & A & B & C); auto.
  simpl in *. rewrite H2 in *. rewrite app_nil_r in A, C. subst u c'.
  split; auto. simpl. now rewrite Nat.sub_0_r, firstn_all.
Qed.

(** * Inverting [W] *)

Lemma W_cat a b u c : W (RCat a b) u c <->
  exists u1 u2 c1 c2, W a u1 c1 /\ W b u2 c2 /\ u = u1 ++ u2 /\ c = c2 ++ c1.
Proof. reflexivity. Qed.

Lemma W_alpha r : forall u c, W r u c -> allc (alpha r) u.
Proof.
  induction r; simpl; intros u c H; try contradiction.
  - destruct H as [-> ->]. constructor.
  - destruct H as (x & -> & I & ->). repeat constructor. auto.
  - destruct H as (u1 & u2 & c1 & c2 & H1 & H2 & -> & ->). apply IHr1 in H1. apply IHr2 in H2.
    apply allc_app; split; eapply Forall_impl; try eassumption; simpl; intros ? ->;
      auto using orb_true_r.
  - destruct H as [H|H]; [apply IHr1 in H|apply IHr2 in H];
    eapply Forall_impl; try eassumption; simpl; intros ? ->; auto using orb_true_r.
  - destruct H as (l & F & _ & _ & -> & _). clear mn mx.
    induction F as [|[x y] l H F IH]; simpl; [constructor|]. apply allc_app; split; eauto.
  - destruct H as (c' & H & ->). eauto.
Qed.

Lemma W_nocap r : nocap r = true -> forall u c, W r u c -> c = [].
Proof.
  induction r; simpl; intros N u c H; try contradiction; try apply andb_prop in N as [N1 N2]; try discriminate.
  - tauto.
  - now destruct H as (x & -> & I & ->).
  - destruct H as (u1 & u2 & c1 & c2 & H1 & H2 & -> & ->).
    apply IHr1 in H1; auto. apply IHr2 in H2; auto. now subst.
  - destruct H as [H|H]; [apply IHr1 in H|apply IHr2 in H]; auto.
  - destruct H as (l & F & _ & _ & _ & ->). clear mn mx.
    induction F as [|[x y] l H F IH]; simpl in *; auto. rewrite concat_app, IH. simpl.
    apply IHr in H; auto. now subst.
Qed.

(** [must X r]: every text [r] consumes has a character in [X]. *)
Fixpoint must (X : cset) (r : re) : bool :=
  match r with
  | RSet cs => forallb (fun n => let c := ascii_of_nat n in implb (inset cs c) (inset X c)) (seq 0 256)
  | RCat a b => must X a || must X b
  | RAlt a b => must X a && must X b
  | RRep _ (S _) _ a => must X a
  | RGrp _ a => must X a
  | _ => false
  end.

Lemma all_ascii (P : ascii -> bool) :
  forallb (fun n => P (ascii_of_nat n)) (seq 0 256) = true -> forall c, P c = true.
Proof.
  intros H c. rewrite forallb_forall in H. rewrite <- (ascii_nat_embedding c).
  apply H, in_seq. pose proof (nat_ascii_bounded c). lia.
Qed.

Lemma must_W X r : must X r = true -> forall u c, W r u c -> Exists (fun x => inset X x = true) u.
Proof.
  induction r; simpl; intros H u c HW; try discriminate; try contradiction.
  - destruct HW as (x & -> & I & ->). constructor.
    apply (all_ascii (fun c => implb (inset cs c) (inset X c))) with (c := x) in H. rewrite I in H. auto.
  - destruct HW as (u1 & u2 & c1 & c2 & H1 & H2 & -> & ->). apply Exists_app.
    apply orb_prop in H as [H|H]; eauto.
  - apply andb_prop in H as [Ha Hb]. destruct HW as [HW|HW]; eauto.
  - destruct mn as [|mn]; [discriminate|]. destruct HW as (l & F & Hn & _ & -> & _).
    destruct l as [|[u c'] l]; [simpl in Hn; lia|]. simpl. apply Exists_app. left.
    inversion F; subst. eapply IHr; eauto.
  - destruct HW as (c' & HW & ->). eauto.
Qed.

(** Repetition of a single character set consumes a run of that set. *)
Lemma W_rep_set lz mn mx cs u c :
  W (RRep lz mn mx (RSet cs)) u c ->
  allc (inset cs) u /\ mn <= length u /\
  (match mx with Some n => length u <= max mn n | None => True end) /\ c = [].
Proof.
  intros (l & F & Hn & Hx & -> & ->).
  assert (E : length (concat (map fst l)) = length l /\ concat (rev (map snd l)) = []
              /\ allc (inset cs) (concat (map fst l))).
  { clear Hn Hx. induction F as [|[x y] l (z & E & I & E2) F IH]; simpl in *.
    - repeat split. constructor.
    - subst. destruct IH as (IH1 & IH2 & IH3). simpl. repeat split.
      + now rewrite IH1.
      + now rewrite concat_app, IH2.
      + constructor; auto. }
  destruct E as (E1 & E2 & E3). rewrite E1. auto.
Qed.

Lemma W_opt lz a u c : W (RRep lz 0 (Some 1) a) u c -> (u = [] /\ c = []) \/ W a u c.
Proof.
  intros (l & F & _ & Hx & -> & ->). simpl in Hx. destruct l as [|[x y] [|]]; simpl in *; try lia; auto.
  right. inversion F; subst. simpl in *. now rewrite !app_nil_r.
Qed.

(** Splitting a text at the first character outside a set. *)
Lemma split_unique (P : ascii -> bool) u v a b t t' :
  allc P u -> allc P v -> P a = false -> P b = false ->
  u ++ a :: t = v ++ b :: t' -> u = v /\ a = b /\ t = t'.
Proof.
  revert v. induction u as [|x u IH]; intros [|y v] Hu Hv Ha Hb E; simpl in *.
  - inversion E; auto.
  - exfalso. inversion E; subst. inversion Hv; subst. congruence.
  - exfalso. inversion E; subst. inversion Hu; subst. congruence.
  - inversion E; subst. inversion Hu; inversion Hv; subst.
    destruct (IH v) as (-> & -> & ->); auto.
Qed.

(** * Greedy runs *)

(** A greedy run of a set over [u ++ v ++ t] gives back [v] one character at a time
    until the continuation accepts. *)
Lemma loopg_run A cs (k : st -> option A) u v : forall t p cp x fuel,
  allc (inset cs) (u ++ v) -> (t = [] \/ exists c t', t = c :: t' /\ inset cs c = false) ->
  length (u ++ v ++ t) < fuel ->
  k (mkst (rev u ++ p) (v ++ t) cp) = Some x ->
  (forall v1 v2, v = v1 ++ v2 -> v1 <> [] -> k (mkst (rev (u ++ v1) ++ p) (v2 ++ t) cp) = None) ->
  loopg (fun s k => m (RSet cs) s k) k fuel None (mkst p (u ++ v ++ t) cp) = Some x.
Proof.
  induction u as [|a u IH].
  - (* stop point reached: every further iteration is refused *)
    assert (HF : forall v t p cp fuel,
      allc (inset cs) v -> (t = [] \/ exists c t', t = c :: t' /\ inset cs c = false) ->
      length (v ++ t) < fuel ->
      (forall v1 v2, v = v1 ++ v2 -> k (mkst (rev v1 ++ p) (v2 ++ t) cp) = None) ->
      loopg (fun s k => m (RSet cs) s k) k fuel None (mkst p (v ++ t) cp) = None).
    { clear v. induction v as [|b v IHv]; intros t p cp fuel Hv Ht Hf HN; (destruct fuel as [|f]; [simpl in Hf; lia|]).
      - specialize (HN [] [] eq_refl). simpl in *.
        destruct Ht as [->|(c & t' & -> & Hc)]; simpl in *; [auto|]. rewrite Hc. auto.
      - inversion Hv; subst. simpl. rewrite H1.
        assert (PR : progress (mkst p (b :: v ++ t) cp) (mkst (b :: p) (v ++ t) cp) = true).
        { unfold progress. simpl. apply Nat.ltb_lt. lia. }
        rewrite PR, IHv; auto.
        + apply (HN [] (b :: v) eq_refl).
        + simpl in Hf. lia.
        + intros v1 v2 ->. specialize (HN (b :: v1) v2 eq_refl). simpl in HN.
          rewrite <- app_assoc in HN. exact HN. }
    intros t p cp x fuel Hv Ht Hf HK HN. simpl in *.
    destruct fuel as [|f]; [lia|]. simpl.
    destruct v as [|b v]; simpl in *.
    + destruct Ht as [->|(c & t' & -> & Hc)]; simpl; [auto|]. now rewrite Hc.
    + inversion Hv; subst. rewrite H1.
      assert (PR : progress (mkst p (b :: v ++ t) cp) (mkst (b :: p) (v ++ t) cp) = true).
      { unfold progress. simpl. apply Nat.ltb_lt. lia. }
      rewrite PR, HF; auto; [lia|].
      intros v1 v2 ->. specialize (HN (b :: v1) v2 eq_refl). simpl in HN.
      rewrite <- app_assoc in HN. apply HN. discriminate.
  - intros t p cp x fuel Hv Ht Hf HK HN. destruct fuel as [|f]; [simpl in Hf; lia|].
    inversion Hv; subst. simpl. rewrite H1.
    assert (PR : progress (mkst p (a :: u ++ v ++ t) cp) (mkst (a :: p) (u ++ v ++ t) cp) = true).
    { unfold progress. simpl. apply Nat.ltb_lt. lia. }
    rewrite PR. erewrite IH with (x := x); eauto.
    + simpl in Hf. lia.
    + simpl in HK. rewrite <- app_assoc in HK. exact HK.
    + intros v1 v2 E HV. specialize (HN v1 v2 E HV). simpl in HN. rewrite <- app_assoc in HN. exact HN.
Qed.

Lemma m_plus_run A cs (k : st -> option A) u v t p cp x :
  u <> [] ->
  allc (inset cs) (u ++ v) -> (t = [] \/ exists c t', t = c :: t' /\ inset cs c = false) ->
  k (mkst (rev u ++ p) (v ++ t) cp) = Some x ->
  (forall v1 v2, v = v1 ++ v2 -> v1 <> [] -> k (mkst (rev (u ++ v1) ++ p) (v2 ++ t) cp) = None) ->
  m (RRep false 1 None (RSet cs)) (mkst p (u ++ v ++ t) cp) k = Some x.
Proof.
  intros HU Hv Ht HK HN. destruct u as [|a u]; [congruence|]. inversion Hv; subst.
  cbn [m need]. cbn [rest app pre caps]. rewrite H1. cbn [maxleft].
  apply loopg_run; auto.
  - simpl in HK. rewrite <- app_assoc in HK. exact HK.
  - intros v1 v2 E HV. specialize (HN v1 v2 E HV). simpl in HN. rewrite <- app_assoc in HN. exact HN.
Qed.

(** * Substitution that does nothing *)

Lemma sub_id r f (P : str -> str -> Prop) :
  (forall p c t, P p (c :: t) -> P (c :: p) t) ->
  (forall p s, P p s -> match_at r p s = None) ->
  forall s, P [] s -> sub r f s = s.
Proof.
  intros HS HN s. unfold sub. generalize (@nil ascii) as p. generalize (S (length s)) as fuel.
  intros fuel; revert s. induction fuel as [|n IH]; simpl; intros s p HP; auto.
  rewrite (HN _ _ HP). destruct s as [|c t]; auto. f_equal. apply IH. auto.
Qed.

(** No position of the text can start a match: a sufficient condition. *)
Lemma match_at_none r p s :
  plain r = true -> (forall u t c, s = u ++ t -> ~ W r u c) -> match_at r p s = None.
Proof.
  intros PL HN. unfold match_at.
  replace (m r (mkst p s []) Some) with (@None st); auto.
  symmetry. apply m_none. intros s1 H1. exfalso.
  apply M_W in H1 as (u & c & HW & A & B & C); auto. eapply HN; eauto.
Qed.
