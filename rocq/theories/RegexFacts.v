(** Facts about the matcher: a relational reading of regular expressions, its
    soundness and completeness with respect to [m], and consequences. *)

From Coq Require Import Ascii String NArith Bool Arith List Lia.
From Verif Require Import PyStr Regex.
Import ListNotations.

Inductive loopR (R : st -> st -> Prop) : option nat -> st -> st -> Prop :=
| L_stop c s : loopR R c s s
| L_zero c s s' : czero c = false -> R s s' -> progress s s' = false -> loopR R c s s'
| L_step c s s1 s2 :
    czero c = false -> R s s1 -> progress s s1 = true -> loopR R (cdec c) s1 s2 ->
    loopR R c s s2.

Fixpoint needR (R : st -> st -> Prop) (n : nat) (F : st -> st -> Prop) (s s' : st) : Prop :=
  match n with
  | O => F s s'
  | S n' => exists s1, R s s1 /\ needR R n' F s1 s'
  end.

(** [M r s s']: [r] can take the matcher from [s] to [s']. *)
Fixpoint M (r : re) (s s' : st) : Prop :=
  match r with
  | REps => s' = s
  | RSet cs => exists x t, rest s = x :: t /\ inset cs x = true /\
                           s' = mkst (x :: pre s) t (caps s)
  | RCat a b => exists s1, M a s s1 /\ M b s1 s'
  | RAlt a b => M a s s' \/ M b s s'
  | RRep lz mn mx a => needR (M a) mn (loopR (M a) (maxleft mn mx)) s s'
  | RGrp n a => exists s1, M a s s1 /\ s' = addcap n s s1
  | RBeg => pre s = [] /\ s' = s
  | REnd => rest s = [] /\ s' = s
  | RBehind neg lit => xorb neg (behind lit (pre s)) = true /\ s' = s
  end.

Definition sound {A} (body : st -> (st -> option A) -> option A) (R : st -> st -> Prop) :=
  forall s k x, body s k = Some x -> exists s', R s s' /\ k s' = Some x.

Lemma loopg_sound A (body : st -> (st -> option A) -> option A) R k :
  sound body R ->
  forall fuel c s x, loopg body k fuel c s = Some x ->
  exists s', loopR R c s s' /\ k s' = Some x.
Proof.
  intros HS; induction fuel as [|f IH]; simpl; intros c s x H.
  - exists s; split; [constructor|auto].
  - destruct (czero c) eqn:E.
    { exists s; split; [constructor|auto]. }
    destruct (body s _) eqn:B.
    + inversion H; subst. apply HS in B as (s1 & HR & HB).
      destruct (progress s s1) eqn:P.
      * apply IH in HB as (s' & HL & HK). exists s'; split; auto.
        eapply L_step; eauto.
      * exists s1; split; auto. eapply L_zero; eauto.
    + exists s; split; [constructor|auto].
Qed.

Lemma loopl_sound A (body : st -> (st -> option A) -> option A) R k :
  sound body R ->
  forall fuel c s x, loopl body k fuel c s = Some x ->
  exists s', loopR R c s s' /\ k s' = Some x.
Proof.
  intros HS; induction fuel as [|f IH]; simpl; intros c s x H.
  - exists s; split; [constructor|auto].
  - destruct (k s) eqn:K.
    { inversion H; subst. exists s; split; [constructor|auto]. }
    destruct (czero c) eqn:E; [discriminate|].
    apply HS in H as (s1 & HR & HB).
    destruct (progress s s1) eqn:P.
    * apply IH in HB as (s' & HL & HK). exists s'; split; auto.
      eapply L_step; eauto.
    * exists s1; split; auto. eapply L_zero; eauto.
Qed.

Lemma need_sound A (body : st -> (st -> option A) -> option A) R (F : st -> st -> Prop) (fin k : st -> option A) :
  sound body R ->
  (forall s x, fin s = Some x -> exists s', F s s' /\ k s' = Some x) ->
  forall n s x, need body n fin s = Some x ->
  exists s', needR R n F s s' /\ k s' = Some (x : A).
Proof.
  intros HS HF; induction n as [|n IH]; simpl; intros s x H; auto.
  apply HS in H as (s1 & HR & HB).
  apply IH in HB as (s' & HN & HK). exists s'; split; eauto.
Qed.

Theorem m_sound A r : forall s (k : st -> option A) x,
  m r s k = Some x -> exists s', M r s s' /\ k s' = Some x.
Proof.
  induction r; simpl; intros s k x H.
  - eauto.
  - destruct (rest s) as [|c t] eqn:E; [discriminate|].
    destruct (inset cs c) eqn:I; [|discriminate].
    eexists; split; [|eauto]. exists c, t; auto.
  - apply IHr1 in H as (s1 & H1 & H). apply IHr2 in H as (s2 & H2 & H). eauto.
  - destruct (m r1 s k) eqn:E.
    + inversion H; subst. apply IHr1 in E as (s' & ? & ?). eauto.
    + apply IHr2 in H as (s' & ? & ?). eauto.
  - revert H. apply need_sound; [exact IHr|]. clear s x.
    intros s x H. destruct lazy.
    + eapply loopl_sound in H; [exact H|exact IHr].
    + eapply loopg_sound in H; [exact H|exact IHr].
  - apply IHr in H as (s1 & H1 & H). eauto.
  - destruct (pre s) eqn:E; [|discriminate]. eauto.
  - destruct (rest s) eqn:E; [|discriminate]. eauto.
  - destruct (xorb neg _) eqn:E; [|discriminate]. eauto.
Qed.

Definition complete {A} (body : st -> (st -> option A) -> option A) (R : st -> st -> Prop) :=
  forall s s' k, R s s' -> k s' <> None -> body s k <> None.

Lemma loopg_complete A (body : st -> (st -> option A) -> option A) R k :
  complete body R ->
  forall c s s', loopR R c s s' -> k s' <> None ->
  forall fuel, length (rest s) < fuel -> loopg body k fuel c s <> None.
Proof.
  intros HC c s s' HL; induction HL; intros HK fuel Hf; (destruct fuel as [|f]; [lia|]); simpl.
  - destruct (czero c); auto. destruct (body s _); auto; congruence.
  - rewrite H. destruct (body s _) eqn:B; [congruence|].
    exfalso. eapply HC; [exact H0| |exact B]. simpl. rewrite H1. exact HK.
  - rewrite H. destruct (body s _) eqn:B; [congruence|].
    exfalso. eapply HC; [exact H0| |exact B]. simpl. rewrite H1. apply IHHL; auto.
    unfold progress in H1. apply Nat.ltb_lt in H1. lia.
Qed.

Lemma loopl_complete A (body : st -> (st -> option A) -> option A) R k :
  complete body R ->
  forall c s s', loopR R c s s' -> k s' <> None ->
  forall fuel, length (rest s) < fuel -> loopl body k fuel c s <> None.
Proof.
  intros HC c s s' HL; induction HL; intros HK fuel Hf; (destruct fuel as [|f]; [lia|]); simpl.
  - destruct (k s); congruence.
  - destruct (k s); [congruence|]. rewrite H. eapply HC; [exact H0|]. simpl. now rewrite H1.
  - destruct (k s); [congruence|]. rewrite H. eapply HC; [exact H0|]. simpl. rewrite H1.
    apply IHHL; auto. unfold progress in H1. apply Nat.ltb_lt in H1. lia.
Qed.

Lemma need_complete A (body : st -> (st -> option A) -> option A) R (F : st -> st -> Prop) (fin : st -> option A) (k : st -> option A) :
  complete body R ->
  (forall s s', F s s' -> k s' <> None -> fin s <> None) ->
  forall n s s', needR R n F s s' -> k s' <> None -> need body n fin s <> None.
Proof.
  intros HC HF; induction n as [|n IH]; simpl; intros s s' H HK; eauto.
  destruct H as (s1 & HR & H). eapply HC; eauto.
Qed.

Theorem m_complete A r : forall s s' (k : st -> option A),
  M r s s' -> k s' <> None -> m r s k <> None.
Proof.
  induction r; simpl; intros s s' k H HK.
  - now subst.
  - destruct H as (x & t & E & I & ->). now rewrite E, I.
  - destruct H as (s1 & H1 & H2). eauto.
  - destruct H as [H|H].
    + specialize (IHr1 _ _ k H HK). destruct (m r1 s k); congruence.
    + specialize (IHr2 _ _ k H HK). destruct (m r1 s k); congruence.
  - eapply need_complete with (F := loopR (M r) (maxleft mn mx)); eauto.
    intros s1 s2 HL HK2. destruct lazy.
    + eapply loopl_complete; eauto.
    + eapply loopg_complete; eauto.
  - destruct H as (s1 & H1 & ->). eapply IHr; eauto.
  - destruct H as (E & ->). now rewrite E.
  - destruct H as (E & ->). now rewrite E.
  - destruct H as (E & ->). now rewrite E.
Qed.

(** [m] fails exactly when every relational result is refused by [k]. *)
Lemma m_none A r s (k : st -> option A) :
  m r s k = None <-> (forall s', M r s s' -> k s' = None).
Proof.
  split.
  - intros H s' HM. destruct (k s') eqn:E; auto. exfalso.
    eapply m_complete; [exact HM| |exact H]. congruence.
  - intros H. destruct (m r s k) eqn:E; auto.
    apply m_sound in E as (s' & HM & HK). rewrite H in HK; congruence.
Qed.

(** If all relational results accepted by [k] give the same answer, that is the
    answer. *)
Lemma m_unique A r s (k : st -> option A) s' x :
  M r s s' -> k s' = Some x ->
  (forall s1 y, M r s s1 -> k s1 = Some y -> y = x) ->
  m r s k = Some x.
Proof.
  intros HM HK HU. destruct (m r s k) eqn:E.
  - apply m_sound in E as (s1 & H1 & H2). f_equal. eauto.
  - exfalso. eapply m_complete; eauto. congruence.
Qed.

(** * Consumption *)

Definition consumes (s s' : st) (u : str) : Prop :=
  rest s = u ++ rest s' /\ pre s' = rev u ++ pre s.

Lemma consumes_refl s : consumes s s [].
Proof. split; reflexivity. Qed.

Lemma consumes_trans s s1 s2 u v :
  consumes s s1 u -> consumes s1 s2 v -> consumes s s2 (u ++ v).
Proof.
  intros [A B] [C D]; split.
  - now rewrite A, C, app_assoc.
  - rewrite D, B, rev_app_distr, app_assoc. reflexivity.
Qed.

(** The set of characters a regular expression can consume. *)
Fixpoint alpha (r : re) (c : ascii) : bool :=
  match r with
  | RSet cs => inset cs c
  | RCat a b | RAlt a b => alpha a c || alpha b c
  | RRep _ _ _ a | RGrp _ a => alpha a c
  | _ => false
  end.

Definition allc (P : ascii -> bool) (u : str) : Prop := Forall (fun c => P c = true) u.

Lemma allc_app P u v : allc P (u ++ v) <-> allc P u /\ allc P v.
Proof. apply Forall_app. Qed.

Lemma M_consumes r : forall s s', M r s s' ->
  exists u, consumes s s' u /\ allc (alpha r) u.
Proof.
  induction r; simpl; intros s s' H.
  - subst. exists []; split; [apply consumes_refl|constructor].
  - destruct H as (x & t & E & I & ->). exists [x]. repeat split; simpl; auto.
    constructor; auto.
  - destruct H as (s1 & H1 & H2).
    apply IHr1 in H1 as (u & C1 & A1). apply IHr2 in H2 as (v & C2 & A2).
    exists (u ++ v); split; [eapply consumes_trans; eauto|].
    apply allc_app; split; eapply Forall_impl; try eassumption; simpl; intros c ->;
      auto using orb_true_r.
  - destruct H as [H|H]; [apply IHr1 in H|apply IHr2 in H];
      destruct H as (u & C & A); exists u; split; auto;
      eapply Forall_impl; try eassumption; simpl; intros c ->; auto using orb_true_r.
  - assert (HL : forall c s s', loopR (M r) c s s' ->
               exists u, consumes s s' u /\ allc (alpha r) u).
    { intros c s0 s0' HL; induction HL; [exists []; split; [apply consumes_refl|constructor]|eauto|].
      destruct IHHL as (v & C2 & A2). apply IHr in H1 as (u & C1 & A1).
      exists (u ++ v); split; [eapply consumes_trans; eauto|]. now apply allc_app. }
    revert H. generalize (maxleft mn mx) as c. revert s s'.
    induction mn as [|n IH]; simpl; intros s s' c H; eauto.
    destruct H as (s1 & H1 & H2). apply IHr in H1 as (u & C1 & A1).
    apply IH in H2 as (v & C2 & A2).
    exists (u ++ v); split; [eapply consumes_trans; eauto|]. now apply allc_app.
  - destruct H as (s1 & H1 & ->). apply IHr in H1 as (u & [C1 C2] & A).
    exists u; split; [|auto]. split; simpl; auto.
  - destruct H as (E & ->). exists []; split; [apply consumes_refl|constructor].
  - destruct H as (E & ->). exists []; split; [apply consumes_refl|constructor].
  - destruct H as (E & ->). exists []; split; [apply consumes_refl|constructor].
Qed.

(** Capture-free expressions leave the captures alone. *)
Fixpoint nocap (r : re) : bool :=
  match r with
  | RGrp _ _ => false
  | RCat a b | RAlt a b => nocap a && nocap b
  | RRep _ _ _ a => nocap a
  | _ => true
  end.

Lemma M_nocap r : nocap r = true -> forall s s', M r s s' -> caps s' = caps s.
Proof.
  induction r; simpl; intros N s s' H; try apply andb_prop in N; try discriminate.
  - now subst.
  - now destruct H as (x & t & E & I & ->).
  - destruct H as (s1 & H1 & H2). erewrite <- (IHr1 (proj1 N) s s1), (IHr2 (proj2 N) s1 s'); eauto.
  - destruct H; [apply IHr1|apply IHr2]; tauto.
  - assert (HL : forall c s s', loopR (M r) c s s' -> caps s' = caps s).
    { intros c s0 s0' HL; induction HL; eauto. rewrite IHHL. eauto. }
    revert s s' H. generalize (maxleft mn mx) as c. induction mn as [|n IH]; simpl; intros c s s' H; eauto.
    destruct H as (s1 & H1 & H2). rewrite (IH _ _ _ H2). eauto.
  - now destruct H as (_ & ->).
  - now destruct H as (_ & ->).
  - now destruct H as (_ & ->).
Qed.

(** * Tokens *)

(** A state is at a word boundary when the text ends or a blank follows. *)
Definition bnd (t : str) : Prop := t = [] \/ exists t', t = sp :: t'.

Definition nosp (u : str) : Prop := allc (fun c => negb (ceqb c sp)) u.

Lemma nosp_split u v t t' :
  nosp u -> nosp v -> bnd t -> bnd t' -> u ++ t = v ++ t' -> u = v /\ t = t'.
Proof.
  revert v. induction u as [|a u IH]; intros [|b v] Hu Hv Ht Ht' E; simpl in *.
  - auto.
  - exfalso. destruct Ht as [Ht|(x & Ht)]; rewrite Ht in E; [discriminate|].
    inversion E; subst. inversion Hv as [|? ? H1]. unfold ceqb in H1.
    now rewrite (Ascii.eqb_refl sp) in H1.
  - exfalso. destruct Ht' as [Ht'|(x & Ht')]; rewrite Ht' in E; [discriminate|].
    inversion E; subst. inversion Hu as [|? ? H1]. unfold ceqb in H1.
    now rewrite (Ascii.eqb_refl sp) in H1.
  - inversion E; subst. inversion Hu; inversion Hv; subst.
    destruct (IH v) as [-> ->]; auto.
Qed.

(** [acc r u]: the capture-free expression [r] can consume exactly [u], wherever
    it stands. *)
Definition acc (r : re) (u : str) : Prop :=
  forall p t cp, M r (mkst p (u ++ t) cp) (mkst (rev u ++ p) t cp).

Lemma st_eta s : mkst (pre s) (rest s) (caps s) = s.
Proof. now destruct s. Qed.

Lemma M_result r s s' : nocap r = true -> M r s s' ->
  exists u, rest s = u ++ rest s' /\ s' = mkst (rev u ++ pre s) (rest s') (caps s)
            /\ allc (alpha r) u.
Proof.
  intros N H. destruct (M_consumes _ _ _ H) as (u & [C1 C2] & A).
  exists u; repeat split; auto. rewrite <- C2, <- (M_nocap _ N _ _ H). now rewrite st_eta.
Qed.

Lemma allc_nosp r u : alpha r sp = false -> allc (alpha r) u -> nosp u.
Proof.
  intros H A. eapply Forall_impl; [|exact A]. simpl; intros c Hc.
  destruct (ceqb c sp) eqn:E; auto. apply Ascii.eqb_eq in E. subst. congruence.
Qed.

(** Matching a blank-free token followed by a boundary: when the continuation
    insists on a boundary, the whole token is matched or nothing is. *)
Lemma m_token A r p u t cp (k : st -> option A) :
  nocap r = true -> alpha r sp = false -> nosp u -> bnd t ->
  acc r u ->
  (forall s, k s <> None -> bnd (rest s)) ->
  m r (mkst p (u ++ t) cp) k = k (mkst (rev u ++ p) t cp).
Proof.
  intros N AL Hu Ht HA HK.
  assert (HU : forall s1, M r (mkst p (u ++ t) cp) s1 -> k s1 <> None ->
            s1 = mkst (rev u ++ p) t cp).
  { intros s1 H1 K1. destruct (M_result _ _ _ N H1) as (v & E & -> & Av).
    simpl in *. apply HK in K1. simpl in K1.
    destruct (nosp_split u v t (rest s1)) as [-> ->]; auto. eapply allc_nosp; eauto. }
  destruct (k (mkst (rev u ++ p) t cp)) eqn:E.
  - eapply m_unique; [apply HA|exact E|].
    intros s1 y H1 K1. rewrite (HU s1) in K1; congruence.
  - apply m_none. intros s' H'. destruct (k s') eqn:E'; auto.
    rewrite (HU s') in E'; congruence.
Qed.

(** If no match of [r] consumes exactly [u], a token [u] followed by a boundary
    is refused. *)
Definition rej (r : re) (u : str) : Prop :=
  forall p t cp cp', ~ M r (mkst p (u ++ t) cp) (mkst (rev u ++ p) t cp').

Lemma m_token_rej A r p u t cp (k : st -> option A) :
  nocap r = true -> alpha r sp = false -> nosp u -> bnd t ->
  rej r u ->
  (forall s, k s <> None -> bnd (rest s)) ->
  m r (mkst p (u ++ t) cp) k = None.
Proof.
  intros N AL Hu Ht HR HK. apply m_none. intros s1 H1.
  destruct (k s1) eqn:E; auto. exfalso.
  destruct (M_result _ _ _ N H1) as (v & Ev & E1 & Av). simpl in *.
  assert (B : bnd (rest s1)) by (apply HK; congruence).
  destruct (nosp_split u v t (rest s1)) as [-> ->]; auto. { eapply allc_nosp; eauto. }
  rewrite E1 in H1. exact (HR _ _ _ _ H1).
Qed.

(** * Acceptance lemmas *)

Lemma acc_set cs c : inset cs c = true -> acc (RSet cs) [c].
Proof. intros H p t cp. simpl. exists c, t. auto. Qed.

Lemma acc_cat a b u v : acc a u -> acc b v -> acc (RCat a b) (u ++ v).
Proof.
  intros HA HB p t cp. simpl. exists (mkst (rev u ++ p) (v ++ t) cp). split.
  - rewrite <- app_assoc. apply HA.
  - rewrite rev_app_distr, <- app_assoc. apply HB.
Qed.

Lemma acc_altl a b u : acc a u -> acc (RAlt a b) u.
Proof. intros H p t cp. left. apply H. Qed.
Lemma acc_altr a b u : acc b u -> acc (RAlt a b) u.
Proof. intros H p t cp. right. apply H. Qed.

Lemma acc_eps : acc REps [].
Proof. intros p t cp. reflexivity. Qed.

Lemma progress_app p u t cp p' cp' :
  u <> [] -> progress (mkst p (u ++ t) cp) (mkst p' t cp') = true.
Proof.
  intros H. unfold progress. simpl. apply Nat.ltb_lt. rewrite app_length.
  destruct u; [congruence|]. simpl; lia.
Qed.

(** A repetition accepts any concatenation of enough accepted non-empty pieces. *)
Lemma loopR_pieces a us :
  Forall (fun u => acc a u /\ u <> []) us ->
  forall c p t cp, (match c with Some n => length us <= n | None => True end) ->
  loopR (M a) c (mkst p (concat us ++ t) cp) (mkst (rev (concat us) ++ p) t cp).
Proof.
  induction 1 as [|u us [HA HN] HF IH]; intros c p t cp Hc.
  - constructor.
  - eapply L_step with (s1 := mkst (rev u ++ p) (concat us ++ t) cp).
    + destruct c as [[|n]|]; simpl in *; auto; lia.
    + simpl. rewrite <- app_assoc. apply HA.
    + simpl. rewrite <- app_assoc. now apply progress_app.
    + simpl. rewrite rev_app_distr, <- app_assoc. apply IH.
      destruct c as [n|]; simpl in *; auto; lia.
Qed.

Lemma needR_pieces a us vs (F : st -> st -> Prop) :
  Forall (fun u => acc a u) us ->
  forall p t cp,
  (forall p', F (mkst p' (concat vs ++ t) cp) (mkst (rev (concat vs) ++ p') t cp)) ->
  needR (M a) (length us) F (mkst p (concat (us ++ vs) ++ t) cp)
        (mkst (rev (concat (us ++ vs)) ++ p) t cp).
Proof.
  induction 1 as [|u us HA HF IH]; intros p t cp HV; simpl.
  - apply HV.
  - exists (mkst (rev u ++ p) (concat (us ++ vs) ++ t) cp). split.
    + rewrite <- app_assoc. apply HA.
    + rewrite rev_app_distr, <- app_assoc. apply IH, HV.
Qed.

Lemma acc_rep lz mn mx a us :
  Forall (fun u => acc a u /\ u <> []) us ->
  mn <= length us -> (match mx with Some n => length us <= n | None => True end) ->
  acc (RRep lz mn mx a) (concat us).
Proof.
  intros HF Hn Hx p t cp. cbn [M].
  rewrite <- (firstn_skipn mn us) in HF |- *. apply Forall_app in HF as [H1 H2].
  replace mn with (length (firstn mn us)) at 1 by (rewrite firstn_length; lia).
  apply needR_pieces.
  - eapply Forall_impl; [|exact H1]. simpl; tauto.
  - intros p'. apply loopR_pieces; auto.
    destruct mx as [n|]; simpl; auto. rewrite skipn_length. lia.
Qed.

Lemma acc_star_set lz cs u :
  allc (inset cs) u -> acc (RRep lz 0 None (RSet cs)) u.
Proof.
  intros H. replace u with (concat (map (fun c => [c]) u)).
  - apply acc_rep; auto; [|lia]. apply Forall_map. eapply Forall_impl; [|exact H].
    simpl; intros c Hc. split; [now apply acc_set|discriminate].
  - clear. induction u; simpl; congruence.
Qed.

Lemma acc_plus_set lz cs u :
  allc (inset cs) u -> u <> [] -> acc (RRep lz 1 None (RSet cs)) u.
Proof.
  intros H HN. replace u with (concat (map (fun c => [c]) u)).
  - apply acc_rep; auto.
    + apply Forall_map. eapply Forall_impl; [|exact H].
      simpl; intros c Hc. split; [now apply acc_set|discriminate].
    + rewrite map_length. destruct u; [congruence|simpl; lia].
  - clear. induction u; simpl; congruence.
Qed.

Lemma acc_opt_none lz a : acc (RRep lz 0 (Some 1) a) [].
Proof. apply (acc_rep lz 0 (Some 1) a []); simpl; auto. Qed.

Lemma acc_opt_some lz a u : acc a u -> u <> [] -> acc (RRep lz 0 (Some 1) a) u.
Proof.
  intros HA HN. replace u with (concat [u]) by (simpl; apply app_nil_r).
  apply acc_rep; simpl; auto.
Qed.
