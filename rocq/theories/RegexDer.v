(** A test that an expression matches no text with a given beginning: partial
    derivatives by sets of characters.  Used only in proofs. *)

From Coq Require Import Ascii String NArith Bool Arith List Lia.
From Verif Require Import PyStr Regex RegexFacts.
Import ListNotations.

(** [V r u]: [r] may consume [u] (anchors and look-behinds are taken to hold). *)
Fixpoint V (r : re) (u : str) : Prop :=
  match r with
  | RSet cs => exists x, u = [x] /\ inset cs x = true
  | RCat a b => exists u1 u2, V a u1 /\ V b u2 /\ u = u1 ++ u2
  | RAlt a b => V a u \/ V b u
  | RRep _ mn mx a =>
      exists l : list str, Forall (V a) l /\ mn <= length l /\
        (match mx with Some n => length l <= max mn n | None => True end) /\ u = concat l
  | RGrp _ a => V a u
  | _ => u = []
  end.

Lemma M_V r : forall s s', M r s s' -> exists u, V r u /\ rest s = u ++ rest s'.
Proof.
  induction r; cbn [M V]; intros s s' H.
  - subst. exists []. auto.
  - destruct H as (x & t & E & I & ->). exists [x]. split; eauto.
  - destruct H as (s1 & H1 & H2). apply IHr1 in H1 as (u1 & V1 & E1). apply IHr2 in H2 as (u2 & V2 & E2).
    exists (u1 ++ u2). split; [eauto|]. now rewrite E1, E2, app_assoc.
  - destruct H as [H|H]; [apply IHr1 in H|apply IHr2 in H]; destruct H as (u & HV & E); exists u; auto.
  - assert (HL : forall b s s', loopR (M r) b s s' -> exists l : list str,
        Forall (V r) l /\ (match b with Some n => length l <= n | None => True end) /\ rest s = concat l ++ rest s').
    { intros b s0 s0' HL; induction HL as [b s0|b s0 s1 Z HM P|b s0 s1 s2 Z HM P HL IHL].
      - exists []. repeat split; auto. destruct b; cbn; lia.
      - apply IHr in HM as (u & HV & E). exists [u]. cbn [concat]. rewrite app_nil_r. repeat split; auto.
        destruct b as [[|n]|]; cbn in *; try discriminate; auto; lia.
      - apply IHr in HM as (u & HV & E). destruct IHL as (l & F & Hb & E2).
        exists (u :: l). repeat split; auto.
        + destruct b as [[|n]|]; cbn in *; try discriminate; auto; lia.
        + cbn [concat]. now rewrite E, E2, app_assoc. }
    assert (HN : forall n b s s', needR (M r) n (loopR (M r) b) s s' -> exists l : list str,
        Forall (V r) l /\ n <= length l /\ (match b with Some m => length l <= n + m | None => True end) /\ rest s = concat l ++ rest s').
    { clear s s' H. induction n as [|n IHn]; cbn [needR]; intros b s s' H.
      - apply HL in H as (l & F & Hb & R). exists l. repeat split; auto; lia.
      - destruct H as (s1 & HM & H). apply IHr in HM as (u & HV & E). apply IHn in H as (l & F & Hn & Hb & E2).
        exists (u :: l). cbn [length]. repeat split; auto.
        + lia.
        + destruct b; auto; lia.
        + cbn [concat]. now rewrite E, E2, app_assoc. }
    apply HN in H as (l & F & Hn & Hb & E). exists (concat l). split; auto. exists l. repeat split; auto.
    unfold maxleft in Hb. destruct mx; auto. lia.
  - destruct H as (s1 & H1 & ->). apply IHr in H1. exact H1.
  - destruct H as (_ & ->). exists []. auto.
  - destruct H as (_ & ->). exists []. auto.
  - destruct H as (_ & ->). exists []. auto.
Qed.

Fixpoint null (r : re) : bool :=
  match r with
  | RSet _ => false
  | RCat a b => null a && null b
  | RAlt a b => null a || null b
  | RRep _ mn _ a => (mn =? 0) || null a
  | RGrp _ a => null a
  | _ => true
  end.

Fixpoint pd (S : list ascii) (r : re) : list re :=
  match r with
  | RSet cs => if existsb (inset cs) S then [REps] else []
  | RCat a b => map (fun x => RCat x b) (pd S a) ++ (if null a then pd S b else [])
  | RAlt a b => pd S a ++ pd S b
  | RRep lz mn mx a =>
      match mn, mx with
      | 0, Some 0 => []
      | _, _ =>
          let r' := RRep lz (if null a then 0 else pred mn) (match mx with Some n => Some (pred (max mn n)) | None => None end) a in
          map (fun x => RCat x r') (pd S a)
      end
  | RGrp _ a => pd S a
  | _ => []
  end.

Lemma null_V r : V r [] -> null r = true.
Proof.
  induction r; cbn [V null]; intros H; auto.
  - destruct H as (x & E & _). discriminate.
  - destruct H as (u1 & u2 & H1 & H2 & E). symmetry in E. apply app_eq_nil in E as [-> ->]. now rewrite IHr1, IHr2.
  - apply orb_true_iff. destruct H; auto.
  - apply orb_true_iff. destruct H as (l & F & HN & _ & E). destruct l as [|u l]; [left; apply Nat.eqb_eq; cbn in HN; lia|right].
    symmetry in E. apply app_eq_nil in E as [-> _]. apply IHr. now inversion F.
Qed.

Lemma pd_V S r : forall c u, In c S -> V r (c :: u) -> Exists (fun x => V x u) (pd S r).
Proof.
  induction r; cbn [V pd]; intros c u HS H; try discriminate.
  - destruct H as (x & [= <- ->] & HI). replace (existsb (inset cs) S) with true; [now constructor|].
    symmetry. apply existsb_exists. eauto.
  - destruct H as (u1 & u2 & H1 & H2 & E). apply Exists_app. destruct u1 as [|x u1].
    + right. apply null_V in H1. rewrite H1. cbn in E. subst u2. eauto.
    + left. injection E as <- ->. apply Exists_exists. destruct (proj1 (Exists_exists _ _) (IHr1 _ _ HS H1)) as (y & HY & VY).
      exists (RCat y r2). split; [now apply (in_map (fun x => RCat x r2))|]. cbn [V]. eauto.
  - apply Exists_app. destruct H; eauto.
  - destruct H as (l & F & HN & HM & E).
    assert (X : exists v l', V r (c :: v) /\ Forall (V r) l' /\ u = v ++ concat l' /\ length l' < length l /\ (length l <> Datatypes.S (length l') -> null r = true)).
    { clear HN HM. revert E. induction F as [|w l HW F IH]; intros E; [discriminate|]. destruct w as [|x w].
      - cbn in E. destruct (IH E) as (v & l' & A & B & C & D & G). exists v, l'. cbn [length]. repeat split; auto. intros _. now apply null_V.
      - injection E as <- ->. exists w, l. cbn [length]. split; [exact HW|]. split; [exact F|]. split; [reflexivity|]. split; [lia|]. intros X; now contradiction X. }
    destruct X as (v & l' & HV & F' & -> & LT & NN).
    assert (Y : Exists (fun x => V x (v ++ concat l')) (map (fun x => RCat x (RRep lazy (if null r then 0 else pred mn) (match mx with Some n => Some (pred (max mn n)) | None => None end) r)) (pd S r))).
    { apply Exists_exists. destruct (proj1 (Exists_exists _ _) (IHr _ _ HS HV)) as (y & HY & VY).
      eexists. split; [apply in_map; exact HY|]. exists v, (concat l'). split; auto. split; auto. exists l'. split; auto. split; [|split; auto].
      - destruct (null r) eqn:N; [lia|]. destruct (Nat.eq_dec (length l) (Datatypes.S (length l'))) as [Q|Q]; [lia|]. specialize (NN Q). discriminate.
      - destruct mx; auto. lia. }
    destruct mn as [|mn]; [|exact Y]. destruct mx as [[|n]|]; try exact Y. cbn in HM. lia.
  - eauto.
Qed.

(** Texts with a given beginning, and texts given as a whole. *)
Fixpoint begins (P : list (list ascii)) (s : str) : Prop :=
  match P, s with
  | [], _ => True
  | X :: P', c :: t => In c X /\ begins P' t
  | _ :: _, [] => False
  end.
Definition ders (P : list (list ascii)) (rs : list re) : list re := fold_left (fun rs X => flat_map (pd X) rs) P rs.
Definition refuses (P : list (list ascii)) (r : re) : bool := match ders P [r] with [] => true | _ => false end.
Definition refuses_whole (P : list (list ascii)) (r : re) : bool := negb (existsb null (ders P [r])).

Lemma ders_V P : forall rs s, begins P s -> Exists (fun x => V x s) rs -> exists t, Exists (fun x => V x t) (ders P rs) /\ t = skipn (length P) s.
Proof.
  induction P as [|X P IH]; intros rs s HB H; [exists s; auto|]. destruct s as [|c s]; [destruct HB|]. destruct HB as [HS HB]. cbn [ders fold_left length skipn].
  apply IH; auto. apply Exists_exists. apply Exists_exists in H as (x & HX & HV). apply (pd_V X) in HV; auto. apply Exists_exists in HV as (y & HY & VY).
  exists y. split; auto. apply in_flat_map. eauto.
Qed.

(** The expression ends with [\Z]. *)
Fixpoint ends_z (r : re) : bool := match r with RCat _ b => ends_z b | REnd => true | _ => false end.
Lemma ends_z_M r : ends_z r = true -> forall s s', M r s s' -> rest s' = [].
Proof.
  induction r; cbn [ends_z M]; intros H s s' HM; try discriminate; eauto.
  - destruct HM as (s1 & _ & HM). eauto.
  - destruct HM as (E & ->). exact E.
Qed.

Lemma match_V r s o : ends_z r = true -> re_match r s = Some o -> V r s.
Proof.
  intros HZ H. unfold re_match, match_at in H. destruct (m r (mkst [] s []) Some) as [s'|] eqn:E; [|discriminate].
  apply m_sound in E as (s1 & HM & [= <-]). pose proof (ends_z_M r HZ _ _ HM) as E. apply M_V in HM as (u & HV & EU). cbn [rest] in EU. rewrite E, app_nil_r in EU. now subst.
Qed.
Theorem refuses_ok P r s : ends_z r = true -> refuses P r = true -> begins P s -> re_match r s = None.
Proof.
  intros HZ HR HB. destruct (re_match r s) as [o|] eqn:E; auto. apply match_V in E; auto.
  destruct (ders_V P [r] s HB) as (t & HE & _); [auto|]. unfold refuses in HR. destruct (ders P [r]); [inversion HE|discriminate].
Qed.
Theorem refuses_whole_ok P r s : ends_z r = true -> refuses_whole P r = true -> begins P s -> length s = length P -> re_match r s = None.
Proof.
  intros HZ HR HB HL. destruct (re_match r s) as [o|] eqn:E; auto. apply match_V in E; auto.
  destruct (ders_V P [r] s HB) as (t & HE & ET); [auto|]. rewrite <- HL, skipn_all in ET. subst t. unfold refuses_whole in HR. apply negb_true_iff in HR.
  apply Exists_exists in HE as (x & HX & HV). apply null_V in HV.
  assert (X : existsb null (ders P [r]) = true) by (apply existsb_exists; eauto). congruence.
Qed.
(** Without [\Z]. *)
Definition anything : re := RRep false 0 None (RSet {| cneg := true; cranges := [] |}).
Lemma match_open r s o : re_match r s = Some o -> V (RCat r anything) s.
Proof.
  intros E. unfold re_match, match_at in E. destruct (m r (mkst [] s []) Some) as [s'|] eqn:EM; [|discriminate].
  apply m_sound in EM as (s1 & HM & _). apply M_V in HM as (u & HV & EU). cbn [rest] in EU.
  exists u, (rest s1). split; auto. split; auto. exists (map (fun c => [c]) (rest s1)). split; [|split; [cbn; lia|split; auto]].
  - apply Forall_map, Forall_forall. intros c _. exists c. auto.
  - clear. induction (rest s1) as [|c t IH]; cbn; congruence.
Qed.
Theorem refuses_open_ok P r s : refuses P (RCat r anything) = true -> begins P s -> re_match r s = None.
Proof.
  intros HR HB. destruct (re_match r s) as [o|] eqn:E; auto. apply match_open in E.
  destruct (ders_V P [RCat r anything] s HB) as (t & HE & _); [auto|]. unfold refuses in HR. destruct (ders P _); [inversion HE|discriminate].
Qed.

(** ** Two expressions that match no common text *)

(** First characters, and what is left after one. *)
Definition scat (a b : re) : re := match a with REps => b | _ => RCat a b end.
Fixpoint lf (r : re) : list (cset * re) :=
  match r with
  | RSet cs => [(cs, REps)]
  | RCat a b => map (fun x => (fst x, scat (snd x) b)) (lf a) ++ (if null a then lf b else [])
  | RAlt a b => lf a ++ lf b
  | RRep lz mn mx a =>
      match mn, mx with
      | 0, Some 0 => []
      | _, _ =>
          let r' := RRep lz (if null a then 0 else pred mn) (match mx with Some n => Some (pred (max mn n)) | None => None end) a in
          map (fun x => (fst x, scat (snd x) r')) (lf a)
      end
  | RGrp _ a => lf a
  | _ => []
  end.

Lemma scat_V a b u : V (RCat a b) u -> V (scat a b) u.
Proof. destruct a; auto. intros (u1 & u2 & -> & H & ->). exact H. Qed.
Lemma lf_V r : forall c u, V r (c :: u) -> exists cs r', In (cs, r') (lf r) /\ inset cs c = true /\ V r' u.
Proof.
  induction r; cbn [V lf]; intros c u H; try discriminate.
  - destruct H as (x & [= <- ->] & HI). exists cs, REps. cbn. auto.
  - destruct H as (u1 & u2 & H1 & H2 & E). destruct u1 as [|x u1].
    + cbn in E. subst u2. destruct (IHr2 _ _ H2) as (cs & r' & A & B & C). exists cs, r'. split; auto. apply in_or_app. right. apply null_V in H1. now rewrite H1.
    + injection E as <- ->. destruct (IHr1 _ _ H1) as (cs & r' & A & B & C). exists cs, (scat r' r2). split; [|split; [auto|apply scat_V]].
      * apply in_or_app. left. now apply (in_map (fun x => (fst x, scat (snd x) r2))) in A.
      * exists u1, u2. auto.
  - destruct H as [H|H]; [destruct (IHr1 _ _ H) as (cs & r' & A & B)|destruct (IHr2 _ _ H) as (cs & r' & A & B)]; exists cs, r'; split; auto; apply in_or_app; auto.
  - destruct H as (l & F & HN & HM & E).
    assert (X : exists v l', V r (c :: v) /\ Forall (V r) l' /\ u = v ++ concat l' /\ length l' < length l /\ (length l <> S (length l') -> null r = true)).
    { clear HN HM. revert E. induction F as [|w l HW F IH]; intros E; [discriminate|]. destruct w as [|x w].
      - cbn in E. destruct (IH E) as (v & l' & A & B & C & D & G). exists v, l'. cbn [length]. repeat split; auto. intros _. now apply null_V.
      - injection E as <- ->. exists w, l. cbn [length]. split; [exact HW|]. split; [exact F|]. split; [reflexivity|]. split; [lia|]. intros X; now contradiction X. }
    destruct X as (v & l' & HV & F' & -> & LT & NN). destruct (IHr _ _ HV) as (cs & r' & A & B & C).
    set (q := RRep lazy (if null r then 0 else pred mn) (match mx with Some n => Some (pred (max mn n)) | None => None end) r).
    assert (Y : In (cs, scat r' q) (map (fun x => (fst x, scat (snd x) q)) (lf r))) by (now apply (in_map (fun x => (fst x, scat (snd x) q))) in A).
    assert (Z : V (scat r' q) (v ++ concat l')).
    { apply scat_V. exists v, (concat l'). split; auto. split; auto. exists l'. split; auto. split; [|split; auto].
      - destruct (null r) eqn:N; [lia|]. destruct (Nat.eq_dec (length l) (S (length l'))) as [Q|Q]; [lia|]. specialize (NN Q). discriminate.
      - destruct mx; auto. lia. }
    exists cs, (scat r' q). split; auto. destruct mn as [|mn]; [|exact Y]. destruct mx as [[|n]|]; try exact Y. cbn in HM. lia.
  - eauto.
Qed.

(** Two sets with a common character. *)
Definition all_chars : list ascii := map (fun n => ascii_of_nat n) (seq 0 256).
Definition meets (a b : cset) : bool :=
  if cneg a || cneg b then existsb (fun c => inset a c && inset b c) all_chars
  else existsb (fun '(x, y) => existsb (fun '(z, w) => (N.max x z <=? N.min y w)%N) (cranges b)) (cranges a).
Lemma meets_ok a b c : inset a c = true -> inset b c = true -> meets a b = true.
Proof.
  intros HA HB. unfold meets. destruct (cneg a || cneg b) eqn:E.
  - apply existsb_exists. exists c. split; [|now rewrite HA, HB].
    unfold all_chars. apply in_map_iff. exists (nat_of_ascii c). split; [apply ascii_nat_embedding|]. apply in_seq. pose proof (nat_ascii_bounded c). lia.
  - apply orb_false_iff in E as [E1 E2]. unfold inset in *. rewrite E1 in HA. rewrite E2 in HB. rewrite xorb_false_l in *. unfold in_ranges in *.
    apply existsb_exists in HA as ([x y] & HA & HX). apply existsb_exists in HB as ([z w] & HB & HZ).
    apply existsb_exists. exists (x, y). split; auto. apply existsb_exists. exists (z, w). split; auto.
    apply andb_prop in HX as [X1 X2]. apply andb_prop in HZ as [Z1 Z2]. apply N.leb_le in X1, X2, Z1, Z2. apply N.leb_le. lia.
Qed.

(** The search through the pairs of what is left of the two expressions. *)
Definition range_eqb (a b : N * N) : bool := (fst a =? fst b)%N && (snd a =? snd b)%N.
Fixpoint list_eqb {A} (e : A -> A -> bool) (a b : list A) : bool :=
  match a, b with
  | [], [] => true
  | x :: a', y :: b' => e x y && list_eqb e a' b'
  | _, _ => false
  end.
Definition cset_eqb (a b : cset) : bool := Bool.eqb (cneg a) (cneg b) && list_eqb range_eqb (cranges a) (cranges b).
Fixpoint re_eqb (a b : re) : bool :=
  match a, b with
  | REps, REps | RBeg, RBeg | REnd, REnd => true
  | RSet x, RSet y => cset_eqb x y
  | RCat a1 a2, RCat b1 b2 | RAlt a1 a2, RAlt b1 b2 => re_eqb a1 b1 && re_eqb a2 b2
  | RRep l1 m1 x1 a1, RRep l2 m2 x2 b1 =>
      Bool.eqb l1 l2 && Nat.eqb m1 m2 && match x1, x2 with Some u, Some v => Nat.eqb u v | None, None => true | _, _ => false end && re_eqb a1 b1
  | RGrp n a1, RGrp k b1 => Nat.eqb n k && re_eqb a1 b1
  | RBehind n l, RBehind k q => Bool.eqb n k && list_eqb cset_eqb l q
  | _, _ => false
  end.
Lemma list_eqb_ok {A} (e : A -> A -> bool) : (forall a b, e a b = true -> a = b) -> forall a b, list_eqb e a b = true -> a = b.
Proof. intros H. induction a as [|x a IH]; intros [|y b] E; try discriminate; auto. cbn in E. apply andb_prop in E as [E1 E2]. f_equal; auto. Qed.
Lemma cset_eqb_ok a b : cset_eqb a b = true -> a = b.
Proof.
  destruct a as [n1 l1], b as [n2 l2]. unfold cset_eqb. cbn [cneg cranges]. intros H. apply andb_prop in H as [H1 H2]. apply Bool.eqb_prop in H1. subst. f_equal.
  revert H2. apply list_eqb_ok. intros [x y] [z w] E. apply andb_prop in E as [E1 E2]. apply N.eqb_eq in E1, E2. cbn in *. congruence.
Qed.
Lemma re_eqb_ok a : forall b, re_eqb a b = true -> a = b.
Proof.
  induction a; intros b H; destruct b; cbn [re_eqb] in H; try discriminate; auto; repeat match type of H with (_ && _)%bool = true => let H' := fresh in apply andb_prop in H as [H H'] end.
  - f_equal. now apply cset_eqb_ok.
  - f_equal; auto.
  - f_equal; auto.
  - apply Bool.eqb_prop in H. apply Nat.eqb_eq in H2. subst. f_equal; auto. destruct mx, mx0; try discriminate; auto. apply Nat.eqb_eq in H1. congruence.
  - apply Nat.eqb_eq in H. subst. f_equal; auto.
  - apply Bool.eqb_prop in H. subst. f_equal. revert H0. apply list_eqb_ok, cset_eqb_ok.
Qed.

Definition pair_in (x : re * re) (l : list (re * re)) : bool := existsb (fun y => re_eqb (fst x) (fst y) && re_eqb (snd x) (snd y)) l.
Lemma pair_in_ok x l : pair_in x l = true -> In x l.
Proof.
  intros H. apply existsb_exists in H as ([a b] & HI & H). apply andb_prop in H as [H1 H2]. apply re_eqb_ok in H1, H2. destruct x. cbn in *. congruence.
Qed.
Definition next (x : re * re) : list (re * re) :=
  let lb := lf (snd x) in
  flat_map (fun p => flat_map (fun q => if meets (fst p) (fst q) then [(snd p, snd q)] else []) lb) (lf (fst x)).
Fixpoint explore (fuel : nat) (work seen : list (re * re)) : bool :=
  match work with
  | [] => true
  | x :: work' =>
      match fuel with
      | O => false
      | S n =>
          if null (fst x) && null (snd x) then false
          else if pair_in x seen then explore n work' seen
          else explore n (next x ++ work') (x :: seen)
      end
  end.
Definition disj (n : nat) (a b : re) : bool := explore n [(a, b)] [].

Lemma explore_closed n : forall work seen, explore n work seen = true ->
  (forall x y, In x seen -> In y (next x) -> In y seen \/ In y work) -> (forall x, In x seen -> null (fst x) && null (snd x) = false) ->
  exists S : re * re -> Prop, (forall x, In x seen \/ In x work -> S x) /\ (forall x y, S x -> In y (next x) -> S y) /\ (forall x, S x -> null (fst x) && null (snd x) = false).
Proof.
  induction n as [|n IH]; intros [|x work] seen H HC HN; cbn [explore] in H; try discriminate.
  - exists (fun x => In x seen). split; [intros x [X|[]]; exact X|]. split; [|exact HN]. intros x y HX HY. destruct (HC x y HX HY) as [Q|[]]. exact Q.
  - exists (fun x => In x seen). split; [intros x [X|[]]; exact X|]. split; [|exact HN]. intros x y HX HY. destruct (HC x y HX HY) as [Q|[]]. exact Q.
  - destruct (null (fst x) && null (snd x)) eqn:E; [discriminate|]. destruct (pair_in x seen) eqn:P.
    + apply pair_in_ok in P. destruct (IH work seen H) as (S & A & B & C); auto.
      * intros a b HA HB. destruct (HC a b HA HB) as [Q|[<-|Q]]; auto.
      * exists S. split; auto. intros y [Y|[<-|Y]]; auto.
    + destruct (IH _ _ H) as (S & A & B & C).
      * intros a b [<-|HA] HB; [right; apply in_or_app; auto|]. destruct (HC a b HA HB) as [Q|[<-|Q]]; [left; now right|left; now left|right; apply in_or_app; auto].
      * intros y [<-|Y]; auto.
      * exists S. split; auto. intros y [Y|[<-|Y]]; apply A; [left; now right|left; now left|right; apply in_or_app; auto].
Qed.

Theorem disj_ok n a b s : disj n a b = true -> V a s -> V b s -> False.
Proof.
  intros H. apply explore_closed in H as (S & A & B & C); [|contradiction|contradiction].
  assert (HS : S (a, b)) by (apply A; right; now left). clear A. revert a b HS. induction s as [|c s IH]; intros a b HS HA HB.
  - apply null_V in HA. apply null_V in HB. specialize (C _ HS). cbn in C. now rewrite HA, HB in C.
  - destruct (lf_V a c s HA) as (ca & a' & IA & SA & VA). destruct (lf_V b c s HB) as (cb & b' & IB & SB & VB).
    apply (IH a' b'); auto. apply (B (a, b)); auto. unfold next. cbn [fst snd]. apply in_flat_map. exists (ca, a'). split; auto.
    apply in_flat_map. exists (cb, b'). split; auto. cbn [fst snd]. rewrite (meets_ok ca cb c SA SB). now left.
Qed.
