(** Every iterator over a lazy sequence gives the whole sequence. *)

From Coq Require Import Ascii String Bool Arith List Lia.
From Verif Require Import PyStr Generator GeneratorSpec.
Import ListNotations.
Open Scope list_scope.

Section Facts.
  Variable A : Type.
  Variable to : A -> str.
  Variable vs : list A.
  Variable tail : list (result A).
  Hypothesis bad : match tail with r :: _ => is_ok r = false | [] => True end.

  Definition err : list (out A) := match tail with r :: _ => [Raise (failure r)] | [] => [] end.
  (** The state after k values; [d]: the failure has not come out yet. *)
  Definition at_ (d : bool) (k : nat) (g : gen A) : Prop :=
    k <= length vs /\ buf g = firstn k vs /\ (if d then src g = map Ok (skipn k vs) ++ tail else k = length vs /\ src g = []).

  Lemma nth_firstn k p : p < k -> nth_error (firstn k vs) p = nth_error vs p.
  Proof.
    revert p. generalize vs. induction k as [|k IH]; intros l p H; [lia|]. destruct l as [|a l]; [now destruct p|]. destruct p; [reflexivity|]. cbn. apply IH. lia.
  Qed.
  Lemma firstn_snoc k a : nth_error vs k = Some a -> firstn k vs ++ [a] = firstn (S k) vs.
  Proof.
    generalize vs. induction k as [|k IH]; intros l H; (destruct l as [|b l]; [discriminate|]).
    - injection H as ->. reflexivity.
    - cbn [firstn app]. f_equal. now apply IH.
  Qed.
  Lemma skipn_nth k a : nth_error vs k = Some a -> skipn k vs = a :: skipn (S k) vs.
  Proof.
    generalize vs. induction k as [|k IH]; intros l H; (destruct l as [|b l]; [discriminate|]).
    - injection H as ->. reflexivity.
    - cbn [skipn]. now apply IH.
  Qed.

  Lemma pull_spec d k g p : at_ d k g -> p <= k ->
    (exists a g' k', nth_error vs p = Some a /\ pull g p = (g', Yield a) /\ at_ d k' g' /\ its g' = its g /\ k <= k' /\ p < k') \/
    (p = length vs /\ pull g p = (g, Stop) /\ (d = false \/ tail = [])) \/
    (p = length vs /\ d = true /\ exists e t g', tail = e :: t /\ pull g p = (g', Raise (failure e)) /\ at_ false k g' /\ its g' = its g).
  Proof.
    intros (HK & HB & HS) HP. unfold pull. rewrite HB. destruct (Nat.lt_ge_cases p k) as [H|H].
    - left. rewrite nth_firstn by auto. destruct (nth_error vs p) as [a|] eqn:E; [|apply nth_error_None in E; lia].
      exists a, g, k. repeat split; auto.
    - assert (p = k) by lia. subst p.
      assert (EN : nth_error (firstn k vs) k = None) by (apply nth_error_None; rewrite firstn_length; lia). rewrite EN.
      destruct (nth_error vs k) as [a|] eqn:E.
      + left. assert (k < length vs) by (apply nth_error_Some; congruence). destruct d; [|lia].
        rewrite (skipn_nth k a E) in HS. rewrite HS. cbn [map app]. eexists a, _, (S k). repeat split; auto; cbn [buf]; try lia.
        now apply firstn_snoc.
      + right. apply nth_error_None in E. assert (k = length vs) by lia. destruct d.
        * rewrite skipn_all2 in HS by lia. cbn [map app] in HS. rewrite HS. destruct tail as [|e t]; [left; auto|].
          right. repeat split; auto. exists e, t. destruct e as [a|e|e]; [discriminate| |];
          (eexists; split; [reflexivity|]; split; [reflexivity|]; split; [|reflexivity]; repeat split; auto).
        * left. destruct HS as [_ ->]. auto.
  Qed.

  Lemma drain_spec f : forall d k g p, at_ d k g -> p <= k -> length vs - p < f ->
    exists d' k' g' r, drain f g p = (g', r) /\ at_ d' k' g' /\ its g' = its g /\ k <= k' /\
    ((r = Ok (skipn p vs) /\ d' = d /\ (d = false \/ tail = [])) \/
     (d = true /\ d' = false /\ exists e t, tail = e :: t /\ r = failure e)).
  Proof.
    induction f as [|f IH]; intros d k g p HA HP HF; [lia|]. cbn [drain].
    destruct (pull_spec d k g p HA HP) as [(a & g' & k' & HN & -> & HA' & HI & HK & HP')|[(-> & -> & HD)|(-> & -> & e & t & g' & ET & -> & HA' & HI)]].
    - assert (p < length vs) by (apply nth_error_Some; congruence).
      destruct (IH d k' g' (S p) HA') as (d2 & k2 & g2 & r & -> & HA2 & HI2 & HK2 & HR); [lia|lia|].
      exists d2, k2, g2. eexists. split; [reflexivity|]. split; auto. split; [congruence|]. split; [lia|].
      destruct HR as [(-> & -> & HD)|(-> & -> & e & t & ET & ->)].
      + left. split; auto. cbn [bind]. now rewrite (skipn_nth p a HN).
      + right. repeat split; auto. exists e, t. split; auto. now destruct e.
    - exists d, k, g, (Ok []). repeat split; auto; try apply HA. left. split; auto. now rewrite skipn_all2.
    - exists false, k, g', (failure e). rewrite ET in bad. split; [now destruct e|]. repeat split; auto; try apply HA'. right. repeat split; eauto.
  Qed.

  Definition fin (p : nat) (l : list (out A)) : Prop := l = [] \/ p = length vs /\ exists n, l = repeat Stop n \/ l = err ++ repeat Stop n.
  Definition text_ok (r : result str) : Prop := r = Ok (join [sp] (map to vs)) \/ exists e t, tail = e :: t /\ r = failure e.
  Record inv (g : gen A) (tr : list (event A)) (d : bool) (k : nat) : Prop := {
    inv_at : at_ d k g;
    inv_raises : raises tr <= if d then 0 else 1;
    inv_none : tail = [] -> raises tr = 0;
    inv_its : forall i p, nth_error (its g) i = Some p -> p <= k /\ exists l, given i tr = map Yield (firstn p vs) ++ l /\ fin p l /\ (d = true -> tail = [] \/ l = []);
    inv_new : forall i, nth_error (its g) i = None -> given i tr = [];
    inv_text : Forall text_ok (texts_of tr)
  }.

  Lemma raises_app a b : raises (a ++ b) = raises a + @raises A b.
  Proof. unfold raises. now rewrite filter_app, app_length. Qed.
  Lemma given_app i a b : given i (a ++ b) = given i a ++ @given A i b.
  Proof. apply flat_map_app. Qed.
  Lemma texts_app a b : texts_of (a ++ b) = texts_of a ++ @texts_of A b.
  Proof. apply flat_map_app. Qed.
  Lemma nth_set l i x j : nth_error (set_nth l i x) j = if Nat.eqb i j then match nth_error l j with Some _ => Some x | None => None end else nth_error l j.
  Proof.
    revert i j. induction l as [|a l IH]; intros i j.
    - cbn. destruct j; cbn; now destruct (Nat.eqb i _).
    - destruct i, j; cbn; auto.
  Qed.

  Lemma firstn_S_nth p a : nth_error vs p = Some a -> map Yield (firstn (S p) vs) = map (@Yield A) (firstn p vs) ++ [Yield a].
  Proof. intros H. rewrite <- (firstn_snoc p a H), map_app. reflexivity. Qed.

  (** An event that gives nothing through iterators keeps what they gave. *)
  Lemma step g tr d k o : inv g tr d k -> exists g' ev d' k', exec to (g, tr) o = (g', tr ++ [ev]) /\ inv g' (tr ++ [ev]) d' k'.
  Proof.
    intros [HA HR HZ HI HN HT]. destruct o as [|i|].
    - cbn [exec]. eexists _, _, d, k. split; [reflexivity|]. split; cbn [new_iter]; auto.
      + rewrite raises_app. cbn. lia.
      + rewrite raises_app. intros E. rewrite HZ by auto. reflexivity.
      + cbn [new_iter its]. intros i p H. rewrite given_app. cbn [given flat_map]. rewrite app_nil_r.
        destruct (Nat.lt_ge_cases i (length (its g))) as [L|L].
        * rewrite nth_error_app1 in H by auto. now apply HI.
        * rewrite nth_error_app2 in H by auto. destruct (i - length (its g)) as [|[|]] eqn:E; try discriminate. injection H as <-. split; [lia|].
          exists []. split; [|split; [now left|auto]]. rewrite HN; [reflexivity|]. now apply nth_error_None.
      + cbn [new_iter its]. intros i H. rewrite given_app. cbn [given flat_map]. rewrite app_nil_r. apply HN. apply nth_error_None. apply nth_error_None in H.
        rewrite app_length in H. lia.
      + rewrite texts_app. cbn. now rewrite app_nil_r.
    - cbn [exec]. unfold next. destruct (nth_error (its g) i) as [p|] eqn:EI.
      2:{ eexists _, _, d, k. split; [reflexivity|]. split; auto.
          - rewrite raises_app. cbn. lia.
          - rewrite raises_app. intros E. rewrite HZ by auto. reflexivity.
          - intros j q H. rewrite given_app. cbn [given flat_map]. rewrite app_nil_r. auto.
          - intros j H. rewrite given_app. cbn [given flat_map]. rewrite app_nil_r. auto.
          - rewrite texts_app. cbn. now rewrite app_nil_r. }
      destruct (HI i p EI) as (HP & l & HG & HF & HE).
      destruct (pull_spec d k g p HA HP) as [(a & g' & k' & HV & -> & HA' & HII & HK & HP')|[(-> & -> & HD)|(-> & -> & e & t & g' & ET & -> & HA' & HII)]].
      + assert (p < length vs) by (apply nth_error_Some; congruence).
        eexists _, _, d, k'. split; [reflexivity|]. split; cbn [src buf its]; auto.
        * rewrite raises_app. cbn. lia.
        * rewrite raises_app. intros E. rewrite HZ by auto. reflexivity.
        * intros j q H'. rewrite given_app. cbn [given flat_map]. rewrite nth_set, HII in H'. rewrite (Nat.eqb_sym j i). destruct (Nat.eqb i j) eqn:EJ.
          -- apply Nat.eqb_eq in EJ as <-. rewrite EI in H'. injection H' as <-. split; [lia|]. exists []. split; [|split; [now left|auto]].
             rewrite HG. destruct HF as [->|[HF _]]; [|lia]. rewrite !app_nil_r, (firstn_S_nth p a HV). reflexivity.
          -- cbn [app]. rewrite app_nil_r. destruct (HI j q H') as (HQ & l' & X). split; [lia|eauto].
        * intros j H'. rewrite given_app. cbn [given flat_map]. rewrite nth_set, HII in H'. rewrite (Nat.eqb_sym j i). destruct (Nat.eqb i j) eqn:EJ.
          -- apply Nat.eqb_eq in EJ as <-. rewrite EI in H'. discriminate.
          -- cbn [app]. rewrite app_nil_r. auto.
        * rewrite texts_app. cbn. now rewrite app_nil_r.
      + eexists _, _, d, k. split; [reflexivity|]. split; auto.
        * rewrite raises_app. cbn. lia.
        * rewrite raises_app. intros E. rewrite HZ by auto. reflexivity.
        * intros j q H'. rewrite given_app. cbn [given flat_map]. destruct (Nat.eqb j i) eqn:EJ.
          -- apply Nat.eqb_eq in EJ as ->. rewrite EI in H'. injection H' as <-. split; auto. exists (l ++ [Stop]). split; [rewrite HG; cbn; now rewrite <- app_assoc|]. split; [|intros ->; destruct HD; [discriminate|auto]].
             right. split; auto. destruct HF as [->|[_ (n & HF)]]; [exists 1; now left|]. exists (S n).
             assert (RS : repeat (@Stop A) n ++ [Stop] = repeat Stop (S n)) by (change [Stop] with (repeat (@Stop A) 1); rewrite <- repeat_app; f_equal; lia).
             destruct HF as [-> | ->]; [left; exact RS|right; now rewrite <- app_assoc, RS].
          -- cbn [app]. rewrite app_nil_r. auto.
        * intros j H'. rewrite given_app. cbn [given flat_map]. destruct (Nat.eqb j i) eqn:EJ.
          -- apply Nat.eqb_eq in EJ as ->. congruence.
          -- cbn [app]. rewrite app_nil_r. auto.
        * rewrite texts_app. cbn. now rewrite app_nil_r.
      + eexists _, _, false, k. split; [reflexivity|]. split; auto.
        * rewrite raises_app. cbn. lia.
        * intros E. congruence.
        * intros j q H'. rewrite HII in H'. rewrite given_app. cbn [given flat_map]. destruct (Nat.eqb j i) eqn:EJ.
          -- apply Nat.eqb_eq in EJ as ->. rewrite EI in H'. injection H' as <-. split; auto. 
             assert (HL : l = []) by (destruct (HE eq_refl); [congruence|auto]).
             subst l. exists err. split; [rewrite HG, app_nil_r; unfold err; rewrite ET; reflexivity|]. split; [|discriminate].
             right. split; auto. exists 0. right. cbn. now rewrite app_nil_r.
          -- cbn [app]. rewrite app_nil_r. destruct (HI j q H') as (HQ & l' & X & Y & _). split; auto. exists l'. repeat split; auto. discriminate.
        * intros j H'. rewrite HII in H'. rewrite given_app. cbn [given flat_map]. destruct (Nat.eqb j i) eqn:EJ.
          -- apply Nat.eqb_eq in EJ as ->. congruence.
          -- cbn [app]. rewrite app_nil_r. auto.
        * rewrite texts_app. cbn. now rewrite app_nil_r.
    - cbn [exec]. unfold gen_to_mcnp.
      assert (HF : length vs - 0 < length (buf g) + length (src g) + 1).
      { destruct HA as (K & B & S). rewrite B, firstn_length. destruct d; [rewrite S, app_length, map_length, skipn_length; lia|lia]. }
      destruct (drain_spec _ d k g 0 HA ltac:(lia) HF) as (d' & k' & g' & r & -> & HA' & HII & HK & HRR).
      eexists _, _, d', k'. split; [reflexivity|].
      assert (HX : text_ok (bind r (fun l => Ok (join [sp] (map to l)))) /\ (d' = d \/ d = true /\ d' = false) /\
        (is_ok (bind r (fun l => Ok (join [sp] (map to l)))) = true \/ d = true /\ d' = false /\ tail <> [])).
      { destruct HRR as [(-> & -> & HD)|(-> & -> & e & t & ET & ->)].
        - split; [now left|]. split; auto.
        - split; [|split; auto]; [right; exists e, t; split; auto; rewrite ET in bad; now destruct e|]. right. repeat split; auto. congruence. }
      destruct HX as (HX1 & HX2 & HX3). split; auto.
      + rewrite raises_app. unfold raises at 2. cbn [filter raised]. destruct HX3 as [-> |(-> & -> & _)].
        * cbn. destruct HX2 as [-> |[-> ->]]; lia.
        * destruct (negb _); cbn; lia.
      + rewrite raises_app. unfold raises at 2. cbn [filter raised]. intros E. destruct HX3 as [-> |(_ & _ & X)]; [|congruence]. cbn. rewrite HZ by auto. reflexivity.
      + intros j q H'. rewrite HII in H'. rewrite given_app. cbn [given flat_map]. rewrite app_nil_r. destruct (HI j q H') as (HQ & l' & X & Y & Z). split; [lia|].
        exists l'. repeat split; auto. intros ->. apply Z. destruct HX2 as [X2|[_ X2]]; congruence.
      + intros j H'. rewrite HII in H'. rewrite given_app. cbn [given flat_map]. rewrite app_nil_r. auto.
      + rewrite texts_app. cbn. apply Forall_app. auto.
  Qed.

  Lemma reach ops : exists d k, inv (fst (run to (gen_new (map Ok vs ++ tail)) ops)) (snd (run to (gen_new (map Ok vs ++ tail)) ops)) d k.
  Proof.
    induction ops as [|o ops IH] using rev_ind.
    - exists true, 0. split; cbn; auto; try lia.
      + repeat split; auto. cbn. lia.
      + intros [|]; discriminate.
    - destruct IH as (d & k & IH). unfold run in *. rewrite fold_left_app. cbn [fold_left].
      destruct (fold_left (exec to) ops (gen_new (map Ok vs ++ tail), [])) as [g tr]. cbn [fst snd] in IH.
      destruct (step g tr d k o IH) as (g' & ev & d' & k' & -> & H). exists d', k'. exact H.
  Qed.
  Lemma repeat_app_firstn n m : n <= m -> repeat (@Stop A) n = firstn n (repeat Stop m).
  Proof. revert m. induction n as [|n IH]; intros m H; [reflexivity|]. destruct m; [lia|]. cbn. f_equal. apply IH. lia. Qed.
  Lemma given_spec ops i : let l := given i (snd (run to (gen_new (map Ok vs ++ tail)) ops)) in
    l = answers vs [] (length l) \/ l = answers vs err (length l).
  Proof.
    destruct (reach ops) as (d & k & [HA _ _ HI HN _]). cbn zeta.
    set (tr := snd _) in *. set (g := fst _) in *. unfold answers. destruct (nth_error (its g) i) as [p|] eqn:E.
    2:{ rewrite (HN i E). now left. }
    destruct (HI i p E) as (HP & l & -> & HF & _). assert (HL : length (map (@Yield A) (firstn p vs)) = p) by (rewrite map_length, firstn_length; destruct HA; lia).
    destruct HF as [->|[HPE (n & [-> | ->])]].
    - left. rewrite app_nil_r, HL, firstn_app, map_length. replace (p - length vs) with 0 by (destruct HA; lia). cbn [firstn]. rewrite app_nil_r. now rewrite <- firstn_map.
    - left. rewrite app_length, HL, repeat_length, HPE, firstn_all. rewrite firstn_app, map_length. replace (length vs + n - length vs) with n by lia.
      rewrite firstn_all2 by (rewrite map_length; lia). f_equal. cbn [app]. apply repeat_app_firstn. lia.
    - right. rewrite app_length, HL, app_length, repeat_length, HPE, firstn_all. rewrite firstn_app, map_length. rewrite firstn_all2 by (rewrite map_length; lia). f_equal.
      rewrite firstn_app. replace (length vs + (length err + n) - length vs) with (length err + n) by lia. rewrite firstn_all2 by lia. f_equal.
      replace (length err + n - length err) with n by lia. apply repeat_app_firstn. lia.
  Qed.
  Lemma raises_spec ops : raises (snd (run to (gen_new (map Ok vs ++ tail)) ops)) <= 1 /\ (tail = [] -> raises (snd (run to (gen_new (map Ok vs ++ tail)) ops)) = 0).
  Proof. destruct (reach ops) as (d & k & [_ H1 H2 _ _ _]). split; [destruct d; lia|auto]. Qed.
  Lemma texts_spec ops : Forall text_ok (texts_of (snd (run to (gen_new (map Ok vs ++ tail)) ops))).
  Proof. destruct (reach ops) as (d & k & [_ _ _ _ _ H]). exact H. Qed.
End Facts.

Theorem iterators_clean (A : Type) (to : A -> str) vs ops i :
  let l := given i (snd (run to (gen_new (map Ok vs)) ops)) in l = answers vs [] (length l).
Proof.
  pose proof (given_spec A to vs [] I ops i) as H. cbn zeta in *. rewrite app_nil_r in H. destruct H; auto.
Qed.
Theorem texts_clean (A : Type) (to : A -> str) vs ops :
  Forall (fun r => r = Ok (join [sp] (map to vs))) (texts_of (snd (run to (gen_new (map Ok vs)) ops))).
Proof.
  pose proof (texts_spec A to vs [] I ops) as H. rewrite app_nil_r in H. eapply Forall_impl; [|exact H]. intros r [?|(e & t & ? & _)]; [auto|discriminate].
Qed.
Theorem iterators_failing (A : Type) (to : A -> str) vs e t ops i : is_ok e = false ->
  let tr := snd (run to (gen_new (map Ok vs ++ e :: t)) ops) in
  (given i tr = answers vs [] (length (given i tr)) \/ given i tr = answers vs [Raise (failure e)] (length (given i tr))) /\ raises tr <= 1.
Proof.
  intros H. split.
  - exact (given_spec A to vs (e :: t) H ops i).
  - apply (raises_spec A to vs (e :: t) H ops).
Qed.

(** The second time, the failure is the end. *)
Theorem failure_forgotten (A : Type) (to : A -> str) vs e t : is_ok e = false ->
  texts_of (snd (run to (gen_new (map Ok vs ++ e :: t)) [Text; Text])) = [failure e; Ok (join [sp] (map to vs))].
Proof.
  intros HB. pose proof (raises_spec A to vs (e :: t) HB [Text; Text]) as [HR _].
  unfold run in *. cbn [fold_left exec] in *. unfold gen_to_mcnp in *.
  set (g := gen_new (map Ok vs ++ e :: t)) in *.
  assert (HA : at_ A vs (e :: t) true 0 g) by (repeat split; auto; cbn; lia).
  destruct (drain_spec A vs (e :: t) HB (length (buf g) + length (src g) + 1) true 0 g 0 HA (le_n 0)) as (d & k & g' & r & E & HA' & _ & _ & HRR).
  { cbn. rewrite app_length, map_length. lia. }
  rewrite E in *. destruct HRR as [(_ & _ & [?|?])|(_ & -> & e' & t' & [= <- <-] & ->)]; try discriminate.
  destruct (drain_spec A vs (e :: t) HB (length (buf g') + length (src g') + 1) false k g' 0 HA' (Nat.le_0_l k)) as (d2 & k2 & g2 & r2 & E2 & _ & _ & _ & HR2).
  { destruct HA' as (K & B & KL & S). rewrite B, firstn_length. lia. }
  cbn [exec]. unfold gen_to_mcnp. rewrite E2. destruct HR2 as [(-> & _)|(? & _)]; [|discriminate]. cbn. now destruct e.
Qed.
