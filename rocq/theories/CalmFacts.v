(** Soundness of the test of Calm.v. *)

From Coq Require Import Ascii String NArith ZArith Bool Arith List Lia.
From Verif Require Import PyStr Regex RegexParse RegexFacts RegexDer RegexLang PyNum Types CardText Cards Tables CardsSpec.
From Verif Require Import TypesFacts2 TypesFacts3 TypesFacts5 Calm.
Import ListNotations.

(** * Groups *)

Definition caps_ok (G : list (nat * re)) (c : list (nat * str)) : Prop :=
  Forall (fun x => exists a, In (fst x, a) G /\ V a (snd x)) c.
Lemma caps_ok_more G H c : incl G H -> caps_ok G c -> caps_ok H c.
Proof. intros I. apply Forall_impl. intros x (a & HA & HV). eauto. Qed.

Lemma M_caps r : forall s s', M r s s' -> exists c, caps s' = c ++ caps s /\ caps_ok (grps r) c.
Proof.
  induction r; cbn [M grps]; intros s s' H.
  - subst. exists []. split; [reflexivity|constructor].
  - destruct H as (x & t & _ & _ & ->). exists []. split; [reflexivity|constructor].
  - destruct H as (s1 & H1 & H2). apply IHr1 in H1 as (c1 & E1 & F1). apply IHr2 in H2 as (c2 & E2 & F2).
    exists (c2 ++ c1). split; [now rewrite E2, E1, app_assoc|]. apply Forall_app. split; eapply caps_ok_more; try eassumption.
    + apply incl_appr, incl_refl.
    + apply incl_appl, incl_refl.
  - destruct H as [H|H]; [apply IHr1 in H|apply IHr2 in H]; destruct H as (c & E & F); exists c; (split; [exact E|]); eapply caps_ok_more; try eassumption.
    + apply incl_appl, incl_refl.
    + apply incl_appr, incl_refl.
  - assert (HL : forall b s s', loopR (M r) b s s' -> exists c, caps s' = c ++ caps s /\ caps_ok (grps r) c).
    { intros b s0 s0' HL. induction HL as [b s0|b s0 s1 Z HM P|b s0 s1 s2 Z HM P HL IHL].
      - exists []. split; [reflexivity|constructor].
      - apply IHr in HM. exact HM.
      - apply IHr in HM as (c1 & E1 & F1). destruct IHL as (c2 & E2 & F2). exists (c2 ++ c1).
        split; [now rewrite E2, E1, app_assoc|]. apply Forall_app; auto. }
    revert s s' H. induction mn as [|n IHn] in mx |- *; intros s s' H.
    + cbn [needR] in H. eapply HL; eauto.
    + cbn [needR] in H. destruct H as (s1 & HM & H). apply IHr in HM as (c1 & E1 & F1).
      assert (X : exists c, caps s' = c ++ caps s1 /\ caps_ok (grps r) c).
      { clear - H HL IHr. revert s1 H. generalize (maxleft (S n) mx). intros b. induction n as [|n IH]; cbn [needR]; intros s1 H.
        - eapply HL; eauto.
        - destruct H as (s2 & HM & H). apply IHr in HM as (c1 & E1 & F1). apply IH in H as (c2 & E2 & F2). exists (c2 ++ c1).
          split; [now rewrite E2, E1, app_assoc|]. apply Forall_app; auto. }
      destruct X as (c2 & E2 & F2). exists (c2 ++ c1). split; [now rewrite E2, E1, app_assoc|]. apply Forall_app; auto.
  - destruct H as (s1 & H1 & ->). pose proof (M_V _ _ _ H1) as (u & HV & EU). apply IHr in H1 as (c & E & F).
    eexists (_ :: c). cbn [addcap caps]. split; [now rewrite E|]. constructor.
    + exists r. split; [now left|]. cbn [snd]. rewrite EU, firstn_consumed. exact HV.
    + eapply caps_ok_more; [|exact F]. apply incl_tl, incl_refl.
  - destruct H as (_ & ->). exists []. split; [reflexivity|constructor].
  - destruct H as (_ & ->). exists []. split; [reflexivity|constructor].
  - destruct H as (_ & ->). exists []. split; [reflexivity|constructor].
Qed.

Lemma lookup_in i c t : lookup i c = Some t -> In (i, t) c.
Proof.
  induction c as [|[j u] c IH]; [discriminate|]. cbn [lookup]. destruct (Nat.eqb_spec j i) as [->|N]; intros H.
  - injection H as ->. now left.
  - right. auto.
Qed.
Lemma group_V r s o i t : re_match r s = Some o -> 0 < i -> group i o = Some t -> exists a, In a (grp_res r i) /\ V a t.
Proof.
  unfold re_match, match_at. destruct (m r (mkst [] s []) Some) as [s'|] eqn:E; [|discriminate]. intros [= <-] HI HG.
  apply m_sound in E as (s1 & HM & [= <-]). apply M_caps in HM as (c & EC & F). cbn [caps] in EC. rewrite app_nil_r in EC.
  destruct i as [|i]; [lia|]. cbn [group mcaps] in HG. rewrite EC in HG. apply lookup_in in HG.
  unfold caps_ok in F. rewrite Forall_forall in F. destruct (F _ HG) as (a & HA & HV). exists a. split; [|exact HV].
  unfold grp_res. apply in_map_iff. exists (S i, a). split; [reflexivity|]. apply filter_In. split; [exact HA|]. cbn [fst]. apply Nat.eqb_refl.
Qed.

(** * Characters *)

Lemma alpha_V r : forall u, V r u -> allc (alpha r) u.
Proof.
  induction r; cbn [V alpha]; intros u H; try (subst; now constructor).
  - destruct H as (x & -> & I). repeat constructor. exact I.
  - destruct H as (u1 & u2 & H1 & H2 & ->). apply allc_app. split.
    + eapply Forall_impl; [|exact (IHr1 _ H1)]. cbn. intros c ->. reflexivity.
    + eapply Forall_impl; [|exact (IHr2 _ H2)]. cbn. intros c ->. apply orb_true_r.
  - destruct H as [H|H].
    + eapply Forall_impl; [|exact (IHr1 _ H)]. cbn. intros c ->. reflexivity.
    + eapply Forall_impl; [|exact (IHr2 _ H)]. cbn. intros c ->. apply orb_true_r.
  - destruct H as (l & F & _ & _ & ->). clear mn mx. induction F as [|x l H F IH]; cbn; [constructor|]. apply allc_app; auto.
  - auto.
Qed.
Lemma hits_V av r : hits av r = true -> forall u, V r u -> Exists (fun c => ~ In c av) u.
Proof.
  induction r; cbn [hits V]; intros H u HV; try discriminate.
  - destruct HV as (x & -> & I). constructor. intros HI. rewrite forallb_forall in H. specialize (H _ HI). rewrite I in H. discriminate.
  - destruct HV as (u1 & u2 & H1 & H2 & ->). apply Exists_app. apply orb_prop in H as [H|H]; eauto.
  - apply andb_prop in H as [Ha Hb]. destruct HV; eauto.
  - destruct mn as [|mn]; [discriminate|]. destruct HV as (l & F & Hn & _ & ->). destruct l as [|x l]; [cbn in Hn; lia|].
    cbn. apply Exists_app. left. inversion F; subst. eauto.
  - eauto.
Qed.

Lemma all_chars_in c : In c all_chars.
Proof.
  unfold all_chars. apply in_map_iff. exists (nat_of_ascii c). split; [apply ascii_nat_embedding|].
  apply in_seq. pose proof (nat_ascii_bounded c). lia.
Qed.
Lemma space_listed c : is_space c = true -> In c the_spaces.
Proof. intros H. change the_spaces with (filter is_space all_chars). apply filter_In. split; [apply all_chars_in|exact H]. Qed.
Lemma lstrip_nil s : lstrip s = [] -> Forall (fun c => is_space c = true) s.
Proof. induction s as [|c s IH]; cbn [lstrip]; [constructor|]. destruct (is_space c) eqn:E; [constructor; auto|discriminate]. Qed.
Lemma lstrip_split s : exists p, s = p ++ lstrip s /\ Forall (fun c => is_space c = true) p.
Proof.
  induction s as [|c s IH]; [exists []; split; [reflexivity|constructor]|]. cbn [lstrip]. destruct (is_space c) eqn:E.
  - destruct IH as (p & EQ & F). exists (c :: p). split; [cbn; congruence|constructor; auto].
  - exists []. split; [reflexivity|constructor].
Qed.
Lemma strip_nil s : strip s = [] -> Forall (fun c => is_space c = true) s.
Proof.
  unfold strip, rstrip. intros H. destruct (lstrip_split s) as (p & E & F). rewrite E. apply Forall_app. split; [exact F|].
  assert (H' : lstrip (rev (lstrip s)) = []) by (destruct (lstrip (rev (lstrip s))) as [|c t]; [reflexivity|]; cbn in H; now destruct (rev t)).
  apply lstrip_nil in H'. apply Forall_rev in H'. now rewrite rev_involutive in H'.
Qed.
Lemma solid_V r u : solid r = true -> V r u -> strip u <> [].
Proof.
  intros H HV E. apply strip_nil in E. apply (hits_V _ _ H) in HV. apply Exists_exists in HV as (c & HC & N).
  rewrite Forall_forall in E. apply N, space_listed, E, HC.
Qed.
Lemma n_free_V r u : n_free r = true -> V r u -> allc no_n (strip u).
Proof.
  intros H HV. apply strip_allc. apply alpha_V in HV. eapply Forall_impl; [|exact HV]. intros c HC. cbn beta in *.
  unfold n_free in H. cbn [forallb] in H. apply andb_prop in H as [H1 H]. apply andb_prop in H as [H2 _].
  apply negb_true_iff in H1, H2.
  assert (X : no_n c = true \/ c = "n"%char \/ c = "N"%char) by (destruct c as [[] [] [] [] [] [] [] []]; cbv; auto).
  destruct X as [X|[->| ->]]; [exact X|congruence|congruence].
Qed.
Lemma s_free_V r u : s_free r = true -> V r u -> allc (fun c => negb (s_letter c)) (strip u).
Proof.
  intros H HV. apply strip_allc. apply alpha_V in HV. eapply Forall_impl; [|exact HV]. intros c HC. cbn beta in *.
  apply negb_true_iff. destruct (s_letter c) eqn:E; [|reflexivity]. exfalso. unfold s_letter in E. apply existsb_exists in E as (d & HD & E).
  unfold ceqb in E. apply Ascii.eqb_eq in E. subst d. unfold s_free in H. rewrite forallb_forall in H. specialize (H _ HD). rewrite HC in H. discriminate.
Qed.

(** Shorthands have a letter of their own. *)
Definition no_letters : list ascii := Eval vm_compute in filter (fun c => negb (s_letter c)) all_chars.
Lemma no_letters_in c : In c no_letters <-> s_letter c = false.
Proof.
  change no_letters with (filter (fun c => negb (s_letter c)) all_chars). rewrite filter_In, negb_true_iff. intuition. apply all_chars_in.
Qed.
Lemma short_letter r s o : ends_z r = true -> hits no_letters r = true -> re_match r s = Some o -> ~ allc (fun c => negb (s_letter c)) s.
Proof.
  intros HZ HH HM F. apply match_V in HM; auto. apply (hits_V _ _ HH) in HM. apply Exists_exists in HM as (c & HC & N).
  unfold allc in F. rewrite Forall_forall in F. apply N, no_letters_in. apply negb_true_iff. auto.
Qed.
Lemma horiz_letter s : allc (fun c => negb (s_letter c)) s -> horiz_from_mcnp s = None.
Proof.
  intros F. unfold horiz_from_mcnp, repeat_from_mcnp, insert_from_mcnp, multiply_from_mcnp, jump_from_mcnp, log_from_mcnp.
  destruct (re_match re_repeat s) eqn:E1; [exfalso; revert F; eapply short_letter; [| |exact E1]; vm_compute; reflexivity|].
  destruct (re_match re_insert s) eqn:E2; [exfalso; revert F; eapply short_letter; [| |exact E2]; vm_compute; reflexivity|].
  destruct (re_match re_multiply s) eqn:E3; [exfalso; revert F; eapply short_letter; [| |exact E3]; vm_compute; reflexivity|].
  destruct (re_match re_jump s) eqn:E4; [exfalso; revert F; eapply short_letter; [| |exact E4]; vm_compute; reflexivity|].
  destruct (re_match re_log s) eqn:E5; [exfalso; revert F; eapply short_letter; [| |exact E5]; vm_compute; reflexivity|].
  reflexivity.
Qed.
