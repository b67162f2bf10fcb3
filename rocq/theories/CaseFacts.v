(** Lemmas about reading in small letters: the matcher. *)

From Coq Require Import Ascii String NArith ZArith Bool Arith List Lia.
From Verif Require Import PyStr Regex RegexParse RegexFacts RegexDer RegexLang PyNum Types CardText Cards CaseSpec Calm CalmFacts.
Import ListNotations.

Definition capitals : list ascii := Eval vm_compute in filter (fun c => negb (ceqb (lower c) c)) all_chars.
Lemma capital c : lower c = c \/ In c capitals.
Proof.
  pose proof (all_ascii (fun c => if ceqb (lower c) c then true else existsb (ceqb c) capitals) eq_refl c) as Q. cbv beta in Q.
  destruct (ceqb (lower c) c) eqn:E; [left; now apply Ascii.eqb_eq|]. right. apply existsb_exists in Q as (d & I & F). apply Ascii.eqb_eq in F. now subst.
Qed.
Definition case_set (cs : cset) : bool := forallb (fun c => Bool.eqb (inset cs (lower c)) (inset cs c)) capitals.
Lemma case_set_ok cs c : case_set cs = true -> inset cs (lower c) = inset cs c.
Proof.
  intros H. destruct (capital c) as [->|I]; [reflexivity|]. unfold case_set in H. rewrite forallb_forall in H. now apply Bool.eqb_prop, H.
Qed.
(** The pattern does not see the case of letters. *)
Fixpoint caseless (r : re) : bool :=
  match r with
  | RSet cs => case_set cs
  | RCat a b | RAlt a b => if caseless a then caseless b else false
  | RRep _ _ _ a | RGrp _ a => caseless a
  | RBehind _ l => forallb case_set l
  | _ => true
  end.

Definition low_caps (c : list (nat * str)) : list (nat * str) := map (fun x => (fst x, slower (snd x))) c.
Definition low_st (s : st) : st := mkst (slower (pre s)) (slower (rest s)) (low_caps (caps s)).

Lemma slower_length s : length (slower s) = length s.
Proof. apply map_length. Qed.
Lemma slower_app a b : slower (a ++ b) = slower a ++ slower b.
Proof. apply map_app. Qed.
Lemma slower_firstn n s : slower (firstn n s) = firstn n (slower s).
Proof. apply eq_sym, firstn_map. Qed.
Lemma slower_rev s : slower (rev s) = rev (slower s).
Proof. apply map_rev. Qed.
Lemma slower_twice s : slower (slower s) = slower s.
Proof.
  unfold slower. rewrite map_map. apply map_ext. intros c. apply Ascii.eqb_eq.
  exact (all_ascii (fun c => Ascii.eqb (lower (lower c)) (lower c)) eq_refl c).
Qed.

Lemma behind_low lit p : forallb case_set lit = true -> behind lit (slower p) = behind lit p.
Proof.
  revert p. induction lit as [|c lit IH]; intros p H; [reflexivity|]. cbn [forallb] in H. apply andb_prop in H as [H1 H2].
  destruct p as [|x p]; [reflexivity|]. cbn [slower map behind]. rewrite (case_set_ok _ _ H1). f_equal. exact (IH p H2).
Qed.

Section Loops.
  Context {A B : Type} (g : A -> B).
  Definition goes (k' : st -> option B) (k : st -> option A) : Prop := forall s, k' (low_st s) = option_map g (k s).
  Variables (body' : st -> (st -> option B) -> option B) (body : st -> (st -> option A) -> option A).
  Hypothesis HB : forall s k' k, goes k' k -> body' (low_st s) k' = option_map g (body s k).

  Lemma need_low n : forall k' k, goes k' k -> goes (need body' n k') (need body n k).
  Proof. induction n as [|n IH]; intros k' k HK s; cbn [need]; [apply HK|]. apply HB. intros s'. apply IH. exact HK. Qed.
  Lemma progress_low s s' : progress (low_st s) (low_st s') = progress s s'.
  Proof. unfold progress. cbn [rest low_st]. now rewrite !slower_length. Qed.
  Lemma loopg_low k' k : goes k' k -> forall f c, goes (loopg body' k' f c) (loopg body k f c).
  Proof.
    intros HK. induction f as [|f IH]; intros c s; cbn [loopg]; [apply HK|]. destruct (czero c); [apply HK|].
    rewrite (HB s _ (fun s' => if progress s s' then loopg body k f (cdec c) s' else k s')).
    - destruct (body s _); [reflexivity|apply HK].
    - intros s'. rewrite progress_low. destruct (progress s s'); [apply IH|apply HK].
  Qed.
  Lemma loopl_low k' k : goes k' k -> forall f c, goes (loopl body' k' f c) (loopl body k f c).
  Proof.
    intros HK. induction f as [|f IH]; intros c s; cbn [loopl]; [apply HK|]. rewrite HK. destruct (k s); [reflexivity|]. cbn [option_map]. destruct (czero c); [reflexivity|].
    apply HB. intros s'. rewrite progress_low. destruct (progress s s'); [apply IH|apply HK].
  Qed.
End Loops.

Lemma m_low r : caseless r = true -> forall A B (g : A -> B) s k' k, goes g k' k -> m r (low_st s) k' = option_map g (m r s k).
Proof.
  induction r as [|cs|a IHa b IHb|a IHa b IHb|lz mn mx a IHa|n a IHa| | |neg lit]; cbn [caseless]; intros HR A B g s k' k HK; cbn [m].
  - apply HK.
  - cbn [low_st rest]. destruct (rest s) as [|x t]; [reflexivity|]. cbn [slower map]. rewrite (case_set_ok _ _ HR). destruct (inset cs x); [|reflexivity].
    exact (HK (mkst (x :: pre s) t (caps s))).
  - destruct (caseless a) eqn:EA; [|discriminate]. apply IHa; [reflexivity|]. intros s'. apply IHb; assumption.
  - destruct (caseless a) eqn:EA; [|discriminate]. rewrite (IHa eq_refl _ _ g s k' k HK). destruct (m a s k); [reflexivity|]. apply IHb; assumption.
  - apply (need_low g (fun s k => m a s k) (fun s k => m a s k)).
    + intros s1 k1' k1 H1. apply IHa; assumption.
    + intros s1. cbn [low_st rest]. rewrite slower_length. change (mkst (slower (pre s1)) (slower (rest s1)) (low_caps (caps s1))) with (low_st s1).
      destruct lz.
      * apply (loopl_low g (fun s k => m a s k) (fun s k => m a s k)); [|exact HK]. intros s2 k2' k2 H2. apply IHa; assumption.
      * apply (loopg_low g (fun s k => m a s k) (fun s k => m a s k)); [|exact HK]. intros s2 k2' k2 H2. apply IHa; assumption.
  - apply IHa; [exact HR|]. intros s'.
    replace (addcap n (low_st s) (low_st s')) with (low_st (addcap n s s')); [apply HK|].
    unfold addcap, low_st. cbn [pre rest caps low_caps map fst snd]. now rewrite slower_firstn, !slower_length.
  - cbn [low_st pre]. destruct (pre s); cbn [slower map]; [apply HK|reflexivity].
  - cbn [low_st rest]. destruct (rest s); cbn [slower map]; [apply HK|reflexivity].
  - cbn [low_st pre]. rewrite (behind_low lit _ HR). destruct (xorb neg (behind lit (pre s))); [apply HK|reflexivity].
Qed.

Definition low_mobj (o : mobj) : mobj := {| mpre := slower (mpre o); mtext := slower (mtext o); mrest := slower (mrest o); mcaps := low_caps (mcaps o) |}.
Lemma match_low r p s : caseless r = true -> match_at r (slower p) (slower s) = option_map low_mobj (match_at r p s).
Proof.
  intros H. unfold match_at.
  change (mkst (slower p) (slower s) []) with (low_st (mkst p s [])).
  rewrite (m_low r H _ _ low_st (mkst p s []) Some Some) by (intros x; reflexivity).
  destruct (m r (mkst p s []) Some) as [s'|]; [|reflexivity]. cbn [option_map]. unfold low_mobj, low_st. cbn [rest caps mpre mtext mrest mcaps].
  now rewrite slower_firstn, !slower_length.
Qed.
Lemma re_match_low r s : caseless r = true -> re_match r (slower s) = option_map low_mobj (re_match r s).
Proof. exact (match_low r [] s). Qed.
Lemma lookup_low n c : lookup n (low_caps c) = option_map slower (lookup n c).
Proof. induction c as [|[i t] c IH]; [reflexivity|]. cbn. destruct (Nat.eqb i n); [reflexivity|exact IH]. Qed.
Lemma group_low n o : group n (low_mobj o) = option_map slower (group n o).
Proof. destruct n; [reflexivity|]. apply lookup_low. Qed.
Lemma grp_low n o : grp n (low_mobj o) = slower (grp n o).
Proof. unfold grp. rewrite group_low. destruct (group n o); reflexivity. Qed.
Lemma truthy_low g : truthy (option_map slower g) = option_map slower (truthy g).
Proof. destruct g as [[|c t]|]; reflexivity. Qed.

Lemma search_low r : caseless r = true -> forall s p, search r (slower p) (slower s) = option_map low_mobj (search r p s).
Proof.
  intros H. induction s as [|c s IH]; intros p; cbn [search slower map].
  - change (@nil ascii) with (slower []) at 1. rewrite (match_low r p [] H). destruct (match_at r p []); reflexivity.
  - change (lower c :: map lower s) with (slower (c :: s)). rewrite (match_low r p (c :: s) H). destruct (match_at r p (c :: s)); [reflexivity|]. exact (IH (c :: p)).
Qed.
Lemma finditer_low r s : caseless r = true -> finditer r (slower s) = map low_mobj (finditer r s).
Proof.
  intros H. unfold finditer. rewrite slower_length. generalize (S (length s)). intros f. change (@nil ascii) with (slower []) at 1. generalize (@nil ascii) as p. revert s.
  induction f as [|f IH]; intros s p; [reflexivity|]. cbn [finditer_f]. rewrite (search_low r H). destruct (search r p s) as [o|]; [|reflexivity].
  cbn [option_map low_mobj mtext mrest mpre]. destruct (mtext o) as [|x t] eqn:ET; cbn [slower map].
  - destruct (mrest o) as [|y u] eqn:ER; cbn [slower map]; [reflexivity|]. f_equal. exact (IH u (y :: mpre o)).
  - cbn [map]. f_equal. replace (rev (lower x :: map lower t) ++ slower (mpre o)) with (slower (rev (x :: t) ++ mpre o)) by (rewrite slower_app, slower_rev; reflexivity).
    apply IH.
Qed.
Lemma sub_low r f f' s : caseless r = true -> (forall p u o, match_at r p u = Some o -> f' (low_mobj o) = slower (f o)) ->
  sub r f' (slower s) = slower (sub r f s).
Proof.
  intros H HF. unfold sub. rewrite slower_length. generalize (S (length s)). intros n. change (@nil ascii) with (slower []) at 1. generalize (@nil ascii) as p. revert s.
  induction n as [|n IH]; intros s p; [reflexivity|]. cbn [sub_f]. rewrite (match_low r p s H). destruct (match_at r p s) as [o|] eqn:E; cbn [option_map low_mobj mtext mrest].
  - change {| mpre := slower (mpre o); mtext := slower (mtext o); mrest := slower (mrest o); mcaps := low_caps (mcaps o) |} with (low_mobj o).
    rewrite (HF _ _ _ E). destruct (mtext o) as [|x t] eqn:ET; cbn [slower map].
    + fold (slower s). rewrite slower_app. f_equal. destruct s as [|c s]; [reflexivity|]. cbn [slower map]. f_equal. exact (IH s (c :: p)).
    + rewrite slower_app. f_equal. replace (rev (lower x :: map lower t) ++ slower p) with (slower (rev (x :: t) ++ p)) by (rewrite slower_app, slower_rev; reflexivity).
      apply IH.
  - destruct s as [|c s]; [reflexivity|]. cbn [slower map]. f_equal. exact (IH s (c :: p)).
Qed.
