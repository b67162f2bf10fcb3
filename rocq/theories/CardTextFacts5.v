(** The text layer on words: expansion of counted words, double pass for [j]. *)

From Coq Require Import Ascii String NArith ZArith Bool Arith Lia List.
From Verif Require Import PyStr Regex RegexParse RegexFacts RegexLang PyNum PyNumFacts Types TypesSpec TypesFacts TypesFacts3 TypesFacts4 SubFacts CardText CardTextSpec CardTextFacts CardTextFacts2 CardTextFacts3 CardTextFacts4.
Import ListNotations.
Open Scope char_scope.

(** ** The first [j] pass leaves every second one of adjacent counted words *)

Fixpoint ejs (b : bool) (l : list item) : list item :=
  match l with
  | [] => []
  | i :: l' => if cnt_of Sj i && negb b then ek Sj i :: ejs true l' else i :: ejs false l'
  end.

Lemma ej_render l b : Forall okI l ->
  ewd (kd Sj) (kl Sj) (short_name Sj) b (render l) = render (ejs b l).
Proof.
  revert b. induction l as [|i l IH]; intros b HF; [now destruct b|].
  inversion HF as [|? ? HI HF']; subst.
  unfold render in *. cbn [flat_map ejs]. destruct i as [w|k' ws|k' ds t]; cbn [render1 ek cnt_of andb].
  - destruct HI as (_ & _ & HC). rewrite ewd_skip; auto; [|discriminate]. cbn [flat_map render1]. now rewrite IH.
  - destruct HI as [HN HW]. rewrite ewd_skip; auto.
    + cbn [flat_map render1]. now rewrite IH.
    + eapply Forall_impl; [|exact HW]. intros w HKw. apply (isK_cnt k'); auto.
  - destruct HI as (H1 & H2 & H3 & _). destruct (short_eqb Sj k') eqn:E.
    + apply short_eqb_eq in E. subst k'. destruct b; cbn [negb andb flat_map render1 app ewd].
      * now rewrite IH.
      * rewrite cnt_same by auto. rewrite IH by auto. reflexivity.
    + cbn [andb]. rewrite ewd_skip; [|constructor; auto|discriminate].
      * cbn [flat_map render1]. now rewrite IH.
      * apply (cnt_other k'); auto. apply short_eqb_neq in E. congruence.
Qed.

Lemma ejs_okI l b : Forall okI l -> Forall okI (ejs b l).
Proof.
  intros H. revert b. induction H as [|i l HI HF IH]; intros b; [constructor|].
  cbn [ejs]. destruct (cnt_of Sj i && negb b); constructor; auto using okI_ek.
Qed.

Lemma ejs_apart_other k l b : k <> Sj -> apart (cnt_of k) l -> apart (cnt_of k) (ejs b l).
Proof.
  intros HK. revert b. induction l as [|i l IH]; intros b HA; [exact I|].
  assert (HI : forall i, cnt_of k (ek Sj i) = cnt_of k i).
  { intros [w|k' ws|k' ds t]; auto. cbn [ek]. destruct (short_eqb Sj k') eqn:E; auto.
    apply short_eqb_eq in E. subst k'. simpl. symmetry. now apply short_eqb_neq. }
  assert (HH : forall b l, match ejs b l with j :: _ => cnt_of k j | [] => false end = match l with j :: _ => cnt_of k j | [] => false end).
  { intros b' [|j l']; auto. cbn [ejs]. destruct (cnt_of Sj j && negb b'); auto. }
  apply apart_tail in HA as [HA HN]. cbn [ejs].
  assert (G : forall b' i', cnt_of k i' = cnt_of k i -> apart (cnt_of k) (i' :: ejs b' l)).
  { intros b' i' EI. specialize (HH b' l). specialize (IH b' HA). destruct (ejs b' l) as [|j t]; [exact I|].
    split; auto. rewrite EI, HH. destruct (cnt_of k i) eqn:E; simpl; auto. }
  destruct (cnt_of Sj i && negb b); apply G; auto.
Qed.

Lemma ejs_apart l b : apart (cnt_of Sj) (ejs b l).
Proof.
  revert b. induction l as [|i l IH]; intros b; [exact I|]. cbn [ejs].
  destruct (cnt_of Sj i) eqn:E; cbn [andb].
  - destruct b; cbn [negb].
    + specialize (IH false). destruct l as [|j l]; [exact I|]. cbn [ejs negb] in *. rewrite andb_true_r in *.
      destruct (cnt_of Sj j) eqn:EJ.
      * split; auto. destruct j as [|k' ws|k' ds t]; try discriminate. cbn [cnt_of] in EJ. cbn [ek]. rewrite EJ. cbn [cnt_of]. apply andb_false_r.
      * split; auto. rewrite EJ. apply andb_false_r.
    + destruct i as [|k' ws|k' ds t]; try discriminate. cbn [cnt_of] in E. cbn [ek]. rewrite E.
      specialize (IH true). destruct (ejs true l); [exact I|]. split; auto.
  - specialize (IH false). destruct (ejs false l); [exact I|]. split; auto. now rewrite E.
Qed.

Lemma ej_ejs l b : map (ek Sj) (ejs b l) = map (ek Sj) l.
Proof.
  revert b. induction l as [|i l IH]; intros b; auto. cbn [ejs].
  destruct (cnt_of Sj i && negb b) eqn:E; cbn [map]; rewrite IH; f_equal.
  destruct i as [w|k' ws|k' ds t]; auto. cbn [ek]. destruct (short_eqb Sj k') eqn:EK; auto. cbn [ek]. now rewrite EK.
Qed.

Definition eks' (i : item) : item := ek Silog (ek Slog (ek Sj (ek Si (ek Sr i)))).

Lemma ek_comm_j k i : k <> Sj -> ek Sj (ek k i) = ek k (ek Sj i).
Proof. destruct i as [w|k' ws|k' ds t]; auto. destruct k, k'; auto; congruence. Qed.
Lemma ek_idem_j i : ek Sj (ek Sj i) = ek Sj i.
Proof. destruct i as [w|k' ws|k' ds t]; auto. destruct k'; auto. Qed.

Lemma ews_render_j l : Forall okI l -> (forall k, k <> Sj -> apart (cnt_of k) l) -> ews (render l) = render (map eks l).
Proof.
  intros HF HA. unfold ews, ew at 6.
  assert (HO : forall k l, Forall okI l -> Forall okI (map (ek k) l)).
  { intros k l' H. apply Forall_map. eapply Forall_impl; [|exact H]. intros i. apply okI_ek. }
  assert (HP : forall k k' l, apart (cnt_of k) l -> apart (cnt_of k) (map (ek k') l)).
  { intros k k' l'. apply apart_map. intros i. apply cnt_ek. }
  assert (HX : forall k, apart (cnt_of k) (ejs false l)).
  { intros k. destruct (short_eqb k Sj) eqn:E; [apply short_eqb_eq in E; subst; apply ejs_apart|].
    apply short_eqb_neq in E. apply ejs_apart_other; auto. }
  rewrite ej_render by auto. unfold ew.
  rewrite !ew_render; auto 12 using ejs_okI; try discriminate. rewrite !map_map. f_equal.
  assert (E : forall l', map eks' l' = map (fun i => ek Silog (ek Slog (ek Si (ek Sr i)))) (map (ek Sj) l')).
  { intros l'. rewrite map_map. apply map_ext. intros i. unfold eks'. rewrite !ek_comm_j by discriminate. reflexivity. }
  change (map (fun x => ek Silog (ek Slog (ek Sj (ek Si (ek Sr x))))) (ejs false l)) with (map eks' (ejs false l)).
  rewrite E, ej_ejs, <- E. apply map_ext. intros i. unfold eks, eks'. rewrite !ek_comm_j by discriminate. now rewrite ek_idem_j.
Qed.

Lemma tidy_words w ws : clean w -> Forall clean ws -> tidy (w ++ spaced ws) = w ++ spaced ws.
Proof.
  intros HW HC.
  pose proof (tidy_laid w (map (fun v => ([sp], v)) ws) HW) as H.
  rewrite map_map in H. cbn [snd] in H. rewrite map_id, <- spaced_join in H.
  rewrite <- H at 2.
  - f_equal. clear H HW. revert w. induction HC as [|v vs Hv HC IH]; intros u.
    + cbn. now rewrite app_nil_r.
    + cbn [map laid_out]. rewrite <- IH. reflexivity.
  - apply Forall_map. eapply Forall_impl; [|exact HC]. intros v Hv. cbn [fst snd]. split; auto.
    constructor; [constructor; repeat constructor|discriminate].
Qed.

Lemma clean_W w : clean w -> W w.
Proof. intros (? & ? & _). now split. Qed.

Theorem items_pre_j w l : clean w -> Forall clean (render l) -> Forall okI l ->
  (forall k, apart (run_of k) l) -> (forall k, k <> Sj -> apart (coll k) l) ->
  preprocess (w ++ spaced (render l)) = w ++ spaced (flat_map canon1 l).
Proof.
  intros HW HC HF HR HA. unfold preprocess. rewrite tidy_words by auto.
  assert (HWC : Forall W (render l)) by (eapply Forall_impl; [|exact HC]; intros v; apply clean_W).
  rewrite compress_words, cws_render, expand_words, ews_render_j, render_canon; auto using clean_W.
  - apply Forall_map. eapply Forall_impl; [|exact HF]. intros i. apply okI_cks.
  - intros k HK. eapply apart_map; [|apply (HA k HK)]. intros i Hi. apply coll_cks. now apply cnt_coll.
  - rewrite <- cws_render by auto. unfold cws. auto 10 using W_cw.
Qed.

(** ** From words to items *)

Lemma item_first i : okI i -> exists w t, render1 i = w :: t.
Proof. destruct i as [w|k ws|k ds t]; simpl; eauto. intros [H _]. destruct ws; [congruence|eauto]. Qed.
Lemma item_last i : okI i -> exists w t, render1 i = t ++ [w].
Proof.
  intros H. apply item_first in H as (w & t & ->). exists (last (w :: t) []), (removelast (w :: t)). apply app_removelast_last. discriminate.
Qed.

Lemma coll_short k i w : okI i -> coll k i = true -> In w (render1 i) -> shorthand k w.
Proof.
  destruct i as [v|k' ws|k' ds t]; cbn [coll okI render1]; intros H E HI; try discriminate.
  - apply andb_prop in E as [E _]. apply short_eqb_eq in E. subst k'. destruct H as [_ H]. rewrite Forall_forall in H.
    left. rewrite is_short_K. now apply H.
  - apply short_eqb_eq in E. subst k'. destruct HI as [<-|[]]. destruct H as (H1 & H2 & H3 & H4). right. exists (N_of_digits ds).
    exists ds, t. rewrite is_short_K. repeat split; auto.
Qed.

Lemma coll_cases k i : okI i -> coll k i = true -> run_of k i = true \/ exists n w, render1 i = [w] /\ counted k n w.
Proof.
  destruct i as [v|k' ws|k' ds t]; cbn [coll okI render1 run_of]; intros H E; try discriminate.
  - apply andb_prop in E as [E _]. auto.
  - apply short_eqb_eq in E. subst k'. destruct H as (H1 & H2 & H3 & H4). right. exists (N_of_digits ds), (ds ++ t).
    split; auto. exists ds, t. rewrite is_short_K. repeat split; auto.
Qed.

Lemma coll_apart k l : Forall okI l -> apart (run_of k) l -> ~ crowded k (render l) -> apart (coll k) l.
Proof.
  induction l as [|i l IH]; intros HF HA HN; [exact I|].
  inversion HF as [|? ? HI HF']; subst. apply apart_tail in HA as [HA HH].
  destruct l as [|j l]; [exact I|]. inversion HF' as [|? ? HJ HF'']; subst. split.
  - destruct (coll k i) eqn:EI; auto. destruct (coll k j) eqn:EJ; auto. exfalso. apply HN.
    destruct (item_last i HI) as (u & a & EU). destruct (item_first j HJ) as (v & b & EV).
    exists u, v. split; [|split; [|split]].
    + exists a, (b ++ render l). unfold render. cbn [flat_map]. rewrite EU, EV, <- app_assoc. reflexivity.
    + apply (coll_short k i); auto. rewrite EU. apply in_or_app. right. now left.
    + apply (coll_short k j); auto. rewrite EV. now left.
    + destruct (coll_cases k i HI EI) as [RI|(n & x & EX & HX)].
      * destruct (coll_cases k j HJ EJ) as [RJ|(n & x & EX & HX)].
        -- specialize (HH RI). simpl in HH. congruence.
        -- right. exists n. rewrite EV in EX. injection EX as -> _. exact HX.
      * left. exists n. rewrite EU in EX. destruct a as [|? [|]]; try discriminate. injection EX as ->. exact HX.
  - apply IH; auto. intros (u & v & (a & b & E) & H). apply HN. exists u, v. split; auto.
    exists (render1 i ++ a), b. unfold render in *. cbn [flat_map]. rewrite <- app_assoc. f_equal. exact E.
Qed.

Lemma counted_unique k n k' n' w : counted k n w -> counted k' n' w -> k = k' /\ n = n'.
Proof.
  intros H H'. apply counted_K in H as (ds & HC & <-). apply counted_K in H' as (ds' & HC' & <-).
  apply K_counted in HC as (_ & t & E & HN & HD & HK). subst w.
  destruct (short_eqb k k') eqn:EK.
  - apply short_eqb_eq in EK. subst k'. rewrite cnt_same in HC' by auto. split; congruence.
  - apply short_eqb_neq in EK. rewrite (cnt_other k k') in HC'; auto. discriminate.
Qed.

Lemma short_uncounted k k' n w : is_short k w = true -> ~ counted k' n w.
Proof. rewrite is_short_K. intros HK HC. apply counted_K in HC as (ds & HC & _). rewrite (isK_cnt k) in HC; auto. discriminate. Qed.

Lemma Forall2_reads_refl ws : Forall2 reads_as ws ws.
Proof. induction ws; constructor; auto. now left. Qed.

Lemma canon_stands i vss : okI i -> Forall2 stands_for (render1 i) vss -> Forall2 reads_as (concat vss) (canon1 i).
Proof.
  destruct i as [v|k ws|k ds t]; cbn [okI render1 canon1]; intros H HV.
  - inversion HV as [|? ? ? ? HS HT]; subst. inversion HT; subst. inversion HS as [k n w HC|w HC]; subst.
    + apply counted_K in HC as (ds & HC & _). destruct H as (_ & _ & H). now rewrite H in HC.
    + simpl. repeat constructor.
  - destruct H as [HN HK].
    assert (E : concat vss = ws).
    { clear HN. induction HV as [|w vs ws' vss' HS HT IH]; auto. inversion HK as [|? ? HW HK']; subst. cbn [concat]. rewrite IH by auto.
      inversion HS as [k' n w' HC|w' HC]; subst; auto. exfalso. revert HC. apply (short_uncounted k). now rewrite is_short_K. }
    rewrite E. destruct (Nat.leb 2 (length ws)); [|apply Forall2_reads_refl].
    clear HV E HN vss. induction HK as [|w ws HW HK IH]; constructor; auto. right. exists k. split; auto. now rewrite is_short_K.
  - destruct H as (H1 & H2 & H3 & H4). inversion HV as [|? ? ? ? HS HT]; subst. inversion HT; subst. cbn [concat]. rewrite app_nil_r.
    assert (HC : counted k (N_of_digits ds) (ds ++ t)). { exists ds, t. rewrite is_short_K. repeat split; auto. }
    inversion HS as [k' n w' HC'|w' HC']; subst.
    + destruct (counted_unique _ _ _ _ _ HC HC') as [-> ->]. apply Forall2_reads_refl.
    + exfalso. now apply (HC' k (N_of_digits ds)).
Qed.

Lemma canon_all l vss : Forall okI l -> Forall2 stands_for (render l) vss -> Forall2 reads_as (concat vss) (flat_map canon1 l).
Proof.
  intros HF. revert vss. induction HF as [|i l HI HF IH]; intros vss HV; unfold render in *; cbn [flat_map] in *.
  - inversion HV; subst. constructor.
  - apply Forall2_app_inv_l in HV as (v1 & v2 & H1 & H2 & ->). rewrite concat_app. apply Forall2_app; auto. now apply canon_stands.
Qed.

Theorem expansion w ws vss : clean w -> Forall clean ws -> Forall2 stands_for ws vss ->
  (forall v k, In v ws -> ~ counted k 0 v) -> (forall k, k <> Sj -> ~ crowded k ws) ->
  exists us, Forall2 reads_as (concat vss) us /\ preprocess (join [sp] (w :: ws)) = join [sp] (w :: us).
Proof.
  intros HW HC HV HZ HA. destruct (itemize ws) as (l & <- & HO & HR).
  { eapply Forall_impl; [|exact HC]. intros v. apply clean_W. }
  { intros v k HI HCn. now apply (HZ v k). }
  exists (flat_map canon1 l). split; [now apply canon_all|].
  rewrite <- !spaced_join. apply items_pre_j; auto. intros k HK. apply coll_apart; auto.
Qed.
