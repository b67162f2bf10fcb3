(** Substitution keeps character properties; wrapping of words and lines; comments. *)

From Coq Require Import Ascii String NArith ZArith Bool Arith Lia List.
From Verif Require Import PyStr Regex RegexParse RegexFacts RegexLang PyNum PyNumFacts Types TypesSpec TypesFacts TypesFacts3 TypesFacts4 SubFacts CardText CardTextSpec CardTextFacts CardTextFacts2 CardTextFacts3 CardTextFacts4 CardTextFacts5.
Import ListNotations.
Open Scope char_scope.

Section Pres.
  Variable P : ascii -> Prop.
  Definition inv (s : st) : Prop := Forall P (rest s) /\ Forall (fun x => Forall P (snd x)) (caps s).

  Lemma Forall_firstn (n : nat) (s : str) : Forall P s -> Forall P (firstn n s).
  Proof. intros H. revert n. induction H; intros [|n]; simpl; auto. Qed.

  Lemma M_pres r : forall s s', M r s s' -> inv s -> inv s'.
  Proof.
    induction r; simpl; intros s s' H HI.
    - now subst.
    - destruct H as (x & t & E & I & ->). destruct HI as [H1 H2]. rewrite E in H1. inversion H1; subst. split; auto.
    - destruct H as (s1 & H1 & H2). eauto.
    - destruct H as [H|H]; eauto.
    - assert (HL : forall c s s', loopR (M r) c s s' -> inv s -> inv s').
      { intros c s0 s0' HL; induction HL; eauto. }
      revert H HI. generalize (maxleft mn mx) as c. revert s s'.
      induction mn as [|n IH]; simpl; intros s s' c H HI; eauto.
      destruct H as (s1 & H1 & H2). eauto.
    - destruct H as (s1 & H1 & ->). destruct HI as [HA HB]. destruct (IHr _ _ H1 (conj HA HB)) as [HC HD]. split; simpl; auto.
      constructor; auto. simpl. now apply Forall_firstn.
    - destruct H as (E & ->). auto.
    - destruct H as (E & ->). auto.
    - destruct H as (E & ->). auto.
  Qed.

  Lemma match_pres r p s o : match_at r p s = Some o -> Forall P s ->
    Forall P (mtext o) /\ Forall P (mrest o) /\ forall n, Forall P (grp n o).
  Proof.
    unfold match_at. destruct (m r (mkst p s []) Some) as [s'|] eqn:E; [|discriminate]. intros [= <-] H.
    apply m_sound in E as (s1 & HM & [= ->]). apply M_pres in HM; [|split; simpl; auto]. destruct HM as [H1 H2].
    cbn [mtext mrest]. split; [now apply Forall_firstn|]. split; auto. intros n. unfold grp, group. cbn [mcaps mtext]. destruct n as [|n]; [now apply Forall_firstn|].
    clear - H2. induction H2 as [|x l Ht HF IH]; [constructor|]. destruct x as [i t]. cbn [lookup]. destruct (i =? S n)%nat; auto.
  Qed.

  Lemma sub_pres r f s : (forall o, (forall n, Forall P (grp n o)) -> Forall P (f o)) -> Forall P s -> Forall P (sub r f s).
  Proof.
    intros HF. unfold sub. generalize (@nil ascii) as p. generalize (S (length s)) as n. intros n. revert s.
    induction n as [|n IH]; intros s p HS; simpl; auto.
    destruct (match_at r p s) as [o|] eqn:E.
    - destruct (match_pres _ _ _ _ E HS) as (H1 & H2 & H3). 
      destruct (mtext o); apply Forall_app; split; auto. destruct HS; constructor; auto.
    - destruct HS; auto.
  Qed.
End Pres.

Lemma compress_nonl s : ~ In nl s -> ~ In nl (compress s).
Proof.
  intros H. assert (HP : Forall (fun c => c <> nl) s). { apply Forall_forall. intros c Hc ->. auto. }
  assert (G : Forall (fun c => c <> nl) (compress s)).
  { assert (HX : forall pat name s, Forall (fun c => c <> nl) (L name) -> Forall (fun c => c <> nl) s -> Forall (fun c => c <> nl) (shorten pat name s)).
    { intros pat name u HN HU. unfold shorten. apply sub_pres; auto. intros o HG.
      apply Forall_app. split; [repeat constructor; discriminate|]. apply Forall_app. split.
      - eapply Forall_impl; [|apply str_of_N_digits]. intros c Hc -> . discriminate.
      - apply Forall_app. auto. }
    unfold compress. repeat apply HX; auto; repeat constructor; discriminate. }
  rewrite Forall_forall in G. intros HI. now apply (G nl).
Qed.

(** ** Lines of the wrapped text *)

Lemma split_on_app c a b : split_on c (a ++ c :: b) = split_on c a ++ split_on c b.
Proof.
  induction a as [|x a IH]; cbn [app split_on].
  - now rewrite ceqb_refl.
  - destruct (ceqb x c); rewrite IH; auto. now destruct (split_on c a) as [|w t] eqn:E; [destruct a; simpl in E; try discriminate; destruct (ceqb a c); [discriminate|destruct (split_on c a0); discriminate]|].
Qed.
Lemma split_on_none c a : ~ In c a -> split_on c a = [a].
Proof.
  induction a as [|x a IH]; intros H; auto. cbn [split_on]. rewrite IH by (intros HI; apply H; now right).
  destruct (ceqb x c) eqn:E; auto. apply ceqb_eq in E. subst. exfalso. apply H. now left.
Qed.
Lemma split_on_pieces c a w : In w (split_on c a) -> ~ In c w /\ forall x, In x w -> In x a.
Proof.
  revert w. induction a as [|x a IH]; intros w; cbn [split_on].
  - intros [<-|[]]. simpl. auto.
  - destruct (ceqb x c) eqn:E.
    + intros [<-|HI]; [simpl; tauto|]. apply IH in HI as [H1 H2]. split; auto. intros y Hy. right. auto.
    + destruct (split_on c a) as [|v t] eqn:ES.
      * intros [<-|[]]. split; [|intros y [->|[]]; now left]. intros [->|[]]. now rewrite ceqb_refl in E.
      * intros [<-|HI].
        -- destruct (IH v) as [H1 H2]; [now left|]. split.
           ++ intros [->|H3]; [now rewrite ceqb_refl in E|auto].
           ++ intros y [->|Hy]; [now left|right; auto].
        -- destruct (IH w) as [H1 H2]; [now right|]. split; auto. intros y Hy. right; auto.
Qed.

Lemma fits_app n m a b : fits n a -> n + S (length b) <= m -> fits m (a ++ sp :: b).
Proof.
  intros [H|(w & HI & HL)] HN.
  - left. rewrite app_length. simpl. lia.
  - right. exists w. split; auto. rewrite split_on_app. apply in_or_app. now left.
Qed.

Lemma wrap_lines (ws : list str) : forall len (P : str), (forall w : str, In w ws -> ~ In nl w /\ ~ In sp w) -> ~ In nl P -> length P <= len -> fits 79 P ->
  Forall (fits 81) (split_on nl (P ++ spaced (wrap len ws))).
Proof.
  induction ws as [|w ws IH]; intros len P HW HP HL HF.
  - simpl. rewrite app_nil_r, split_on_none by auto. constructor; auto. destruct HF; [left; lia|now right].
  - cbn [wrap]. destruct (HW w (or_introl eq_refl)) as [HW1 HW2].
    assert (HW' : forall v, In v ws -> ~ In nl v /\ ~ In sp v) by (intros v Hv; apply HW; now right).
    assert (FW : forall Q, In sp Q \/ True -> fits 79 (Q ++ sp :: w) \/ length w <= 72).
    { intros Q _. destruct (le_lt_dec (length w) 72); auto. left. right. exists w. split; auto.
      rewrite split_on_app. apply in_or_app. right. rewrite split_on_none by auto. now left. }
    destruct (Nat.ltb 78 (length w + len)) eqn:E.
    + set (M := srepeat 5 [sp]).
      assert (E1 : P ++ spaced ((["&"; nl] ++ M) :: w :: wrap (5 + (length w + 1)) ws)
                 = (P ++ [sp; "&"]) ++ nl :: ((M ++ sp :: w) ++ spaced (wrap (5 + (length w + 1)) ws))).
      { cbn [spaced]. rewrite <- !app_assoc. reflexivity. }
      rewrite E1, split_on_app, split_on_none.
      2:{ intros HI. apply in_app_or in HI as [HI|[HI|[HI|[]]]]; auto; discriminate. }
      constructor; [apply (fits_app 79 81 P ["&"]); auto; simpl; lia|].
      apply IH; auto.
      * intros HI. apply in_app_or in HI as [HI|[HI|HI]]; auto; [|discriminate]. simpl in HI. repeat destruct HI as [HI|HI]; auto; discriminate.
      * rewrite app_length. simpl. lia.
      * destruct (FW M) as [F|F]; auto. left. rewrite app_length. simpl. lia.
    + apply Nat.ltb_ge in E.
      assert (E1 : P ++ spaced (w :: wrap (len + (length w + 1)) ws) = (P ++ sp :: w) ++ spaced (wrap (len + (length w + 1)) ws)).
      { cbn [spaced]. rewrite <- !app_assoc. reflexivity. }
      rewrite E1. apply IH; auto.
      * intros HI. apply in_app_or in HI as [HI|[HI|HI]]; auto. discriminate.
      * rewrite app_length. simpl. lia.
      * left. rewrite app_length. simpl. lia.
Qed.

Theorem lines_bounded s : ~ In nl s -> Forall (fits 81) (lines (postprocess s)).
Proof.
  intros H. unfold lines, postprocess. apply compress_nonl in H. 
  assert (HW : forall w, In w (split_on sp (compress s)) -> ~ In nl w /\ ~ In sp w).
  { intros w0 HI. apply split_on_pieces in HI as [H1 H2]. split; auto. }
  destruct (split_on sp (compress s)) as [|w ws] eqn:ES; [simpl; repeat constructor; simpl; lia|].
  destruct (HW w (or_introl eq_refl)) as [HW1 HW2].
  assert (HW' : forall v, In v ws -> ~ In nl v /\ ~ In sp v) by (intros v Hv; apply HW; now right).
  cbn [wrap]. destruct (Nat.ltb 78 (length w + 0)) eqn:E.
  - set (M := srepeat 5 [sp]).
    rewrite <- spaced_join.
    assert (E1 : (["&"; nl] ++ M) ++ spaced (w :: wrap (5 + (length w + 1)) ws)
               = ["&"] ++ nl :: ((M ++ sp :: w) ++ spaced (wrap (5 + (length w + 1)) ws))).
    { cbn [spaced]. rewrite <- !app_assoc. reflexivity. }
    rewrite E1, split_on_app, split_on_none by (intros [HI|[]]; discriminate).
    constructor; [left; simpl; lia|]. apply wrap_lines; auto.
    + intros HI. apply in_app_or in HI as [HI|[HI|HI]]; auto; [|discriminate]. simpl in HI. repeat destruct HI as [HI|HI]; auto; discriminate.
    + rewrite app_length. simpl. lia.
    + destruct (le_lt_dec (length w) 72); [left; rewrite app_length; simpl; lia|].
      right. exists w. split; auto. rewrite split_on_app. apply in_or_app. right. rewrite split_on_none by auto. now left.
  - apply Nat.ltb_ge in E. rewrite <- spaced_join. apply wrap_lines; auto; [lia|]. left. lia.
Qed.

(** The first line obeys 80 columns. *)
Lemma wrap_first (ws : list str) : forall len (P : str), (forall w : str, In w ws -> ~ In nl w) -> ~ In nl P -> length P < len -> length P <= 78 ->
  exists l t, split_on nl (P ++ spaced (wrap len ws)) = l :: t /\ length l <= 80.
Proof.
  induction ws as [|w ws IH]; intros len P HW HP HL HF.
  - simpl. rewrite app_nil_r, split_on_none by auto. exists P, []. split; auto.
  - cbn [wrap]. pose proof (HW w (or_introl eq_refl)) as HW1.
    assert (HW' : forall v, In v ws -> ~ In nl v) by (intros v Hv; apply HW; now right).
    destruct (Nat.ltb 78 (length w + len)) eqn:E.
    + set (M := srepeat 5 [sp]).
      assert (E1 : P ++ spaced ((["&"; nl] ++ M) :: w :: wrap (5 + (length w + 1)) ws)
                 = (P ++ [sp; "&"]) ++ nl :: ((M ++ sp :: w) ++ spaced (wrap (5 + (length w + 1)) ws))).
      { cbn [spaced]. rewrite <- !app_assoc. reflexivity. }
      rewrite E1, split_on_app, split_on_none.
      2:{ intros HI. apply in_app_or in HI as [HI|[HI|[HI|[]]]]; auto; discriminate. }
      eexists _, _. split; [reflexivity|]. rewrite app_length. simpl. lia.
    + apply Nat.ltb_ge in E.
      assert (E1 : P ++ spaced (w :: wrap (len + (length w + 1)) ws) = (P ++ sp :: w) ++ spaced (wrap (len + (length w + 1)) ws)).
      { cbn [spaced]. rewrite <- !app_assoc. reflexivity. }
      rewrite E1. apply IH; auto.
      * intros HI. apply in_app_or in HI as [HI|[HI|HI]]; auto. discriminate.
      * rewrite app_length. simpl. lia.
      * rewrite app_length. simpl. lia.
Qed.

Theorem first_line_bounded s : ~ In nl s -> exists l t, lines (postprocess s) = l :: t /\ length l <= 80.
Proof.
  intros H. unfold lines, postprocess. apply compress_nonl in H.
  assert (HW : forall w, In w (split_on sp (compress s)) -> ~ In nl w).
  { intros w0 HI. apply split_on_pieces in HI as [H1 H2]. auto. }
  destruct (split_on sp (compress s)) as [|w ws] eqn:ES; [simpl; eexists _, _; split; [reflexivity|simpl; lia]|].
  cbn [wrap]. destruct (Nat.ltb 78 (length w + 0)) eqn:E.
  - set (M := srepeat 5 [sp]). rewrite <- spaced_join.
    assert (E1 : (["&"; nl] ++ M) ++ spaced (w :: wrap (5 + (length w + 1)) ws)
               = ["&"] ++ nl :: ((M ++ sp :: w) ++ spaced (wrap (5 + (length w + 1)) ws))).
    { cbn [spaced]. rewrite <- !app_assoc. reflexivity. }
    rewrite E1, split_on_app, split_on_none by (intros [HI|[]]; discriminate).
    eexists _, _. split; [reflexivity|]. simpl. lia.
  - apply Nat.ltb_ge in E. rewrite <- spaced_join. apply wrap_first; try lia.
    + intros v Hv. apply HW. now right.
    + apply HW. now left.
Qed.

(** ** The wrapped text is a layout of its words *)

Definition brk : str := [sp; "&"; nl] ++ srepeat 6 [sp].

Lemma wrap_layout (ws : list str) : forall len (P : str), exists l : list (str * str), map snd l = ws /\ Forall (fun x => fst x = [sp] \/ fst x = brk) l /\
  P ++ spaced (wrap len ws) = laid_out P l.
Proof.
  induction ws as [|w ws IH]; intros len P.
  - exists []. simpl. rewrite app_nil_r. auto.
  - cbn [wrap]. destruct (Nat.ltb 78 (length w + len)).
    + destruct (IH (5 + (length w + 1)) w) as (l & E1 & E2 & E3). exists ((brk, w) :: l). cbn [map snd laid_out]. rewrite E1, <- E3.
      split; auto.
    + destruct (IH (len + (length w + 1)) w) as (l & E1 & E2 & E3). exists (([sp], w) :: l). cbn [map snd laid_out]. rewrite E1, <- E3.
      split; auto.
Qed.

Lemma brk_separator : separator brk.
Proof.
  constructor; [|discriminate]. change brk with ([sp] ++ ("&" :: [] ++ nl :: srepeat 6 [sp]) ++ []).
  apply G_break; try (repeat constructor).
  discriminate.
Qed.

Lemma split_words w ws : ~ In sp w -> Forall (fun v => ~ In sp v) ws -> split_on sp (w ++ spaced ws) = w :: ws.
Proof.
  intros HW HF. revert w HW. induction HF as [|v ws HV HF IH]; intros w HW.
  - simpl. rewrite app_nil_r. now apply split_on_none.
  - change (spaced (v :: ws)) with (sp :: v ++ spaced ws).
    rewrite (split_on_app sp w (v ++ spaced ws)), split_on_none by auto. now rewrite IH.
Qed.

Lemma nospace_nosp w : nospace w -> ~ In sp w.
Proof. intros H HI. unfold nospace, allc in H. rewrite Forall_forall in H. specialize (H sp HI). discriminate. Qed.

(** ** Comments *)

Lemma split1_none c s : ~ In c s -> split1 c s = (s, None).
Proof.
  induction s as [|x s IH]; intros H; auto. cbn [split1]. destruct (ceqb x c) eqn:E.
  - apply ceqb_eq in E. subst. exfalso. apply H. now left.
  - rewrite IH; auto. intros HI. apply H. now right.
Qed.
Lemma split1_some c a b : ~ In c a -> split1 c (a ++ c :: b) = (a, Some b).
Proof.
  induction a as [|x a IH]; intros H; cbn [app split1].
  - now rewrite ceqb_refl.
  - destruct (ceqb x c) eqn:E.
    + apply ceqb_eq in E. subst. exfalso. apply H. now left.
    + rewrite IH; auto. intros HI. apply H. now right.
Qed.
Lemma split_on_nonempty c s : split_on c s <> [].
Proof. destruct s as [|a s]; cbn [split_on]; [discriminate|]. destruct (ceqb a c); [discriminate|]. destruct (split_on c s); discriminate. Qed.
Lemma join_split c s : join [c] (split_on c s) = s.
Proof.
  induction s as [|x s IH]; auto. cbn [split_on]. destruct (ceqb x c) eqn:E.
  - apply ceqb_eq in E. subst. destruct (split_on c s) as [|w t] eqn:ES.
    + now apply split_on_nonempty in ES.
    + cbn [join app]. f_equal. exact IH.
  - destruct (split_on c s) as [|w t] eqn:ES; [simpl in *; now subst|].
    destruct t; cbn [join app] in *; now f_equal.
Qed.
Lemma split_join c ls : ls <> [] -> Forall (fun l => ~ In c l) ls -> split_on c (join [c] ls) = ls.
Proof.
  intros HN HF. induction HF as [|l ls Hl HF IH]; [congruence|]. destruct ls as [|k ls].
  - simpl. now apply split_on_none.
  - change (join [c] (l :: k :: ls)) with (l ++ c :: join [c] (k :: ls)). rewrite split_on_app, split_on_none by auto.
    rewrite IH by discriminate. reflexivity.
Qed.

Lemma card_nocomment s : ~ In "$" s -> card_preprocess s = (preprocess s, []).
Proof.
  intros H. unfold card_preprocess, split_comments.
  assert (E : forall l, (forall x, In x l -> ~ In "$" x) -> map (split1 "$") l = map (fun x => (x, None)) l).
  { induction l as [|x l IH]; intros HX; auto. cbn [map]. rewrite split1_none, IH; auto. intros; apply HX; now right. now apply HX; left. }
  rewrite E.
  - rewrite !map_map. cbn [fst]. rewrite map_id, join_split. f_equal.
    induction (split_on nl s); auto.
  - intros x Hx HI. apply split_on_pieces in Hx as [_ Hx]. auto.
Qed.

Theorem comments_separated (ls : list (str * option str)) : ls <> [] ->
  Forall (fun x => ~ In nl (fst x) /\ ~ In "$" (fst x) /\ forall c, snd x = Some c -> ~ In nl c) ls ->
  card_preprocess (join [nl] (map (fun x => fst x ++ match snd x with Some c => "$" :: c | None => [] end) ls))
  = (preprocess (join [nl] (map fst ls)), flat_map (fun x => match snd x with Some c => [c] | None => [] end) ls).
Proof.
  intros HN HF. unfold card_preprocess, split_comments. rewrite split_join.
  - match goal with |- context [map (split1 "$") (map ?F ls)] => assert (E : map (split1 "$") (map F ls) = ls) end.
    { clear HN. induction HF as [|[a [c|]] ls (H1 & H2 & H3) HF IH]; auto; cbn [map fst snd] in *; rewrite IH; f_equal.
      - now apply split1_some.
      - rewrite app_nil_r. now apply split1_none. }
    rewrite E. reflexivity.
  - destruct ls; [congruence|discriminate].
  - apply Forall_map. eapply Forall_impl; [|exact HF]. intros [a [c|]] (H1 & H2 & H3); cbn [fst snd] in *.
    + intros HI. apply in_app_or in HI as [HI|[HI|HI]]; auto; [discriminate|]. now apply (H3 c).
    + now rewrite app_nil_r.
Qed.

(** ** Writing and reading back *)

Lemma counted_clean n k : clean (str_of_N n ++ short_name k).
Proof.
  pose proof (str_of_N_digits n) as HD. pose proof (str_of_N_nonempty n) as HN.
  assert (HS : nospace (short_name k)) by (destruct k; repeat constructor).
  assert (HL : forall d, last (str_of_N n ++ short_name k) d = last (short_name k) d).
  { intros d. destruct k; cbn [short_name L list_ascii_of_string];
    induction (str_of_N n) as [|c s IH]; auto; inversion HD; subst; destruct s; auto; apply IH; auto; discriminate. }
  repeat split.
  - destruct (str_of_N n); [congruence|discriminate].
  - apply Forall_app. split; auto. eapply Forall_impl; [|exact HD]. intros c Hc. destruct c as [[] [] [] [] [] [] [] []]; try discriminate; reflexivity.
  - intros HI. apply in_app_or in HI as [HI|HI].
    + unfold digits, allc in HD. rewrite Forall_forall in HD. specialize (HD _ HI). discriminate.
    + destruct k; simpl in HI; repeat destruct HI as [HI|HI]; auto; discriminate.
  - intros HI. apply in_app_or in HI as [HI|HI].
    + unfold digits, allc in HD. rewrite Forall_forall in HD. specialize (HD _ HI). discriminate.
    + destruct k; simpl in HI; repeat destruct HI as [HI|HI]; auto; discriminate.
  - rewrite HL. destruct k; discriminate.
  - rewrite HL. destruct k; discriminate.
  - destruct (str_of_N n) as [|c s]; [congruence|]. simpl. intros ->. inversion HD; subst. discriminate.
Qed.

Lemma clean_ck k l : Forall clean (render l) -> Forall clean (render (map (ck k) l)).
Proof.
  unfold render. induction l as [|i l IH]; intros H; auto. cbn [map flat_map] in *. apply Forall_app in H as [H1 H2].
  apply Forall_app. split; auto. destruct i as [w|k' ws|k' ds t]; auto. cbn [ck]. destruct (_ && _); auto.
  cbn [render1]. constructor; auto. apply counted_clean.
Qed.

Lemma laid_nodollar w l : ~ In "$" w -> Forall (fun x => fst x = [sp] \/ fst x = brk) l -> Forall (fun x => ~ In "$" (snd x)) l ->
  ~ In "$" (laid_out w l).
Proof.
  intros HW HF. revert w HW. induction HF as [|[s v] l HS HF IH]; intros w HW HV; auto. inversion HV; subst. cbn [laid_out fst snd] in *.
  intros HI. apply in_app_or in HI as [HI|HI]; auto. apply in_app_or in HI as [HI|HI]; [|now apply IH in HI].
  destruct HS as [-> | ->]; simpl in HI; repeat destruct HI as [HI|HI]; auto; discriminate.
Qed.

Lemma concat_map_single (ws : list str) : concat (map (fun w => [w]) ws) = ws.
Proof. induction ws; simpl; congruence. Qed.

Theorem write_read w ws : clean w -> length w <= 78 -> Forall clean ws ->
  (forall v k n, In v ws -> ~ counted k n v) ->
  exists us, Forall2 reads_as ws us /\
             card_preprocess (postprocess (join [sp] (w :: ws))) = (join [sp] (w :: us), []).
Proof.
  intros HW HL HC HN. destruct (itemize ws) as (l & <- & HO & HR).
  { eapply Forall_impl; [|exact HC]. intros v. apply clean_W. }
  { intros v k HI HCn. now apply (HN v k 0%N). }
  exists (flat_map canon1 l). split.
  { rewrite <- (concat_map_single (render l)). apply canon_all; auto. clear - HN. induction (render l) as [|v vs IH]; constructor.
    - apply SF_word. intros k n. apply HN. now left.
    - apply IH. intros; apply HN; now right. }
  assert (HCR : Forall clean (render (map cks l))).
  { unfold cks. replace (map _ l) with (map (ck Silog) (map (ck Slog) (map (ck Si) (map (ck Sr) (map (ck Sj) l))))) by now rewrite !map_map.
    auto 10 using clean_ck. }
  assert (HCW : Forall W (render l)) by (eapply Forall_impl; [|exact HC]; intros v; apply clean_W).
  unfold postprocess. rewrite <- spaced_join, compress_words, cws_render by auto using clean_W.
  rewrite split_words.
  2:{ apply nospace_nosp. apply HW. }
  2:{ eapply Forall_impl; [|exact HCR]. intros v Hv. apply nospace_nosp. apply Hv. }
  cbn [wrap]. replace (Nat.ltb 78 (length w + 0)) with false by (symmetry; apply Nat.ltb_ge; lia).
  rewrite <- spaced_join. destruct (wrap_layout (render (map cks l)) (0 + (length w + 1)) w) as (ly & E1 & E2 & E3). rewrite E3.
  assert (HCL : Forall (fun x => clean (snd x)) ly). { rewrite <- E1 in HCR. rewrite Forall_map in HCR. exact HCR. }
  rewrite card_nocomment.
  2:{ apply laid_nodollar; auto. apply HW. eapply Forall_impl; [|exact HCL]. intros x Hx. apply Hx. }
  f_equal. unfold preprocess. rewrite tidy_laid; auto.
  2:{ clear - E2 HCL. induction E2 as [|x ly HX E2 IH]; constructor; inversion HCL; subst; auto. split; auto.
      destruct x as [a b]. cbn [fst snd] in *. destruct HX as [HX|HX]; subst a; [|apply brk_separator].
      constructor; [constructor; repeat constructor|discriminate]. }
  assert (HCW' : Forall W (render (map cks l))) by (eapply Forall_impl; [|exact HCR]; intros v; apply clean_W).
  assert (HOC : Forall okI (map cks l)) by (apply Forall_map; eapply Forall_impl; [|exact HO]; intros i; apply okI_cks).
  assert (HI : map cks (map cks l) = map cks l).
  { rewrite map_map. apply map_ext_in. intros i Hi. apply cks_idem. rewrite Forall_forall in HO. auto. }
  rewrite E1, <- !spaced_join, compress_words, cws_render, HI, expand_words, ews_render_j, render_canon; auto using clean_W.
  - intros k HK. eapply apart_map; [|apply (coll_apart k l)]; auto.
    + intros i Hi. apply coll_cks. now apply cnt_coll.
    + intros (u & v & (a & b & E) & _ & _ & [(n & X)|(n & X)]); revert X; apply HN; rewrite E; apply in_or_app; right; simpl; auto.
  - intros k. eapply apart_map; [|apply (HR k)]. intros i. apply run_cks.
Qed.

Theorem layout_free w l : clean w -> Forall (fun x => separator (fst x) /\ clean (snd x)) l ->
  preprocess (laid_out w l) = preprocess (join [sp] (w :: map snd l)).
Proof.
  intros HW HL. unfold preprocess. rewrite tidy_laid by auto. rewrite <- spaced_join, tidy_words; auto.
  apply Forall_map. eapply Forall_impl; [|exact HL]. now intros x [_ Hx].
Qed.

Theorem write_read_exact w ws : clean w -> length w <= 78 -> Forall clean ws ->
  (forall v k n, In v ws -> ~ counted k n v) -> (forall v k, In v ws -> is_short k v = true -> v = short_name k) ->
  card_preprocess (postprocess (join [sp] (w :: ws))) = (join [sp] (w :: ws), []).
Proof.
  intros HW HL HC HN HS. destruct (write_read w ws) as (us & HR & E); auto. rewrite E. repeat f_equal.
  clear - HR HS. induction HR as [|v u ws us HV HR IH]; auto. f_equal.
  - destruct HV as [->|(k & HK & ->)]; auto. symmetry. apply HS; auto. now left.
  - apply IH. intros; apply HS; auto. now right.
Qed.
