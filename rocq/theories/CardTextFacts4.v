(** The text layer on lists of words: compression and expansion cancel, wrapping
    is undone, lines are bounded. *)

From Coq Require Import Ascii String NArith ZArith Bool Arith Lia List.
From Verif Require Import PyStr Regex RegexParse RegexFacts RegexLang PyNum PyNumFacts Types TypesSpec TypesFacts TypesFacts3 TypesFacts4 SubFacts CardText CardTextSpec CardTextFacts CardTextFacts2 CardTextFacts3.
Import ListNotations.
Open Scope char_scope.

Notation KK k := (isK (kd k) (kl k)).

Definition ck (k : short) (i : item) : item :=
  match i with
  | IRun k' ws => if short_eqb k k' && Nat.leb 2 (length ws)
                  then ICnt k (str_of_N (N.of_nat (length ws))) (short_name k) else i
  | _ => i
  end.
Definition ek (k : short) (i : item) : item :=
  match i with
  | ICnt k' ds t => if short_eqb k k' then IRun k (repeat (short_name k) (N.to_nat (N_of_digits ds))) else i
  | _ => i
  end.

Lemma short_eqb_refl k : short_eqb k k = true.
Proof. now apply short_eqb_eq. Qed.
Lemma short_eqb_neq a b : short_eqb a b = false <-> a <> b.
Proof. destruct a, b; split; intros; try discriminate; try congruence; auto. Qed.

Lemma name_K k : KK k (short_name k) = true.
Proof. destruct k; reflexivity. Qed.

Lemma okI_ck k i : okI i -> okI (ck k i).
Proof.
  destruct i as [w|k' ws|k' ds t]; cbn [ck]; auto. intros H.
  destruct (short_eqb k k' && Nat.leb 2 (length ws)) eqn:E; auto. apply andb_prop in E as [E1 E2]. apply Nat.leb_le in E2.
  cbn [okI]. split; [apply str_of_N_nonempty|]. split; [apply str_of_N_digits|]. split; [apply name_K|]. rewrite N_of_str_of_N. lia.
Qed.
Lemma okI_ek k i : okI i -> okI (ek k i).
Proof.
  destruct i as [w|k' ws|k' ds t]; simpl; auto. intros (H1 & H2 & H3 & H4).
  destruct (short_eqb k k') eqn:E; simpl; auto. split.
  - destruct (N.to_nat (N_of_digits ds)) eqn:EN; [lia|discriminate].
  - apply Forall_forall. intros x Hx. apply repeat_spec in Hx. subst. apply name_K.
Qed.

(** ** Compression *)

Lemma cwd_nonK k ws R : Forall (fun w => KK k w = false) ws ->
  cwd (kd k) (kl k) (short_name k) 0 (ws ++ R) = ws ++ cwd (kd k) (kl k) (short_name k) 0 R.
Proof. induction 1 as [|w ws H HF IH]; auto. cbn [app cwd]. rewrite H. now f_equal. Qed.

Lemma krun_app k ws R : Forall (fun w => KK k w = true) ws -> krun (kd k) (kl k) R = 0 ->
  krun (kd k) (kl k) (ws ++ R) = length ws.
Proof. induction 1 as [|w ws H HF IH]; intros HR; auto. cbn [app krun length]. rewrite H. auto. Qed.

Lemma cwd_run k ws R : Forall (fun w => KK k w = true) ws -> krun (kd k) (kl k) R = 0 ->
  cwd (kd k) (kl k) (short_name k) 0 (ws ++ R)
  = (if Nat.leb 2 (length ws) then [num (short_name k) (length ws)] else ws) ++ cwd (kd k) (kl k) (short_name k) 0 R.
Proof.
  intros HF HR. destruct ws as [|w ws]; auto. inversion HF as [|? ? HW HF']; subst.
  cbn [app cwd]. rewrite HW, krun_app; auto. destruct ws as [|v ws]; [reflexivity|].
  cbn [length Nat.leb]. rewrite cwd_skip. cbn [app]. f_equal. 
  change (v :: ws ++ R) with ((v :: ws) ++ R). change (S (length ws)) with (length (v :: ws)). rewrite skipn_app, skipn_all, Nat.sub_diag. reflexivity.
Qed.

Lemma krun_render k l : Forall okI l -> (match l with i :: _ => run_of k i | [] => false end) = false ->
  krun (kd k) (kl k) (render l) = 0.
Proof.
  intros HF HR. destruct l as [|i l]; auto. inversion HF as [|? ? HI HF']; subst.
  unfold render. cbn [flat_map]. destruct i as [w|k' ws|k' ds t]; cbn [render1 app] in *.
  - destruct HI as (_ & HK & _). cbn [krun]. now rewrite HK.
  - destruct HI as [HN HW]. destruct ws as [|w ws]; [congruence|]. inversion HW; subst. cbn [app krun].
    simpl in HR. rewrite (isK_other k'); auto. intros ->. now rewrite short_eqb_refl in HR.
  - destruct HI as (H1 & H2 & H3 & _). cbn [krun]. now destruct (cnt_notK k k' ds t) as [-> _].
Qed.

Lemma apart_tail P i l : apart P (i :: l) -> apart P l /\ (P i = true -> match l with j :: _ => P j | [] => false end = false).
Proof. destruct l as [|j l]; simpl; auto. intros [H1 H2]. split; auto. intros E. now rewrite E in H1. Qed.

Lemma cw_render k l : Forall okI l -> apart (run_of k) l -> cw k (render l) = render (map (ck k) l).
Proof.
  unfold cw. induction l as [|i l IH]; intros HF HA; auto.
  inversion HF as [|? ? HI HF']; subst. apply apart_tail in HA as [HA HH].
  unfold render in *. cbn [flat_map map]. destruct i as [w|k' ws|k' ds t]; cbn [render1 ck].
  - destruct HI as (_ & HK & _). rewrite cwd_nonK by auto. now rewrite IH.
  - destruct HI as [HN HW]. destruct (short_eqb k k') eqn:E.
    + apply short_eqb_eq in E. subst k'. rewrite cwd_run; auto.
      * cbn [andb]. destruct (Nat.leb 2 (length ws)); cbn [render1]; now rewrite IH.
      * apply (krun_render k l); auto. apply HH. simpl. apply short_eqb_refl.
    + cbn [andb render1]. rewrite cwd_nonK.
      * now rewrite IH.
      * eapply Forall_impl; [|exact HW]. intros w HKw. apply (isK_other k'); auto. apply short_eqb_neq in E. congruence.
  - destruct HI as (H1 & H2 & H3 & _). rewrite cwd_nonK; [now rewrite IH|]. constructor; auto. now apply (cnt_notK k k').
Qed.

(** ** Expansion *)

Lemma ewd_skip k ws R b : Forall (fun w => cntK (kd k) (kl k) w = None) ws -> ws <> [] ->
  ewd (kd k) (kl k) (short_name k) b (ws ++ R) = ws ++ ewd (kd k) (kl k) (short_name k) false R.
Proof.
  intros HF HN. destruct HF as [|w ws H HF]; [congruence|]. cbn [app ewd]. rewrite H.
  assert (E : ewd (kd k) (kl k) (short_name k) false (ws ++ R) = ws ++ ewd (kd k) (kl k) (short_name k) false R).
  { clear HN. induction HF as [|v ws HV HF IH]; auto. cbn [app ewd]. rewrite HV. now f_equal. }
  rewrite E. now destruct b.
Qed.

Lemma ew_render k l b : Forall okI l -> apart (cnt_of k) l ->
  (b = true -> match l with i :: _ => cnt_of k i | [] => false end = false) ->
  ewd (kd k) (kl k) (short_name k) b (render l) = render (map (ek k) l).
Proof.
  revert b. induction l as [|i l IH]; intros b HF HA HB; [now destruct b|].
  inversion HF as [|? ? HI HF']; subst. apply apart_tail in HA as [HA HH].
  unfold render in *. cbn [flat_map map]. destruct i as [w|k' ws|k' ds t]; cbn [render1 ek].
  - destruct HI as (_ & _ & HC). rewrite ewd_skip; auto; [|discriminate]. rewrite IH; auto; discriminate.
  - destruct HI as [HN HW]. rewrite ewd_skip; auto.
    + rewrite IH; auto; discriminate.
    + eapply Forall_impl; [|exact HW]. intros w HKw. apply (isK_cnt k'); auto.
  - destruct HI as (H1 & H2 & H3 & _). destruct (short_eqb k k') eqn:E.
    + pose proof E as E'. apply short_eqb_eq in E. subst k'.
      destruct b; [specialize (HB eq_refl); simpl in HB; congruence|].
      cbn [app ewd]. rewrite cnt_same by auto. rewrite IH; auto.
    + rewrite ewd_skip; [|constructor; auto|discriminate].
      * rewrite IH; auto; discriminate.
      * apply (cnt_other k'); auto. apply short_eqb_neq in E. congruence.
Qed.

(** ** All passes *)

Lemma apart_map (P Q : item -> bool) f l : (forall i, P (f i) = true -> Q i = true) -> apart Q l -> apart P (map f l).
Proof.
  intros H. induction l as [|i l IH]; auto. intros HA. apply apart_tail in HA as HB. destruct HB as [HB HC].
  destruct l as [|j l]; [exact I|]. cbn [map] in *. split; [|now apply IH].
  destruct (P (f i)) eqn:E1; auto. destruct (P (f j)) eqn:E2; auto. apply H in E1. apply H in E2. specialize (HC E1). congruence.
Qed.

Definition coll (k : short) (i : item) : bool :=
  match i with
  | IRun k' ws => short_eqb k k' && Nat.leb 2 (length ws)
  | ICnt k' _ _ => short_eqb k k'
  | _ => false
  end.

Lemma run_ck k k' i : run_of k (ck k' i) = true -> run_of k i = true.
Proof. destruct i as [w|x ws|x ds t]; simpl; auto. destruct (short_eqb k' x && _); simpl; auto. discriminate. Qed.
Lemma coll_ck k k' i : coll k (ck k' i) = true -> coll k i = true.
Proof.
  destruct i as [w|x ws|x ds t]; simpl; auto. destruct (short_eqb k' x && _) eqn:E; simpl; auto.
  apply andb_prop in E as [E1 E2]. apply short_eqb_eq in E1. subst x. intros E. now rewrite E, E2.
Qed.
Lemma cnt_ek k k' i : cnt_of k (ek k' i) = true -> cnt_of k i = true.
Proof. destruct i as [w|x ws|x ds t]; simpl; auto. destruct (short_eqb k' x); simpl; auto. discriminate. Qed.

Definition cks (i : item) : item := ck Silog (ck Slog (ck Si (ck Sr (ck Sj i)))).
Definition eks (i : item) : item := ek Silog (ek Slog (ek Sj (ek Si (ek Sr (ek Sj i))))).

Lemma cws_render l : Forall okI l -> (forall k, apart (run_of k) l) -> cws (render l) = render (map cks l).
Proof.
  intros HF HA. unfold cws.
  assert (HO : forall k l, Forall okI l -> Forall okI (map (ck k) l)).
  { intros k l' H. apply Forall_map. eapply Forall_impl; [|exact H]. intros i. apply okI_ck. }
  assert (HP : forall k k' l, apart (run_of k) l -> apart (run_of k) (map (ck k') l)).
  { intros k k' l'. apply apart_map. intros i. apply run_ck. }
  rewrite !cw_render; auto 10. now rewrite !map_map.
Qed.

Lemma ews_render l : Forall okI l -> (forall k, apart (cnt_of k) l) -> ews (render l) = render (map eks l).
Proof.
  intros HF HA. unfold ews, ew.
  assert (HO : forall k l, Forall okI l -> Forall okI (map (ek k) l)).
  { intros k l' H. apply Forall_map. eapply Forall_impl; [|exact H]. intros i. apply okI_ek. }
  assert (HP : forall k k' l, apart (cnt_of k) l -> apart (cnt_of k) (map (ek k') l)).
  { intros k k' l'. apply apart_map. intros i. apply cnt_ek. }
  rewrite !ew_render; auto 12; try discriminate. now rewrite !map_map.
Qed.

(** The canonical words of an item. *)
Definition canon1 (i : item) : list str :=
  match i with
  | IPlain w => [w]
  | IRun k ws => if Nat.leb 2 (length ws) then repeat (short_name k) (length ws) else ws
  | ICnt k ds _ => repeat (short_name k) (N.to_nat (N_of_digits ds))
  end.

Lemma full_pass i : okI i -> render1 (eks (cks i)) = canon1 i.
Proof.
  destruct i as [w|k ws|k ds t]; intros H.
  - reflexivity.
  - destruct H as [HN HW]. cbn [canon1]. destruct (Nat.leb 2 (length ws)) eqn:E.
    + unfold cks, eks. destruct k; cbn [ck short_eqb andb ek]; rewrite E; cbn [ck short_eqb andb ek render1];
      now rewrite N_of_str_of_N, Nnat.Nat2N.id.
    + unfold cks, eks. destruct k; cbn [ck short_eqb andb ek]; rewrite E; reflexivity.
  - destruct k; reflexivity.
Qed.

Lemma cks_idem i : okI i -> cks (cks i) = cks i.
Proof.
  destruct i as [w|k ws|k ds t]; intros H; auto.
  unfold cks. destruct k; cbn [ck short_eqb andb]; destruct (Nat.leb 2 (length ws)) eqn:E; cbn [ck short_eqb andb]; rewrite ?E; reflexivity.
Qed.

Lemma okI_cks i : okI i -> okI (cks i).
Proof. intros H. unfold cks. auto 10 using okI_ck. Qed.
Lemma coll_cks k i : coll k (cks i) = true -> coll k i = true.
Proof. intros H. unfold cks in H. eauto 10 using coll_ck. Qed.
Lemma run_cks k i : run_of k (cks i) = true -> run_of k i = true.
Proof. intros H. unfold cks in H. eauto 10 using run_ck. Qed.
Lemma cnt_coll k i : cnt_of k i = true -> coll k i = true.
Proof. destruct i; simpl; auto; discriminate. Qed.

Lemma render_canon l : Forall okI l -> render (map eks (map cks l)) = flat_map canon1 l.
Proof.
  induction 1 as [|i l HI HF IH]; auto. cbn [map]. unfold render in *. cbn [flat_map]. rewrite IH. f_equal. now apply full_pass.
Qed.

Theorem items_pre w l : clean w -> Forall clean (render l) -> Forall okI l ->
  (forall k, apart (run_of k) l) -> (forall k, apart (coll k) l) ->
  preprocess (w ++ spaced (render l)) = w ++ spaced (flat_map canon1 l).
Proof.
  intros HW HC HF HR HA. unfold preprocess.
  assert (ET : tidy (w ++ spaced (render l)) = w ++ spaced (render l)).
  { pose proof (tidy_laid w (map (fun v => ([sp], v)) (render l)) HW) as H.
    rewrite map_map in H. cbn [snd] in H. rewrite map_id, <- spaced_join in H.
    rewrite <- H at 2.
    - f_equal. clear H. generalize w. induction (render l) as [|v vs IH]; intros u.
      + cbn. now rewrite app_nil_r.
      + cbn [map laid_out]. rewrite <- IH by now inversion HC. reflexivity.
    - apply Forall_map. eapply Forall_impl; [|exact HC]. intros v Hv. cbn [fst snd]. split; auto.
      constructor; [constructor; repeat constructor|discriminate]. }
  assert (HWW : W w) by (destruct HW as (? & ? & _); now split).
  assert (HWC : Forall W (render l)) by (eapply Forall_impl; [|exact HC]; intros v (? & ? & _); now split).
  rewrite ET, compress_words, cws_render, expand_words, ews_render, render_canon; auto.
  - apply Forall_map. eapply Forall_impl; [|exact HF]. intros i. apply okI_cks.
  - intros k. eapply apart_map; [|apply (HA k)]. intros i Hi. apply coll_cks. now apply cnt_coll.
  - rewrite <- cws_render by auto. unfold cws. auto 10 using W_cw.
Qed.

(** ** Every list of words is a list of items *)

Lemma is_short_K k w : is_short k w = KK k w.
Proof.
  unfold is_short, isK, slower.
  assert (HI : forall a b c, (a = b + 32)%N -> (65 <= b <= 90)%N -> ceqb (lower c) (chr a) = inset (cs_ic a b) c).
  { intros a b c -> Hb. rewrite inset_ic.
    pose proof (N_ascii_bounded c) as Hc. unfold lower. cbn zeta. unfold code in *.
    destruct ((65 <=? N_of_ascii c) && (N_of_ascii c <=? 90))%N eqn:E.
    - apply andb_prop in E as [E1 E2]. apply N.leb_le in E1, E2. unfold ceqb, chr.
      destruct (Ascii.eqb_spec (ascii_of_N (N_of_ascii c + 32)) (ascii_of_N (b + 32))) as [X|X].
      + apply (f_equal N_of_ascii) in X. rewrite !N_ascii_embedding in X by lia. symmetry. apply orb_true_intro. right. apply N.eqb_eq. lia.
      + symmetry. apply orb_false_intro; apply N.eqb_neq; [lia|]. intros Y. apply X. now rewrite Y.
    - unfold ceqb, chr. destruct (Ascii.eqb_spec c (ascii_of_N (b + 32))) as [X|X].
      + subst c. rewrite N_ascii_embedding by lia. now rewrite N.eqb_refl.
      + symmetry. apply orb_false_intro; apply N.eqb_neq; intros Y.
        * apply X. now rewrite <- Y, ascii_N_embedding.
        * rewrite Y in E. apply andb_false_iff in E as [E|E]; apply N.leb_gt in E; lia. }
  assert (Ej : forall c, ceqb (lower c) "j" = inset (cs_ic 106 74) c) by (intros c; apply (HI 106%N 74%N c); lia).
  assert (Er : forall c, ceqb (lower c) "r" = inset (cs_ic 114 82) c) by (intros c; apply (HI 114%N 82%N c); lia).
  assert (Ei : forall c, ceqb (lower c) "i" = inset (cs_ic 105 73) c) by (intros c; apply (HI 105%N 73%N c); lia).
  assert (El : forall c, ceqb (lower c) "l" = inset (cs_ic 108 76) c) by (intros c; apply (HI 108%N 76%N c); lia).
  assert (Eo : forall c, ceqb (lower c) "o" = inset (cs_ic 111 79) c) by (intros c; apply (HI 111%N 79%N c); lia).
  assert (Eg : forall c, ceqb (lower c) "g" = inset (cs_ic 103 71) c) by (intros c; apply (HI 103%N 71%N c); lia).
  destruct k; cbn [short_name L list_ascii_of_string kd kl];
  repeat (destruct w as [|? w]; cbn [map seqb eats]; rewrite ?Ej, ?Er, ?Ei, ?El, ?Eo, ?Eg;
          repeat match goal with |- context [inset (cs_ic ?a ?b) ?c] => destruct (inset (cs_ic a b) c); cbn [andb]; auto end; auto).
Qed.

Lemma counted_K k n w : counted k n w -> exists ds, cntK (kd k) (kl k) w = Some ds /\ N_of_digits ds = n.
Proof.
  intros (ds & t & -> & HN & HD & HE & HS). rewrite is_short_K in HS. exists ds. split; auto. apply cnt_same; auto.
Qed.
Lemma K_counted k w ds : cntK (kd k) (kl k) w = Some ds ->
  counted k (N_of_digits ds) w /\ exists t, w = ds ++ t /\ ds <> [] /\ digits ds /\ KK k t = true.
Proof.
  unfold cntK. pose proof (span_digits_spec w) as H. destruct (span_digits w) as [a t]. destruct H as (-> & HD & _).
  destruct a as [|c a]; [discriminate|]. destruct (KK k t) eqn:E; [|discriminate]. intros [= <-].
  assert (HN : c :: a <> []) by discriminate. split.
  - exists (c :: a), t. rewrite is_short_K. repeat split; auto.
  - exists t. repeat split; auto.
Qed.

Lemma classify w : W w -> (exists k, KK k w = true) \/ (exists k ds, cntK (kd k) (kl k) w = Some ds) \/ plainW w.
Proof.
  intros HW.
  destruct (existsb (fun k => KK k w) [Sj; Sr; Si; Slog; Silog]) eqn:E1.
  { apply existsb_exists in E1 as (k & _ & H). left. eauto. }
  destruct (existsb (fun k => match cntK (kd k) (kl k) w with Some _ => true | None => false end) [Sj; Sr; Si; Slog; Silog]) eqn:E2.
  { apply existsb_exists in E2 as (k & _ & H). right. left. destruct (cntK _ _ w) as [ds|] eqn:E; [|discriminate]. eauto. }
  right. right. split; [|split]; auto.
  - intros k. destruct (KK k w) eqn:E; auto. exfalso. rewrite <- not_true_iff_false in E1. apply E1.
    apply existsb_exists. exists k. split; auto. destruct k; simpl; auto 10.
  - intros k. destruct (cntK (kd k) (kl k) w) eqn:E; auto. exfalso. rewrite <- not_true_iff_false in E2. apply E2.
    apply existsb_exists. exists k. rewrite E. split; auto. destruct k; simpl; auto 10.
Qed.

Lemma itemize ws : Forall W ws -> (forall w k, In w ws -> counted k 0 w -> False) ->
  exists l, render l = ws /\ Forall okI l /\ forall k, apart (run_of k) l.
Proof.
  induction 1 as [|w ws HW HF IH]; intros HZ.
  - exists []. repeat split; auto.
  - destruct IH as (l & ER & HO & HA). { intros v k Hv. apply HZ. now right. }
    destruct (classify w HW) as [(k & HK)|[(k & ds & HC)|HP]].
    + destruct l as [|i l].
      { exists [IRun k [w]]. simpl in ER. subst ws. repeat split; auto. constructor; auto. split; [discriminate|auto]. }
      destruct (run_of k i) eqn:ERun.
      * destruct i as [|k' vs|]; try discriminate. simpl in ERun. apply short_eqb_eq in ERun. subst k'.
        inversion HO as [|? ? HV0 HO']; destruct HV0 as [HN HV]; subst. exists (IRun k (w :: vs) :: l). split; [reflexivity|]. split.
        -- constructor; auto. split; [discriminate|auto].
        -- intros k1. specialize (HA k1). destruct l; [exact I|]. exact HA.
      * exists (IRun k [w] :: i :: l). split; [unfold render in *; simpl in *; now rewrite ER|]. split.
        -- constructor; auto. split; [discriminate|auto].
        -- intros k1. split; [|apply HA]. simpl. destruct (short_eqb k1 k) eqn:E; auto. apply short_eqb_eq in E. subst k1. exact ERun.
    + apply K_counted in HC as (HC & t & -> & HN & HD & HK).
      exists (ICnt k ds t :: l). split; [unfold render in *; simpl in *; now rewrite ER|]. split.
      * constructor; auto. split; [auto|]. split; [auto|]. split; [auto|]. intros E0. rewrite E0 in HC. apply (HZ (ds ++ t) k); [now left|exact HC].
      * intros k1. destruct l as [|i l]; [exact I|]. split; [reflexivity|apply HA].
    + exists (IPlain w :: l). split; [unfold render in *; simpl in *; now rewrite ER|]. split; [constructor; auto|].
      intros k1. destruct l as [|i l]; [exact I|]. split; [reflexivity|apply HA].
Qed.
