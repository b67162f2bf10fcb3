(** The tokens of a lattice specification. *)

From Coq Require Import Ascii String NArith ZArith Bool Arith List Lia.
From Verif Require Import PyStr Regex RegexParse RegexFacts RegexLang PyNumFacts Types TypesFacts TypesFacts2 TypesFacts3 TypesFacts4 SubFacts CardTextFacts CardTextFacts2 CardsFacts2 Geometry GeometrySpec GeometryFacts GeometryFacts2 GeometryFacts3 GeometryFacts4 GeometryFacts5 GeometryFacts6 Lattice LatticeSpec LatticeFacts LatticeFacts2.
Import ListNotations.
Open Scope list_scope.

Definition marks : list ascii := [":"; "<"; ")"; "("; "["; "]"; "|"]%char.
Lemma mark_ok c : In c marks -> is_space c = false /\ is_digit c = false /\ inset cs_sign c = false /\ inset cs_punct c = true.
Proof. intros [<-|[<-|[<-|[<-|[<-|[<-|[<-|[]]]]]]]]; repeat split. Qed.
Lemma punct_marks c : inset cs_punct c = true -> In c marks.
Proof. apply one_inset. vm_compute. reflexivity. Qed.

Lemma no_digit_stops s : no_digit s <-> stops is_digit s.
Proof.
  split; [intros H; destruct s as [|c t]; [now left|right; exists c, t; split; [reflexivity|now apply (H c t)]]|].
  intros [->|(c & t & -> & H)] c' t' E; [discriminate|now injection E as <- <-].
Qed.
Lemma space_digit c : is_space c = true -> is_digit c = false.
Proof. intros H. destruct (is_digit c) eqn:E; auto. apply digit_space in E. congruence. Qed.
Lemma stops_lstrip s : stops is_space (lstrip s).
Proof. induction s as [|x s IH]; [now left|]. cbn. destruct (is_space x) eqn:E; auto. right. eauto. Qed.

Lemma ltok_blanks p b t : blanks b -> b <> [] -> stops is_space t ->
  match_at re_ltoken p (b ++ t) = Some {| mpre := p; mtext := b; mrest := t; mcaps := [] |}.
Proof. intros HB N HT. apply match_at_hit. rewrite ltoken_eq, m_altE. erewrite sp1_run; eauto. Qed.
Lemma ltok_mark p c b t : In c marks -> blanks b -> stops is_space t ->
  match_at re_ltoken p ((c :: b) ++ t) = Some {| mpre := p; mtext := c :: b; mrest := t; mcaps := [] |}.
Proof.
  intros HC HB HT. apply mark_ok in HC as (A & B & C & D). apply match_at_hit. rewrite ltoken_eq, m_altE. cbn [app].
  rewrite sp1_stop by (right; eauto). rewrite m_altE.
  assert (EN : m r_lnum (mkst p (c :: b ++ t) []) Some = None).
  { unfold r_lnum. cbn [m need maxleft loopg rest length czero pre caps]. rewrite C. unfold orelse. unfold r_dig. cbn [m need rest]. now rewrite inset_dig, B. }
  rewrite EN. unfold r_punct.
  change (m (RCat r_sp0 (RCat (RSet cs_punct) r_sp0)) (mkst p (c :: b ++ t) []) Some) with
    (m r_sp0 (mkst p (c :: b ++ t) []) (fun s => m (RSet cs_punct) s (fun s => m r_sp0 s Some))).
  rewrite sp0_stop by (right; eauto). rewrite m_set, D. erewrite sp0_run; [reflexivity|auto|auto|]. cbn [rev]. rewrite <- app_assoc. reflexivity.
Qed.

(** * From a reading to the text *)
Fixpoint digits_of (s : str) : str * str :=
  match s with
  | c :: t => if is_digit c then let (d, r) := digits_of t in (c :: d, r) else ([], s)
  | [] => ([], [])
  end.
Lemma digits_of_ok s : s = fst (digits_of s) ++ snd (digits_of s) /\ Forall (fun c => is_digit c = true) (fst (digits_of s)) /\ stops is_digit (snd (digits_of s)).
Proof.
  induction s as [|c t (E & A & B)]; cbn [digits_of]; [repeat split; [constructor|now left]|]. destruct (is_digit c) eqn:H.
  - destruct (digits_of t) as [d r]. cbn [fst snd] in *. repeat split; auto. cbn. congruence.
  - cbn. repeat split; [constructor|]. right. eauto.
Qed.
Lemma W_dig' u c : W r_dig u c -> exists x t, u = x :: t /\ is_digit x = true.
Proof.
  intros H. apply W_rep_set in H as (A & B & _). destruct u as [|x t]; [cbn in B; lia|]. inversion A; subst. exists x, t. split; auto. now rewrite <- inset_dig.
Qed.

(** One step of the reader. *)
Inductive lstep (s : str) : option (str * str) -> Prop :=
| step_blank b t : blanks b -> b <> [] -> stops is_space t -> s = b ++ t -> lstep s (Some (b, t))
| step_number d t : signed d -> stops is_digit t -> s = d ++ t -> lstep s (Some (d, t))
| step_mark c b t : In c marks -> blanks b -> stops is_space t -> s = (c :: b) ++ t -> lstep s (Some (c :: b, t))
| step_none : lstep s None.
Lemma lstep_at p s : lstep s (option_map (fun o => (mtext o, mrest o)) (match_at re_ltoken p s)).
Proof.
  destruct s as [|c s]; [apply step_none|]. destruct (is_space c) eqn:HS.
  { destruct (lstrip_split (c :: s)) as (a & E & HA). pose proof (stops_lstrip (c :: s)) as HT.
    assert (NA : a <> []). { intros ->. cbn [app] in E. destruct HT as [X|(x & y & X & H)]; rewrite X in E; [discriminate|]. injection E as <- _. congruence. }
    rewrite E at 2. rewrite ltok_blanks by auto. cbn. now apply step_blank. }
  destruct (is_digit c) eqn:HD.
  { destruct (digits_of_ok (c :: s)) as (E & A & B). set (d := fst (digits_of (c :: s))) in *. set (t := snd (digits_of (c :: s))) in *.
    assert (SD : some_digits d). { split; auto. subst d. cbn. rewrite HD. destruct (digits_of s). discriminate. }
    rewrite E. rewrite ltok_digit by (auto; now left). cbn. apply step_number; auto. now left. }
  destruct (inset cs_sign c) eqn:HG.
  { destruct (digits_of_ok s) as (E & A & B). set (d := fst (digits_of s)) in *. set (t := snd (digits_of s)) in *. destruct d as [|x d'] eqn:ED.
    - replace (match_at re_ltoken p (c :: s)) with (@None mobj); [apply step_none|]. symmetry. apply match_at_miss. rewrite ltoken_eq, m_altE, sp1_stop, m_altE by (right; eauto).
      assert (E1 : m r_lnum (mkst p (c :: s) []) Some = None).
      { destruct (m r_lnum (mkst p (c :: s) []) Some) as [x|] eqn:E1; auto. exfalso. apply m_text in E1 as (u & k & (u1 & u2 & c1 & c2 & H1 & H2 & -> & _) & E1); [|reflexivity].
        apply W_dig' in H2 as (y & z & -> & HY). apply W_rep_set in H1 as (A1 & B1 & C1 & _). cbn in E. rewrite <- E in B.
        destruct u1 as [|u u1]; [injection E1 as -> _; congruence|]. destruct u1 as [|v u1]; [|cbn in C1; lia]. cbn in E1. injection E1 as <- ->.
        destruct B as [?|(w & w' & [= <- _] & HW)]; [discriminate|congruence]. }
      rewrite E1. destruct (m r_punct (mkst p (c :: s) []) Some) as [x|] eqn:E2; auto. exfalso. apply m_text in E2 as (u & k & (u1 & u2 & c1 & c2 & H1 & (u3 & u4 & c3 & c4 & H3 & _ & -> & _) & -> & _) & E2); [|reflexivity].
      apply W_sp0 in H1. apply W_one_of in H3 as (y & -> & H3). destruct H1 as [|z u1 HZ _]; cbn in E2; injection E2 as -> _; [|congruence].
      apply punct_marks in H3. apply mark_ok in H3. destruct H3 as (_ & _ & X & _). congruence.
    - rewrite E. change (c :: (x :: d') ++ t) with ((c :: x :: d') ++ t). assert (SG : signed (c :: x :: d')).
      { right. exists c, (x :: d'). repeat split; auto; [discriminate|now apply inset_sign]. }
      rewrite ltok_digit by auto. cbn. now apply step_number. }
  destruct (inset cs_punct c) eqn:HP.
  { apply punct_marks in HP. destruct (lstrip_split s) as (a & E & HA). rewrite E. change (c :: a ++ lstrip s) with ((c :: a) ++ lstrip s).
    rewrite ltok_mark by (auto using stops_lstrip). cbn. apply step_mark; auto using stops_lstrip. }
  replace (match_at re_ltoken p (c :: s)) with (@None mobj); [apply step_none|]. symmetry. apply match_at_miss. rewrite ltoken_eq, m_altE, sp1_stop, m_altE by (right; eauto).
  assert (E1 : m r_lnum (mkst p (c :: s) []) Some = None).
  { destruct (m r_lnum (mkst p (c :: s) []) Some) as [x|] eqn:E1; auto. exfalso. apply m_text in E1 as (u & k & (u1 & u2 & c1 & c2 & H1 & H2 & -> & _) & E1); [|reflexivity].
    apply W_dig' in H2 as (y & z & -> & HY). apply W_rep_set in H1 as (A1 & _). destruct u1 as [|u u1]; [injection E1 as -> _; congruence|]. injection E1 as <- _. inversion A1; congruence. }
  rewrite E1. destruct (m r_punct (mkst p (c :: s) []) Some) as [x|] eqn:E2; auto. exfalso. apply m_text in E2 as (u & k & (u1 & u2 & c1 & c2 & H1 & (u3 & u4 & c3 & c4 & H3 & _ & -> & _) & -> & _) & E2); [|reflexivity].
  apply W_sp0 in H1. apply W_one_of in H3 as (y & -> & H3). destruct H1 as [|z u1 HZ _]; cbn in E2; injection E2 as -> _; congruence.
Qed.

Lemma match_at_text r p s o : match_at r p s = Some o -> s = mtext o ++ mrest o.
Proof.
  unfold match_at. destruct (m r (mkst p s []) Some) as [s'|] eqn:E; [|discriminate]. intros [= <-]. cbn [mtext mrest].
  apply m_sound in E as (s1 & HM & [= ->]). apply M_consumes in HM as (u & [HR _] & _). cbn [rest] in HR. rewrite HR, firstn_consumed. reflexivity.
Qed.
Lemma search_len r : forall s p o, search r p s = Some o -> length (mtext o) + length (mrest o) <= length s /\
  (match_at r p s = None -> length (mtext o) + length (mrest o) < length s).
Proof.
  induction s as [|c s IH]; intros p o H; cbn [search] in H; destruct (match_at r p _) as [o'|] eqn:E; try discriminate.
  - injection H as ->. apply match_at_text in E. apply (f_equal (@length ascii)) in E. rewrite app_length in E. split; [lia|discriminate].
  - injection H as ->. apply match_at_text in E. apply (f_equal (@length ascii)) in E. rewrite app_length in E. split; [lia|discriminate].
  - apply IH in H as [H _]. cbn [length]. split; [lia|intros _; lia].
Qed.
Lemma finditer_len r fuel : forall p s, length (concat (map mtext (finditer_f fuel r p s))) <= length s.
Proof.
  induction fuel as [|f IH]; intros p s; cbn [finditer_f]; [cbn; lia|]. destruct (search r p s) as [o|] eqn:E; [|cbn; lia].
  apply search_len in E as [E _]. destruct (mtext o) as [|c u] eqn:ET.
  - destruct (mrest o) as [|c t] eqn:ER; cbn [map concat]; rewrite ET; cbn [app]; [cbn; lia|]. specialize (IH (c :: mpre o) t). cbn [length] in E. lia.
  - cbn [map concat]. rewrite ET, app_length. specialize (IH (rev (c :: u) ++ mpre o) (mrest o)). lia.
Qed.

Lemma spread_blanks b ts s : blanks b -> spread ts s -> spread ts (b ++ s).
Proof.
  intros HB H. inversion H; subst.
  - constructor. now apply Forall_app.
  - rewrite app_assoc. constructor; auto. now apply Forall_app.
  - rewrite app_assoc. constructor; auto. now apply Forall_app.
Qed.
Lemma clean_blanks b : blanks b -> lclean [b] = [].
Proof.
  intros H. unfold lclean. cbn [map filter]. replace (strip b) with (@nil ascii); [reflexivity|].
  unfold strip, rstrip. rewrite <- (app_nil_r b), lstrip_blanks by auto. reflexivity.
Qed.
Lemma clean_mark c b : In c marks -> blanks b -> lclean [c :: b] = [[c]].
Proof.
  intros HC HB. apply mark_ok in HC as (HS & _). unfold lclean. cbn [map filter]. unfold strip, rstrip. rewrite lstrip_head by auto. cbn [rev].
  rewrite lstrip_blanks by now apply blanks_rev. rewrite lstrip_head by auto. reflexivity.
Qed.
Lemma finditer_spread fuel : forall p s, concat (map mtext (finditer_f fuel re_ltoken p s)) = s -> spread (lclean (map mtext (finditer_f fuel re_ltoken p s))) s.
Proof.
  induction fuel as [|f IH]; intros p s H; cbn [finditer_f] in *; [cbn in H; subst; repeat constructor|].
  destruct (search re_ltoken p s) as [o|] eqn:E; [|cbn in H; subst; repeat constructor].
  pose proof (search_len _ _ _ _ E) as [_ HL].
  assert (HM : match_at re_ltoken p s = Some o).
  { destruct (match_at re_ltoken p s) as [o'|] eqn:EM; [destruct s; cbn [search] in E; rewrite EM in E; congruence|]. exfalso. specialize (HL eq_refl).
    apply (f_equal (@length ascii)) in H. destruct (mtext o) as [|c u] eqn:ET.
    - destruct (mrest o) as [|c t] eqn:ER; cbn [map concat] in H; rewrite ET in H; cbn [app] in H; [cbn in H, HL; lia|].
      pose proof (finditer_len re_ltoken f (c :: mpre o) t). cbn [length] in HL. lia.
    - cbn [map concat] in H. rewrite ET, app_length in H. pose proof (finditer_len re_ltoken f (rev (c :: u) ++ mpre o) (mrest o)). lia. }
  pose proof (lstep_at p s) as HS. rewrite HM in HS. cbn [option_map] in HS.
  assert (NE : mtext o <> []).
  { inversion HS as [b t HB N HT ES [E1 E2]|d t HD HT ES [E1 E2]|c b t HC HB HT ES [E1 E2]|]; subst; auto; [|discriminate].
    intros X. rewrite X in HD. apply signed_head in HD as (? & ? & ? & _). discriminate. }
  destruct (mtext o) as [|c u] eqn:ET; [now destruct NE|]. set (q := rev (c :: u) ++ mpre o) in *. cbn [map concat] in H. rewrite ET in H. pose proof (match_at_text _ _ _ _ HM) as ES0.
  rewrite ET in ES0. assert (HR : concat (map mtext (finditer_f f re_ltoken q (mrest o))) = mrest o) by (rewrite ES0 in H; now apply app_inv_head in H).
  cbn [map]. rewrite ET, lclean_cons, ES0. apply IH in HR.
  inversion HS as [b t HB N HT ES [E1 E2]|d t HD HT ES [E1 E2]|c' b t HC HB HT ES [E1 E2]|].
  - subst b. rewrite clean_blanks by auto. now apply spread_blanks.
  - subst d. rewrite signed_clean by auto. subst t. apply (spread_number [] (c :: u) _ (mrest o)); auto; [constructor|]. now apply no_digit_stops.
  - subst c' b. rewrite clean_mark by auto. apply (spread_mark [] c _ (u ++ mrest o)); auto; [constructor|]. now apply spread_blanks.
Qed.

(** * From the text to a reading *)
Lemma strip_blanks' s b : (exists c t, s = c :: t /\ is_space c = false) -> last_ok s -> blanks b -> rstrip (s ++ b) = s.
Proof.
  intros _ (u & d & -> & HD) HB. unfold rstrip. rewrite rev_app_distr, lstrip_blanks by now apply blanks_rev. rewrite rev_app_distr. cbn [rev app].
  rewrite lstrip_head by auto. cbn [rev]. now rewrite rev_involutive.
Qed.
Lemma last_ok_blanks_free c : is_space c = false -> last_ok [c].
Proof. intros H. exists [], c. auto. Qed.

Lemma spread_cut ts s : spread ts s -> exists rt b, lstrip s = concat rt ++ b /\ blanks b /\ lclean rt = ts /\ cutr re_ltoken rt [] /\ (rt = [] \/ last_ok (concat rt)).
Proof.
  induction 1 as [b HB|b d ts s HB HD HN HS (rt & b' & E & HB' & HC & HT & HL)|b c ts s HB HM HS (rt & b' & E & HB' & HC & HT & HL)].
  - exists [], []. repeat split; auto; [|constructor]. rewrite <- (app_nil_r b), lstrip_blanks by auto. reflexivity.
  - rewrite lstrip_blanks by auto. pose proof (signed_ends d HD) as [(x & y & ED & HX & _) HLD].
    assert (EL : lstrip (d ++ s) = d ++ s) by (rewrite ED; cbn; now rewrite HX). rewrite EL. apply no_digit_stops in HN.
    assert (ND : d <> []) by (rewrite ED; discriminate).
    destruct (lstrip_split s) as (a & EA & HA). destruct HL as [->|HL].
    { exists [d], s. cbn [concat]. rewrite app_nil_r. repeat split; auto.
      - rewrite EA, E. cbn [concat app]. apply Forall_app. split; auto.
      - rewrite signed_clean by auto. now rewrite <- HC.
      - intros p. exists []. apply ltok_digit; auto. now left. }
    assert (HH : exists z w, concat rt = z :: w /\ is_space z = false).
    { destruct HL as (u & z & EZ & _). pose proof (stops_lstrip s) as HP. rewrite E in HP. destruct (concat rt) as [|z' w] eqn:EC; [destruct u; discriminate|].
      cbn [app] in HP. destruct HP as [?|(k & k2 & HK1 & HK)]; [discriminate|]. injection HK1 as <- _. eauto. }
    destruct a as [|a0 a1].
    + exists (d :: rt), b'. cbn [concat app] in *. repeat split; auto.
      * rewrite EA, E. now rewrite app_assoc.
      * now rewrite lclean_cons, signed_clean, HC.
      * intros p. exists []. apply ltok_digit; auto. rewrite app_nil_r. rewrite EA, E in HN. destruct HH as (z & w & EZ & _). rewrite EZ in *. cbn [app] in HN. destruct HN as [?|(k & k2 & HK1 & HK)]; [discriminate|right]. injection HK1 as <- _. eauto.
      * right. now apply last_ok_app.
    + exists (d :: (a0 :: a1) :: rt), b'. repeat split; auto.
      * rewrite EA, E. cbn [concat]. now rewrite <- !app_assoc.
      * rewrite lclean_cons, (lclean_cons (a0 :: a1)), signed_clean, clean_blanks, HC by auto. reflexivity.
      * intros p. exists []. apply ltok_digit; auto. right. exists a0, ((a1 ++ concat rt) ++ []). split; [reflexivity|]. inversion HA; subst. now apply space_digit.
      * discriminate.
      * intros p. exists []. rewrite app_nil_r. destruct HH as (z & w & -> & HZ). apply ltok_blanks; auto; [discriminate|right; eauto].
      * right. cbn [concat]. now do 2 apply last_ok_app.
  - rewrite lstrip_blanks by auto. destruct (mark_ok c HM) as (HX & _). rewrite lstrip_head by auto.
    destruct (lstrip_split s) as (a & EA & HA). destruct HL as [->|HL].
    { exists [[c]], s. cbn [concat app]. repeat split; auto.
      - rewrite EA, E. cbn [concat app]. apply Forall_app. split; auto.
      - rewrite clean_mark by (auto; constructor). now rewrite <- HC.
      - discriminate.
      - intros p. exists []. apply ltok_mark; auto; [constructor|now left].
      - right. now apply last_ok_blanks_free. }
    assert (HH : exists z w, concat rt = z :: w /\ is_space z = false).
    { destruct HL as (u & z & EZ & _). pose proof (stops_lstrip s) as HP. rewrite E in HP. destruct (concat rt) as [|z' w] eqn:EC; [destruct u; discriminate|].
      cbn [app] in HP. destruct HP as [?|(k & k2 & HK1 & HK)]; [discriminate|]. injection HK1 as <- _. eauto. }
    exists ((c :: a) :: rt), b'. cbn [concat]. repeat split; auto.
    + rewrite EA, E. cbn [app]. now rewrite <- app_assoc.
    + now rewrite lclean_cons, clean_mark, HC.
    + discriminate.
    + intros p. exists []. rewrite app_nil_r. destruct HH as (z & w & -> & HZ). apply ltok_mark; auto. right. eauto.
    + right. now apply last_ok_app.
Qed.

Lemma spread_trail ts t b : blanks b -> spread ts t -> spread ts (t ++ b).
Proof.
  intros HB H. induction H as [b' HB'|b' d ts s HB' HD HN HS IH|b' c ts s HB' HM HS IH].
  - constructor. now apply Forall_app.
  - rewrite <- !app_assoc. constructor; auto. apply no_digit_stops in HN. apply no_digit_stops. destruct HN as [->|(x & y & -> & HX)]; [|right; cbn; eauto].
    destruct HB as [|x b HX _]; [now left|right]. exists x, b. split; [reflexivity|]. now apply space_digit.
  - rewrite <- !app_assoc. cbn [app]. constructor; auto.
Qed.
Theorem tokens_spread s ts : lat_tokens s = Some ts <-> spread ts s.
Proof.
  split.
  - unfold lat_tokens. destruct (seqb _ _) eqn:E; [|discriminate]. intros [= <-]. apply seqb_eq in E. destruct (strip_split s) as (a & b & ES & HA & HB).
    apply finditer_spread in E. fold (lat_raw (strip s)) in E. change (map mtext (finditer_f (S (length (strip s))) re_ltoken [] (strip s))) with (lat_raw (strip s)) in E.
    rewrite ES at 2. apply spread_blanks; auto. apply spread_trail; auto.
  - intros H. apply spread_cut in H as (rt & b & E & HB & HC & HT & HL). unfold lat_tokens, strip. rewrite E.
    assert (ES : rstrip (concat rt ++ b) = concat rt).
    { destruct HL as [->|HL]; [cbn [concat app]; unfold rstrip; rewrite <- (app_nil_r (rev b)), lstrip_blanks by (now apply blanks_rev); reflexivity|].
      apply strip_blanks'; auto. pose proof (stops_lstrip s) as HP. rewrite E in HP. destruct HL as (u & z & EZ & _). destruct (concat rt) as [|z' w]; [destruct u; discriminate|].
      cbn [app] in HP. destruct HP as [?|(k & k2 & HK1 & HK)]; [discriminate|]. injection HK1 as <- _. eauto. }
    rewrite ES. unfold lat_raw. rewrite finditer_cut; [|reflexivity|now apply cutr_cut].
    replace (seqb (concat rt) (concat rt)) with true by (symmetry; now apply seqb_eq). f_equal. exact HC.
Qed.
Theorem lat_from_texts s l : lat_from_mcnp s = Ok l <-> exists ts, spread ts s /\ g_bins ts l.
Proof.
  rewrite lat_from_iff. split; intros (ts & H1 & H2); exists ts; split; auto; now apply tokens_spread.
Qed.
Theorem chain_round_trip' s ts l : spread ts s -> g_chain ts l ->
  lat_from_mcnp s = Ok l /\ spread ts (lat_to_mcnp l) /\ lat_from_mcnp (lat_to_mcnp l) = Ok l.
Proof. intros H1 H2. apply tokens_spread in H1. destruct (chain_round_trip s ts l H1 H2) as (A & B & C). repeat split; auto. now apply tokens_spread. Qed.
