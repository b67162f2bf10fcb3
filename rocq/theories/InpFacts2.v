(** The prepared text of an INP file, and how it is cut into blocks. *)

From Coq Require Import Ascii String NArith ZArith Bool Arith Lia List.
From Verif Require Import PyStr Regex RegexParse RegexFacts RegexLang PyNum PyNumFacts Types TypesSpec TypesFacts TypesFacts3 TypesFacts4 SubFacts CardText CardTextSpec CardTextFacts CardTextFacts5 CardTextFacts2 CardTextFacts6 PtracFacts2 PtracFacts InpFile InpSpec InpFacts.
From Verif Require Import CardsFacts.
From Verif Require MeshtalFacts2.
Import ListNotations.
Open Scope char_scope.

(** ** Blanks, parentheses, equals signs, tabs *)

Definition one (s : str) : Prop := s = [sp].
Definition tail1 (s : str) : Prop := s = [] \/ s = [sp].

Lemma passE l : Forall (lineS gapb blank) l -> exists l', Forall (lineS one tail1) l' /\ map lwords l' = map lwords l /\
  sub re_blanks (fun _ => [sp]) (rows_text l) = rows_text l'.
Proof.
  apply pass_rows.
  - reflexivity.
  - intros w t o. apply word_miss. intros c t' p H. now apply blanks_miss, nonspace_sp.
  - intros s [HB HN]. exists [sp]. split; [reflexivity|]. intros w t o CW HR.
    pose proof (blanks_hit s (w ++ t) o HB (clean_nb _ _ CW) HR) as HH. destruct s; [congruence|exact HH].
  - intros s HB. exists (match s with [] => [] | _ => [sp] end). split; [destruct s; [now left|now right]|].
    split; [destruct s; split; (reflexivity || discriminate)|]. intros t o HE HR. apply blanks_hit; auto. now apply ends_nb.
  - intros t o HT HR. apply reps_copy; [intros p; now apply blanks_miss|exact HR].
Qed.

Lemma ends_hd t c : ends t -> c <> nl -> c <> sp -> hd sp t <> c.
Proof. intros [->|(t' & ->)] H1 H2; cbn [hd]; congruence. Qed.

Section Same.
  Variables (r : re) (f : mobj -> str).
  Hypothesis Hnil : forall p, match_at r p [] = None.
  Hypothesis Hw : forall w t o, clean w -> reps r f t o -> reps r f (w ++ t) (w ++ o).
  Hypothesis Hb : forall p t, ends t \/ (exists w t', clean w /\ t = w ++ t') -> match_at r p (sp :: t) = None.
  Hypothesis Hn : forall p t, starts t -> match_at r p (nl :: t) = None.
  Lemma pass_same l : Forall (lineS one tail1) l -> exists l', Forall (lineS one tail1) l' /\ map lwords l' = map lwords l /\
    sub r f (rows_text l) = rows_text l'.
  Proof.
    apply pass_rows; auto.
    - intros s ->. exists [sp]. split; [reflexivity|]. intros w t o CW HR. cbn [app]. apply reps_copy; [|exact HR]. intros p. apply Hb. right. eauto.
    - intros s HS. exists s. split; [exact HS|]. split; [reflexivity|]. intros t o HE HR. destruct HS as [->| ->]; [exact HR|]. cbn [app]. apply reps_copy; [|exact HR].
      intros p. apply Hb. now left.
    - intros t o HT HR. apply reps_copy; [|exact HR]. intros p. now apply Hn.
  Qed.
End Same.

Lemma passF f l : Forall (lineS one tail1) l -> exists l', Forall (lineS one tail1) l' /\ map lwords l' = map lwords l /\
  sub re_open f (rows_text l) = rows_text l'.
Proof.
  apply pass_same.
  - reflexivity.
  - intros w t o (_ & HS & _ & _ & _ & HP & _). apply reps_word. intros c w1 w2 p E. apply open_miss.
    destruct w2 as [|x w2].
    + left. intros ->. apply HP. rewrite E. apply last_cons_app.
    + right. apply nb_app_cons. pose proof (nospace_tail _ _ _ _ HS E) as HX.
      inversion HX; subst. now apply nonspace_sp, negb_true_iff.
  - intros p t _. apply open_miss. left. discriminate.
  - intros p t _. apply open_miss. left. discriminate.
Qed.

Lemma passG f l : Forall (lineS one tail1) l -> exists l', Forall (lineS one tail1) l' /\ map lwords l' = map lwords l /\
  sub re_close f (rows_text l) = rows_text l'.
Proof.
  apply pass_same.
  - reflexivity.
  - intros w t o. apply word_miss. intros c t' p H. apply close_miss. left. now apply nonspace_sp.
  - intros p t [H|(w & t' & (HN & _ & _ & _ & _ & _ & HD) & ->)]; apply close_miss; right.
    + apply (ends_hd t ")"); auto; discriminate.
    + rewrite hd_app_clean; auto.
  - intros p t _. apply close_miss. left. reflexivity.
Qed.

Lemma passH f l : Forall (lineS one tail1) l -> exists l', Forall (lineS one tail1) l' /\ map lwords l' = map lwords l /\
  sub re_blankline f (rows_text l) = rows_text l'.
Proof.
  assert (M : forall c t p, ceqb c nl = false -> match_at re_blankline p (c :: t) = None).
  { intros c t p H. apply match_at_miss. rewrite re_blankline_eq, m_catE. unfold c1 at 1. now rewrite m_chr, H. }
  apply pass_same.
  - reflexivity.
  - intros w t o. apply word_miss. intros c t' p H. now apply M, nonspace_nl.
  - intros p t _. now apply M.
  - intros p t HT. apply starts_nb in HT. apply match_at_miss. rewrite re_blankline_eq, m_catE. unfold c1 at 1. rewrite m_chr, ceqb_refl, m_catE.
    destruct HT as [->|(c & t' & -> & H)]; [reflexivity|]. unfold c1 at 1. now rewrite m_chr, H.
Qed.

Lemma passI f l : Forall (lineS one tail1) l -> exists l', Forall (lineS one tail1) l' /\ map lwords l' = map lwords l /\
  sub re_equals f (rows_text l) = rows_text l'.
Proof.
  apply pass_same.
  - reflexivity.
  - intros w t o (_ & HS & HE & _). apply reps_word. intros c w1 w2 p E. apply equals_miss.
    + intros ->. apply HE. rewrite E. apply in_app_iff. right. now left.
    + intros ->. pose proof (nospace_char _ _ _ _ HS E). discriminate.
  - intros p t H. apply equals_miss; [discriminate|]. intros _. destruct H as [H|(w & t' & CW & ->)]; [|now apply clean_hd].
    apply (ends_hd t "="); auto; discriminate.
  - intros p t _. apply equals_miss; discriminate.
Qed.

Lemma passJ f l : Forall (lineS one tail1) l -> exists l', Forall (lineS one tail1) l' /\ map lwords l' = map lwords l /\
  sub re_tab f (rows_text l) = rows_text l'.
Proof.
  assert (M : forall c t p, ceqb c tab = false -> match_at re_tab p (c :: t) = None).
  { intros c t p H. apply match_at_miss. rewrite re_tab_eq. unfold c1 at 1. now rewrite m_chr, H. }
  apply pass_same.
  - reflexivity.
  - intros w t o. apply word_miss. intros c t' p H. apply M, ceqb_neq. intros ->. discriminate.
  - intros p t _. now apply M.
  - intros p t _. now apply M.
Qed.

Lemma last_none {A B} (f : option A -> option B) (l l' : list (option A)) : (forall x, f x = None <-> x = None) -> map f l' = map f (l ++ [None]) ->
  exists l1, l' = l1 ++ [None] /\ map f l1 = map f l.
Proof.
  intros HF E. rewrite map_app in E. cbn [map] in E. rewrite (proj2 (HF None) eq_refl) in E.
  destruct (exists_last (l := l')) as (l1 & x & ->); [destruct l'; [destruct (map f l); discriminate|discriminate]|].
  rewrite map_app in E. apply app_inj_tail in E as [E1 E2]. apply HF in E2. subst x. eauto.
Qed.
Lemma lwords_none x : lwords x = None <-> x = None.
Proof. destruct x; split; intros H; try discriminate; auto. Qed.

Theorem prepared l : Forall (lineS fold blank) l -> l <> [] -> exists l', Forall (lineS one tail1) l' /\ map lwords l' = map lwords l /\
  inp_preprocess (rows_text l) = strip (rows_text (l' ++ [None])).
Proof.
  intros H HN. unfold inp_preprocess. cbv zeta.
  destruct (passA (fun _ => [nl; nl]) l H) as (l1 & H1 & E1 & ->). rewrite (passB l1 H1).
  destruct (passC l1 H1) as (l2 & H2 & E2 & ->).
  destruct (passD l2 H2) as (l3 & H3 & E3 & ->). { destruct l2, l1, l; try discriminate; congruence. }
  assert (H3' : Forall (lineS gapb blank) (l3 ++ [None])) by (apply Forall_app; split; [auto|repeat constructor]).
  destruct (passE _ H3') as (l4 & H4 & E4 & ->).
  destruct (passF (fun _ => ["("]) l4 H4) as (l5 & H5 & E5 & ->).
  destruct (passG (fun _ => [")"]) l5 H5) as (l6 & H6 & E6 & ->).
  destruct (passH (fun _ => [nl; nl]) l6 H6) as (l7 & H7 & E7 & ->).
  destruct (passI (fun _ => [sp]) l7 H7) as (l8 & H8 & E8 & ->).
  destruct (passJ (fun _ => [sp; sp; sp; sp]) l8 H8) as (l9 & H9 & E9 & ->).
  assert (E : map lwords l9 = map lwords (l3 ++ [None])) by congruence.
  apply last_none in E as (l10 & -> & E10); [|apply lwords_none]. exists l10. split; [|split; [congruence|reflexivity]].
  now apply Forall_app in H9.
Qed.

(** ** Lines of the prepared text *)

(** A line that is not empty, does not begin with white space and has no line end. *)
Definition fline (t : str) : Prop := ~ In nl t /\ exists c t', t = c :: t' /\ is_space c = false.

Lemma laid_one w l : clean w -> Forall (fun x => one (fst x) /\ clean (snd x)) l -> laid_out w l = join [sp] (w :: map snd l).
Proof. intros CW CL. rewrite <- spaced_join. apply laid_single. split; auto. Qed.

Lemma join_nonl ws : Forall (fun w => ~ In nl w) ws -> ~ In nl (join [sp] ws).
Proof.
  induction 1 as [|w ws HW HF IH]; [intros []|]. destruct ws as [|v ws]; [exact HW|]. cbn [join] in *.
  apply notin_app; auto. apply notin_app; auto. intros [X|[]]; discriminate.
Qed.

Lemma join_hd w ws : exists y, join [sp] (w :: ws) = w ++ y.
Proof. rewrite <- spaced_join. eauto. Qed.

Lemma row_shows r : rowS one tail1 r -> shows r (row_text r) /\ fline (row_text r) /\ clean (r_first r) /\ Forall clean (map snd (r_more r)).
Proof.
  destruct r as [w l tl]. intros (CW & CH & CL & CT). cbn [r_first r_more r_tail] in *. unfold row_text, row_words. cbn [r_first r_more r_tail].
  rewrite laid_one by auto. assert (CM : Forall clean (map snd l)) by (apply Forall_map; eapply Forall_impl; [|exact CL]; now intros x []).
  split; [|split; [split|split; [exact CW|exact CM]]].
  - destruct CT as [->| ->]; [left; now rewrite app_nil_r|right; split; [discriminate|reflexivity]].
  - apply notin_app; [apply join_nonl; constructor; [now apply clean_nonl|]; eapply Forall_impl; [|exact CM]; intros v; apply clean_nonl|].
    destruct CT as [->| ->]; [intros []|intros [X|[]]; discriminate].
  - destruct (join_hd w (map snd l)) as (y & ->). destruct CW as (HN & HS & _). destruct w as [|c w]; [congruence|]. inversion HS; subst.
    exists c, ((w ++ y) ++ tl). split; auto. now apply negb_true_iff.
Qed.

(** Stripping the end of a line that shows words. *)
Lemma strip_nls n t : forall ws w, clean w -> Forall clean ws -> t = join [sp] (w :: ws) \/ t = join [sp] (w :: ws) ++ [sp] -> strip (t ++ repeat nl n) = join [sp] (w :: ws).
Proof.
  intros ws w CW CL H. 
  assert (E : forall u, Forall (fun c => is_space c = true) u -> strip (join [sp] (w :: ws) ++ u) = join [sp] (w :: ws)).
  { intros u HU. unfold strip. destruct (join_hd w ws) as (y & EY).
    assert (SE : strip (w ++ y) = w ++ y) by (rewrite <- EY, <- spaced_join; now apply strip_ends).
    rewrite EY. unfold strip in SE.
    destruct CW as (HN & HS & _). destruct w as [|c w]; [congruence|]. inversion HS; subst. apply negb_true_iff in H2.
    rewrite (lstrip_first ((c :: w) ++ y) c (w ++ y)) in SE by auto.
    rewrite (lstrip_first _ c ((w ++ y) ++ u)) by auto. unfold rstrip in *. rewrite rev_app_distr.
    assert (X : forall v s, Forall (fun c => is_space c = true) v -> lstrip (v ++ s) = lstrip s).
    { induction 1 as [|a v HA HV IH]; auto. cbn [app lstrip]. now rewrite HA. }
    rewrite X by now apply Forall_rev. exact SE. }
  assert (R : Forall (fun c => is_space c = true) (repeat nl n)) by (apply Forall_forall; intros c HC; apply repeat_spec in HC; now subst).
  destruct H as [->| ->]; [auto|]. rewrite <- app_assoc. apply E. apply Forall_app. split; auto.
Qed.

Lemma lstrip_fline t : fline t -> lstrip t = t.
Proof. intros (_ & c & t' & -> & H). cbn [lstrip]. now rewrite H. Qed.
Lemma lstrip_fapp t y : fline t -> lstrip (t ++ y) = t ++ y.
Proof. intros (_ & c & t' & -> & H). cbn [app lstrip]. now rewrite H. Qed.
Lemma lstrip_nonempty s : (exists c t, s = c :: t /\ is_space c = false) -> forall v, lstrip (s ++ v) = s ++ v.
Proof. intros (c & t & -> & H) v. cbn [app lstrip]. now rewrite H. Qed.

(** Only the end of the last line is stripped. *)
Lemma strip_app_last (a t : str) : (exists c t', a = c :: t' /\ is_space c = false) -> (exists c, In c t /\ is_space c = false) ->
  strip (a ++ t) = a ++ rstrip t.
Proof.
  intros HA HT. unfold strip. rewrite (lstrip_nonempty a HA). unfold rstrip. rewrite rev_app_distr.
  assert (X : forall s b, (exists c, In c s /\ is_space c = false) -> lstrip (s ++ b) = lstrip s ++ b).
  { induction s as [|x s IH]; intros b (c & HI & HC); [destruct HI|]. cbn [app lstrip]. destruct (is_space x) eqn:E; auto.
    apply IH. destruct HI as [->|HI]; [congruence|eauto]. }
  rewrite X. { now rewrite rev_app_distr, rev_involutive. } destruct HT as (c & HI & HC). exists c. split; auto. now apply in_rev in HI.
Qed.

(** ** The pattern of the file *)

Definition cs_anyA : cset := {| cneg := false; cranges := [(9, 13); (28, 32); (133, 133); (160, 160); (0, 8); (14, 27); (33, 132); (97, 122); (65, 90); (134, 159); (161, 255)]%N |}.
Definition cs_anyB : cset := {| cneg := false; cranges := [(0, 8); (14, 27); (33, 132); (97, 122); (65, 90); (134, 159); (161, 255); (9, 13); (28, 32); (133, 133); (160, 160)]%N |}.
Definition ciset (a b : N) : cset := {| cneg := false; cranges := [(a, a); (b, b)] |}.
Definition msg_sets : list cset := [ciset 101 69; ciset 115 83; ciset 115 83; ciset 97 65; ciset 103 71; ciset 101 69; cs_chr 58].
Definition r_msg : re := rseq (ciset 109 77) msg_sets.
Definition r_dots : re := RRep false 1 None (RSet cs_dot).
Definition r_lz : re := RRep true 1 None (RSet cs_anyA).
Definition r_nn : re := RCat (c1 nl) (c1 nl).
Definition r_rest : re := RCat (RRep false 0 (Some 1) (RGrp 6 (RRep false 1 None (RSet cs_anyB)))) REnd.
Definition r_blocks : re :=
  RCat (RGrp 3 (RCat r_lz r_nn)) (RCat (RGrp 4 (RCat r_lz r_nn)) (RCat (RGrp 5 (RCat r_lz (RAlt r_nn REnd))) r_rest)).
Lemma re_file_eq : re_file = RCat RBeg (RCat (RRep false 0 (Some 1) (RGrp 1 (RCat r_msg (RCat r_dots (c1 nl)))))
  (RCat (RGrp 2 r_dots) (RCat (c1 nl) r_blocks))).
Proof. vm_compute. reflexivity. Qed.

Lemma any_in c : inset cs_anyA c = true.
Proof. revert c. apply all_ascii. vm_compute. reflexivity. Qed.
Lemma any_inB c : inset cs_anyB c = true.
Proof. revert c. apply all_ascii. vm_compute. reflexivity. Qed.

Lemma lazy_any {A} (k : st -> option A) X t x cp : X <> [] -> forall p,
  (forall u v, X = u ++ v -> u <> [] -> v <> [] -> forall q, k (mkst q (v ++ t) cp) = None) ->
  k (mkst (rev X ++ p) t cp) = Some x -> m r_lz (mkst p (X ++ t) cp) k = Some x.
Proof.
  intros HN p HF HK. unfold r_lz. cbn [m need maxleft]. destruct X as [|c X]; [congruence|]. cbn [app rest pre caps]. rewrite any_in.
  assert (G : forall fuel v u q, c :: X = u ++ v -> u <> [] -> length (v ++ t) < fuel -> k (mkst (rev v ++ q) t cp) = Some x ->
    loopl (fun s k0 => match rest s with [] => None | x0 :: t0 => if inset cs_anyA x0 then k0 (mkst (x0 :: pre s) t0 (caps s)) else None end) k fuel None (mkst q (v ++ t) cp) = Some x).
  { induction fuel as [|fuel IH]; intros v u q E HU HL HX; [lia|]. cbn [loopl]. destruct v as [|a v].
    - cbn [app rev] in *. now rewrite HX.
    - rewrite (HF u (a :: v)) by (auto; discriminate). cbn [czero app rest pre caps]. rewrite any_in.
      unfold progress. cbn [rest]. replace (Nat.ltb (length (v ++ t)) (length (a :: v ++ t))) with true by (symmetry; apply Nat.ltb_lt; cbn; lia).
      cbn [cdec]. apply (IH v (u ++ [a])).
      + now rewrite <- app_assoc.
      + now destruct u.
      + cbn in HL. lia.
      + cbn [rev] in HX. now rewrite <- app_assoc in HX. }
  apply (G _ X [c]); auto; [discriminate|]. cbn [rev] in HK. now rewrite <- app_assoc in HK.
Qed.

(** No blank line inside a block. *)
Lemma block_inside ls u v t : Forall fline ls -> join [nl] ls = u ++ v -> v <> [] -> u <> [] ->
  (exists c t', v ++ t = c :: t' /\ (ceqb c nl = false \/ (ceqb c nl = true /\ exists d t'', t' = d :: t'' /\ ceqb d nl = false))).
Proof.
  intros HF. revert u v. induction HF as [|l ls HL HF IH]; intros u v E HV HU.
  - cbn [join] in E. symmetry in E. apply app_eq_nil in E as [_ E]. congruence.
  - destruct ls as [|l2 ls].
    + cbn [join] in E. destruct v as [|c v]; [congruence|]. exists c, (v ++ t). split; auto. left. apply ceqb_neq. intros ->.
      apply (proj1 HL). rewrite E. apply in_app_iff. right. now left.
    + change (join [nl] (l :: l2 :: ls)) with (l ++ [nl] ++ join [nl] (l2 :: ls)) in E.
      assert (E0 := E). apply (f_equal (firstn (length u))) in E0. rewrite (firstn_app_eq u v) in E0 by auto.
      destruct (Nat.le_gt_cases (length u) (length l)) as [HLe|HGt].
      * rewrite firstn_app in E0. replace (length u - length l) with 0 in E0 by lia. rewrite firstn_O, app_nil_r in E0.
        rewrite <- (firstn_skipn (length u) l), E0, <- app_assoc in E. apply app_inv_head in E.
        destruct (skipn (length u) l) as [|c s] eqn:ES.
        -- cbn [app] in E. subst v. exists nl. eexists. split; [reflexivity|]. right. split; [reflexivity|].
           inversion HF as [|? ? (_ & c & t' & -> & HC) _]; subst. destruct ls; cbn [join app]; exists c; eexists; split; try reflexivity; now apply nonspace_nl.
        -- subst v. exists c. eexists. split; [reflexivity|]. left. apply ceqb_neq. intros ->. apply (proj1 HL).
           rewrite <- (firstn_skipn (length u) l), ES. apply in_app_iff. right. now left.
      * assert (EU : exists u', u = l ++ [nl] ++ u').
        { rewrite firstn_app in E0. rewrite firstn_all2 in E0 by lia. destruct (length u - length l) as [|n] eqn:EN; [lia|].
          cbn [app firstn] in E0. exists (firstn n (join [nl] (l2 :: ls))). now rewrite <- E0. }
        destruct EU as (u' & ->). rewrite <- !app_assoc in E. apply app_inv_head in E. apply app_inv_head in E.
        destruct u' as [|a u'].
        -- cbn [app] in E. subst v. inversion HF as [|? ? (_ & c & t' & -> & HC) _]; subst. exists c. destruct ls; cbn [join app]; eexists; (split; [reflexivity|left; now apply nonspace_nl]).
        -- apply (IH (a :: u') v); auto. discriminate.
Qed.

Lemma m_nn {A} q t cp (k : st -> option A) : m r_nn (mkst q t cp) k =
  match t with c :: d :: t' => if ceqb c nl && ceqb d nl then k (mkst (d :: c :: q) t' cp) else None | _ => None end.
Proof.
  unfold r_nn. rewrite m_catE. unfold c1. destruct t as [|c [|d t]]; [reflexivity| |].
  - rewrite m_chr. now destruct (ceqb c nl).
  - rewrite !m_chr. destruct (ceqb c nl); [|reflexivity]. now destruct (ceqb d nl).
Qed.

(** A block followed by a blank line. *)
Lemma m_block {A} i ls p t cp (k : st -> option A) x : Forall fline ls -> ls <> [] ->
  k (mkst (rev (join [nl] ls ++ [nl; nl]) ++ p) t ((i, join [nl] ls ++ [nl; nl]) :: cp)) = Some x ->
  m (RGrp i (RCat r_lz r_nn)) (mkst p (join [nl] ls ++ [nl; nl] ++ t) cp) k = Some x.
Proof.
  intros HF HN HK. rewrite m_grp, m_catE. apply lazy_any.
  - inversion HF as [|? ? (_ & c & t' & -> & _) _]; subst; [congruence|]. destruct l; discriminate.
  - intros u v E HU HV q. rewrite m_nn.
    destruct (block_inside ls u v ([nl; nl] ++ t) HF E HV HU) as (c & t' & -> & H). destruct t' as [|d t']; [reflexivity|].
    destruct H as [->|(-> & d' & t'' & [= <- <-] & ->)]; reflexivity.
  - rewrite m_nn. cbn [app]. replace (ceqb nl nl && ceqb nl nl) with true by reflexivity.
    replace (join [nl] ls ++ nl :: nl :: t) with ((join [nl] ls ++ [nl; nl]) ++ t) by now rewrite <- app_assoc. rewrite addcap_app. rewrite rev_app_distr in HK. cbn [rev app] in HK. exact HK.
Qed.
Lemma m_last {A} i ls p t cp (k : st -> option A) x b : Forall fline ls -> ls <> [] -> (b = [] /\ t = [] \/ b = [nl; nl]) ->
  k (mkst (rev (join [nl] ls ++ b) ++ p) t ((i, join [nl] ls ++ b) :: cp)) = Some x ->
  m (RGrp i (RCat r_lz (RAlt r_nn REnd))) (mkst p (join [nl] ls ++ b ++ t) cp) k = Some x.
Proof.
  intros HF HN HB HK. rewrite m_grp, m_catE. apply lazy_any.
  - inversion HF as [|? ? (_ & c & t' & -> & _) _]; subst; [congruence|]. destruct l; discriminate.
  - intros u v E HU HV q. rewrite m_altE, m_nn.
    destruct (block_inside ls u v (b ++ t) HF E HV HU) as (c & t' & -> & H). destruct t' as [|d t']; [reflexivity|].
    destruct H as [->|(-> & d' & t'' & [= <- <-] & ->)]; reflexivity.
  - rewrite m_altE, m_nn. destruct HB as [[-> ->]| ->].
    + cbn [app m rest]. rewrite !app_nil_r in *. unfold addcap. cbn [pre rest caps length]. rewrite Nat.sub_0_r, firstn_all. now rewrite HK.
    + cbn [app]. replace (ceqb nl nl && ceqb nl nl) with true by reflexivity.
    replace (join [nl] ls ++ nl :: nl :: t) with ((join [nl] ls ++ [nl; nl]) ++ t) by now rewrite <- app_assoc. rewrite addcap_app.
      rewrite rev_app_distr in HK. cbn [rev app] in HK. now rewrite HK.
Qed.
Lemma m_rest_end p t cp : m r_rest (mkst p t cp) Some = Some (mkst (rev t ++ p) [] (match t with [] => cp | _ => (6, t) :: cp end)).
Proof.
  unfold r_rest. rewrite m_catE, m_optE. destruct t as [|c t]; [reflexivity|]. rewrite m_grp.
  rewrite <- (app_nil_r (c :: t)) at 1.
  erewrite MeshtalFacts2.m_plus_all; [reflexivity|discriminate| |now left|].
  - apply Forall_forall. intros x _. apply any_inB.
  - cbv beta. unfold addcap. cbn [pre rest caps]. rewrite ?app_nil_r, Nat.sub_0_r, firstn_all. reflexivity.
Qed.

Lemma m_dots {A} w p t cp (k : st -> option A) x : w <> [] -> ~ In nl w -> ends t -> k (mkst (rev w ++ p) t cp) = Some x ->
  m r_dots (mkst p (w ++ t) cp) k = Some x.
Proof.
  intros HN HL HE HK. apply MeshtalFacts2.m_plus_all; auto.
  - apply allc_dot. apply Forall_forall. intros c I. unfold notnl. apply negb_true_iff, ceqb_neq. intros ->. auto.
  - destruct HE as [->|(t' & ->)]; [now left|]. right. exists nl, t'. split; reflexivity.
Qed.

Lemma ciset_in a b c : inset (ciset a b) c = N.eqb (code c) a || N.eqb (code c) b.
Proof.
  unfold inset, ciset, in_ranges. cbn [cneg cranges existsb]. rewrite orb_false_r, xorb_false_l.
  f_equal; rewrite Bool.eq_iff_eq_true, andb_true_iff, !N.leb_le, N.eqb_eq; lia.
Qed.
Lemma eats_msg s : eats (ciset 109 77 :: msg_sets) s = if announces s then Some (skipn 8 s) else None.
Proof.
  unfold announces.
  assert (G : forall l css, Forall2 (fun x cs => forall c, inset cs c = ceqb (lower c) x) l css ->
    forall s, eats css s = if starts_with l (slower s) then Some (skipn (length css) s) else None).
  { clear s. induction 1 as [|x cs0 l css HX HF IH]; [reflexivity|]. intros [|c s]; [reflexivity|].
    cbn [eats slower map starts_with length skipn]. rewrite HX. rewrite (IH s). unfold slower, ceqb. rewrite Ascii.eqb_sym. now destruct (Ascii.eqb x (lower c)). }
  apply (G (L "message:")).
  repeat (apply Forall2_cons; [intros c; apply eqb_prop; revert c; apply all_ascii; vm_compute; reflexivity|]). constructor.
Qed.
