(** Round trip of cards and options of the regular form: the theorems. *)

From Coq Require Import Ascii String NArith ZArith Bool Arith List Lia.
From Verif Require Import PyStr Regex RegexParse RegexFacts RegexLang PyNum PyNumFacts Types TypesSpec TypesFacts TypesFacts2 TypesFacts3 TypesFacts4 TypesFacts5 SubFacts CardText CardTextSpec CardTextFacts CardTextFacts2 CardTextFacts3 CardTextFacts4 CardTextFacts5 CardTextFacts6 Cards CardsSpec CardsFacts CardsFacts2 CardsFacts3 CardsFacts4.
Import ListNotations.
Open Scope char_scope.
Open Scope list_scope.

(** * A keyword with a trailing blank *)

Lemma strip_trailing w : w <> [] -> nospace w -> strip (w ++ [sp]) = w.
Proof.
  intros N H. unfold strip, rstrip. destruct w as [|c w]; [congruence|]. cbn [app lstrip].
  inversion H as [|? ? H1 H2]; subst. apply negb_true_iff in H1. rewrite H1.
  change (c :: w ++ [sp]) with ((c :: w) ++ [sp]). rewrite rev_app_distr. cbn [rev app lstrip]. change (is_space sp) with true. cbv iota.
  rewrite lstrip_nospace; [now rewrite rev_app_distr, rev_involutive|].
  apply allc_app. split; [now apply allc_rev|]. constructor; [now rewrite H1|constructor].
Qed.

Lemma tidy_trailing w : w <> [] -> allc head_char w -> tidy (w ++ [sp]) = w.
Proof.
  intros N H. assert (HC : forall c w1 w2, w = w1 ++ c :: w2 -> head_char c = true).
  { intros c w1 w2 ->. apply allc_app in H as [_ H]. now inversion H. }
  assert (HM : forall r f, (forall c t p, head_char c = true -> match_at r p (c :: t) = None) ->
     forall t o, reps r f t o -> reps r f (w ++ t) (w ++ o)).
  { intros r f HR t o. apply reps_word. intros c w1 w2 p E. apply HR. eauto. }
  assert (HP : forall c, head_char c = true -> is_space c = false /\ c <> "=" /\ c <> "&" /\ c <> "(").
  { intros c X. apply andb_prop in X as [X Y]. apply negb_true_iff in X, Y. repeat split; auto; intros ->; discriminate. }
  unfold tidy.
  rewrite (reps_sub re_cont (fun _ => [sp]) (w ++ [sp]) (w ++ [sp])).
  2:{ apply HM.
      - intros c t p X. apply HP in X as (X & _ & Y & _). apply cont_miss; [now apply nonspace_nl|]. congruence.
      - apply reps_copy; [intros p; apply cont_miss; [reflexivity|discriminate]|]. apply reps_nil. reflexivity. }
  rewrite (reps_sub re_blanks (fun _ => [sp]) (w ++ [sp]) (w ++ [sp])).
  2:{ apply HM.
      - intros c t p X. apply HP in X as (X & _). apply blanks_miss. now apply nonspace_sp.
      - apply (blanks_hit [sp] [] []); [repeat constructor|now left|]. apply reps_nil. reflexivity. }
  rewrite (reps_sub re_open (fun _ => ["("]) (w ++ [sp]) (w ++ [sp])).
  2:{ apply HM.
      - intros c t p X. apply HP in X as (_ & _ & _ & X). apply open_miss. now left.
      - apply reps_copy; [intros p; apply open_miss; left; discriminate|]. apply reps_nil. reflexivity. }
  rewrite (reps_sub re_close (fun _ => [")"]) (w ++ [sp]) (w ++ [sp])).
  2:{ apply HM.
      - intros c t p X. apply HP in X as (X & _). apply close_miss. left. now apply nonspace_sp.
      - apply reps_copy; [intros p; apply close_miss; right; discriminate|]. apply reps_nil. reflexivity. }
  rewrite (reps_sub re_blankline (fun _ => [nl; nl]) (w ++ [sp]) (w ++ [sp])).
  2:{ apply HM.
      - intros c t p X. apply HP in X as (X & _). apply match_at_miss. rewrite re_blankline_eq, m_catE. unfold c1 at 1. now rewrite m_chr, (nonspace_nl c X).
      - apply reps_copy; [reflexivity|]. apply reps_nil. reflexivity. }
  rewrite (reps_sub re_equals (fun _ => [sp]) (w ++ [sp]) (w ++ [sp])).
  2:{ apply HM.
      - intros c t p X. apply HP in X as (X & Y & _). apply match_at_miss. rewrite re_equals_eq, !m_altE, !m_catE. unfold c1.
        rewrite !m_chr, (nonspace_sp c X). apply ceqb_neq in Y. now rewrite Y.
      - apply reps_copy; [reflexivity|]. apply reps_nil. reflexivity. }
  rewrite (reps_sub re_tab (fun _ => [sp; sp; sp; sp]) (w ++ [sp]) (w ++ [sp])).
  2:{ apply HM.
      - intros c t p X. apply HP in X as (X & _). apply match_at_miss. rewrite re_tab_eq. unfold c1. rewrite m_chr.
        replace (ceqb c tab) with false; auto. symmetry. apply ceqb_neq. intros ->. discriminate.
      - apply reps_copy; [reflexivity|]. apply reps_nil. reflexivity. }
  apply strip_trailing; auto. now apply head_nospace.
Qed.


Lemma preprocess_trailing w : w <> [] -> allc head_char w -> preprocess (w ++ [sp]) = w.
Proof.
  intros N H. pose proof (head_chars_clean w N H) as HW.
  assert (E : tidy (w ++ [sp]) = tidy w).
  { rewrite tidy_trailing by auto. symmetry. pose proof (tidy_words w [] HW (Forall_nil _)) as Y.
    change (spaced []) with (@nil ascii) in Y. now rewrite app_nil_r in Y. }
  transitivity (preprocess w); [unfold preprocess; now rewrite E|]. exact (preprocess_exact w [] HW (Forall_nil _)).
Qed.

(** * Keywords tell classes apart *)

Lemma lit_lower c x : kw_char c = true -> inset (lit_set true c) x = true -> lower x = lower c.
Proof.
  intros HC HX.
  pose proof (all_ascii (fun c => implb (kw_char c) (forallb (fun n => let x := ascii_of_nat n in implb (inset (lit_set true c) x) (ceqb (lower x) (lower c))) (seq 0 256)))) as Q.
  specialize (Q ltac:(vm_compute; reflexivity) c). cbv beta in Q. rewrite HC in Q. cbn [implb] in Q.
  rewrite forallb_forall in Q. specialize (Q (nat_of_ascii x)). cbv zeta in Q. rewrite ascii_nat_embedding in Q.
  rewrite HX in Q. cbn [implb] in Q. apply ceqb_eq, Q. apply in_seq. pose proof (nat_ascii_bounded x). lia.
Qed.

Lemma lits_word kw l g : forall p t cp, forallb kw_char kw = true ->
  m (lits_re kw (fields_re g l)) (mkst p t cp) (@Some st) <> None ->
  exists u t', t = u ++ t' /\ slower u = slower kw /\ nosp u /\ bnd t'.
Proof.
  induction kw as [|c kw IH]; intros p t cp HK H.
  - exists [], t. repeat split; auto; [constructor|]. now apply m_fields_bnd in H.
  - cbn [lits_re fold_right] in H. rewrite m_catE in H. fold (lits_re kw (fields_re g l)) in H.
    cbn [forallb] in HK. apply andb_prop in HK as [HC HK].
    destruct t as [|x t]; [exfalso; apply H; reflexivity|].
    destruct (inset (lit_set true c) x) eqn:E; [|exfalso; apply H; cbn [m rest]; now rewrite E].
    rewrite m_setE in H by exact E. destruct (IH _ _ _ HK H) as (u & t' & -> & E1 & E2 & E3).
    exists (x :: u), t'. split; auto. pose proof (lit_lower c x HC E) as EL. split; [|split; auto].
    + cbn [slower map]. unfold slower in E1. now rewrite E1, EL.
    + constructor; auto. destruct (ceqb x sp) eqn:ES; auto. apply ceqb_eq in ES. subst x.
      pose proof (all_ascii (fun c => implb (kw_char c) (negb (ceqb (lower sp) (lower c)))) eq_refl c) as Q.
      cbv beta in Q. rewrite HC, EL, ceqb_refl in Q. discriminate.
Qed.

Lemma other_keyword d fd w ws : has_form d fd -> head_parts fd = [] -> nosp w -> slower w <> slower (c_kw d) ->
  re_match (compile true (c_pat d)) (join [sp] (w :: ws)) = None.
Proof.
  intros (HP & _ & _ & _ & _ & HK) HH HW HN. rewrite HP, form_body.
  rewrite head_parts_eq in HH. apply app_eq_nil in HH as [E1 HH]. apply app_eq_nil in HH as [E2 E3].
  assert (EB : exists g, body (c_kw d) fd = lits_re (c_kw d) (fields_re g (f_fields fd))).
  { unfold body, tail_s, tail_d. unfold p_part, s_part, d_part in *.
    destruct (f_prefix fd), (f_suffix fd), (f_desig fd); try discriminate. eauto. }
  destruct EB as (g & ->). unfold re_match, match_at. rewrite m_catE. cbn [m pre].
  destruct (m (lits_re (c_kw d) (fields_re g (f_fields fd))) _ _) eqn:E; auto. exfalso.
  assert (X : m (lits_re (c_kw d) (fields_re g (f_fields fd))) (mkst [] (join [sp] (w :: ws)) []) (@Some st) <> None) by congruence.
  apply lits_word in X as (u & t' & E4 & E5 & E6 & E7); auto. rewrite <- spaced_join in E4.
  destruct (nosp_split w u (spaced ws) t') as [-> _]; auto using bnd_spaced.
Qed.

Section Theorems.
  Variable ext : string -> str -> result val.
  Variable fam : string -> list cls.

  Theorem card_round_trip c f vs o :
    has_form c f -> c_kind c = KCard -> values_ok f vs ->
    construct ext fam c (map to_arg vs) = Ok o -> length (head_text (c_kw c) (texts o)) <= 78 ->
    card_from_mcnp ext fam c (card_to_mcnp c o) = Ok (o, []).
  Proof.
    intros HF HK HV HC HL. destruct (regular_object ext fam c f vs HF HV) as (hw & ws & N & H1 & H2 & _ & H3 & H4); [unfold headed; auto|].
    destruct (H3 o HC) as (_ & E1 & E2). rewrite E1 in HL. pose proof (head_chars_clean hw N H1) as HW.
    assert (HS : strip (hw ++ [sp] ++ join [sp] ws) = join [sp] (hw :: ws)).
    { destruct ws as [|w ws].
      - cbn [app join]. apply strip_trailing; auto. now apply head_nospace.
      - change (hw ++ [sp] ++ join [sp] (w :: ws)) with (join [sp] (hw :: w :: ws)). rewrite <- !spaced_join. apply strip_ends; auto.
        eapply Forall_impl; [|exact H2]. intros v Hv. apply Hv. }
    unfold card_to_mcnp. rewrite HK, E2, HS. unfold card_from_mcnp. rewrite card_text_exact by auto.
    cbv beta iota. destruct H4 as (mo & -> & _ & E4). rewrite E4, HC. reflexivity.
  Qed.

  Lemma option_text c f vs o :
    has_form c f -> c_kind c = KOption -> values_ok f vs -> construct ext fam c (map to_arg vs) = Ok o ->
    exists (hw : str) (ws : list str), nosp hw /\ (head_parts f = [] -> hw = c_kw c) /\
      preprocess (option_to_mcnp c o) = join [sp] (hw :: ws) /\
      exists mo, re_match (compile true (c_pat c)) (join [sp] (hw :: ws)) = Some mo /\ mtext mo = join [sp] (hw :: ws) /\
         read_cls ext fam c mo = Ok o.
  Proof.
    intros HF HK HV HC. destruct (regular_object ext fam c f vs HF HV) as (hw & ws & N & H1 & H2 & H5 & H3 & H4); [unfold headed; auto|].
    destruct (H3 o HC) as (_ & _ & E2). pose proof (head_chars_clean hw N H1) as HW.
    exists hw, ws. rewrite HC in H4. split; [|split; [auto|split; [|exact H4]]].
    - apply head_nospace in H1. eapply Forall_impl; [|exact H1]. intros c0 Hc. apply negb_true_iff in Hc. now rewrite nonspace_sp.
    - unfold option_to_mcnp. rewrite E2. destruct ws as [|w ws].
      + cbn [app join]. now apply preprocess_trailing.
      + change (hw ++ [sp] ++ join [sp] (w :: ws)) with (join [sp] (hw :: w :: ws)). now apply preprocess_exact.
  Qed.

  Theorem option_round_trip c f vs o :
    has_form c f -> c_kind c = KOption -> values_ok f vs ->
    construct ext fam c (map to_arg vs) = Ok o ->
    family_from_mcnp ext fam [c] (option_to_mcnp c o) = Ok (c, o).
  Proof.
    intros HF HK HV HC. destruct (option_text c f vs o HF HK HV HC) as (hw & ws & _ & _ & E & mo & E1 & E2 & E3).
    unfold family_from_mcnp. rewrite E. cbn [first_match]. rewrite E1, E2.
    replace (seqb _ _) with true by (symmetry; now apply seqb_eq). rewrite E3. reflexivity.
  Qed.

  (** A family of options with different keywords and nothing around them. *)
  Theorem family_round_trip cs c f vs o :
    Forall (fun d => exists fd, has_form d fd /\ head_parts fd = []) cs ->
    NoDup (map (fun d => slower (c_kw d)) cs) ->
    In c cs -> has_form c f -> head_parts f = [] -> c_kind c = KOption -> values_ok f vs ->
    construct ext fam c (map to_arg vs) = Ok o ->
    family_from_mcnp ext fam cs (option_to_mcnp c o) = Ok (c, o).
  Proof.
    intros HA HD HI HF HH HK HV HC. destruct (option_text c f vs o HF HK HV HC) as (hw & ws & HW & EW & E & mo & E1 & E2 & E3).
    specialize (EW HH). subst hw. unfold family_from_mcnp. rewrite E.
    assert (X : first_match cs (join [sp] (c_kw c :: ws)) = Some (c, mo)).
    { clear E E3. induction cs as [|d cs IH]; [destruct HI|]. cbn [first_match].
      cbn [map] in HD. inversion HD as [|? ? D1 D2]; subst. inversion HA as [|? ? A1 A2]; subst.
      destruct HI as [->|HI].
      - rewrite E1, E2. now replace (seqb _ _) with true by (symmetry; now apply seqb_eq).
      - destruct A1 as (fd & A1 & A3). rewrite (other_keyword d fd); auto. intros EQ. apply D1. rewrite <- EQ.
        apply in_map_iff. eauto. }
    rewrite X, E3. reflexivity.
  Qed.
End Theorems.
