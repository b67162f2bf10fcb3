(** Point sets of geometries, the operators, drawing, and foreign characters. *)

From Coq Require Import Ascii String NArith ZArith Bool Arith List Lia.
From Verif Require Import PyStr Regex RegexParse RegexFacts RegexLang PyNumFacts Types TypesFacts TypesFacts2 TypesFacts3 TypesFacts4 SubFacts CardTextFacts CardTextFacts2 CardsFacts2 Geometry GeometrySpec GeometryFacts GeometryFacts2 GeometryFacts3 GeometryFacts4.
Import ListNotations.
Open Scope list_scope.

(** * Operators *)
Fixpoint meet (a b : geo) : geo := match b with GInter l r => GInter (meet a l) r | _ => GInter a b end.
Fixpoint unite (a b : geo) : geo := match b with GUnion l r => GUnion (unite a l) r | _ => GUnion a b end.
Lemma toks_meet a b : toks (meet a b) = toks (GInter a b).
Proof. induction b as [l IH r _| | | |]; try reflexivity. cbn [meet toks] in *. rewrite IH, <- app_assoc. reflexivity. Qed.
Lemma toks_unite a b : toks (unite a b) = toks (GUnion a b).
Proof. induction b as [|l IH r _| | |]; try reflexivity. cbn [unite toks] in *. rewrite IH, <- app_assoc. reflexivity. Qed.
Lemma meet_grammar ts a : r_inter ts a -> forall us b, r_inter us b -> r_inter (ts ++ L " " :: us) (meet a b).
Proof.
  intros RA us b RB. induction RB as [us b RB|us1 b1 s us2 b2 R1 IH HS R2|us1 b1 us2 b2 R1 IH R2].
  - replace (meet a b) with (GInter a b); [apply inter_blank; auto|].
    destruct b; try reflexivity. exfalso. inversion RB as [? ? X|]; subst. inversion X as [? ? Y|]; subst. inversion Y.
  - cbn [meet]. replace (ts ++ L " " :: us1 ++ s :: us2) with ((ts ++ L " " :: us1) ++ s :: us2) by (rewrite <- app_assoc; reflexivity). now apply inter_blank.
  - cbn [meet]. replace (ts ++ L " " :: us1 ++ L "(" :: us2) with ((ts ++ L " " :: us1) ++ L "(" :: us2) by (rewrite <- app_assoc; reflexivity). now apply inter_open.
Qed.
Lemma unite_grammar ts a : r_union ts a -> forall us b, r_union us b -> r_union (ts ++ L ":" :: us) (unite a b).
Proof.
  intros RA us b RB. induction RB as [us b RB|us1 b1 us2 b2 R1 IH R2].
  - replace (unite a b) with (GUnion a b); [now apply union_more|].
    destruct b; try reflexivity. exfalso. inversion RB as [? ? Y|]; subst. inversion Y.
  - cbn [unite]. replace (ts ++ L ":" :: us1 ++ L ":" :: us2) with ((ts ++ L ":" :: us1) ++ L ":" :: us2) by (rewrite <- app_assoc; reflexivity). now apply union_more.
Qed.
Section D.
  Variable P : Type.
  Variables surf cell : str -> P -> Prop.
  Lemma denote_meet a b p : denote surf cell (meet a b) p <-> denote surf cell a p /\ denote surf cell b p.
  Proof. induction b as [l IH r _| | | |]; cbn [meet denote]; tauto. Qed.
  Lemma denote_unite a b p : denote surf cell (unite a b) p <-> denote surf cell a p \/ denote surf cell b p.
  Proof. induction b as [|l IH r _| | |]; cbn [unite denote]; tauto. Qed.
End D.
Lemma text_meet a b : geo_to_mcnp (meet a b) = geo_to_mcnp (GInter a b).
Proof. now rewrite <- !concat_toks, toks_meet. Qed.
Lemma text_unite a b : geo_to_mcnp (unite a b) = geo_to_mcnp (GUnion a b).
Proof. now rewrite <- !concat_toks, toks_unite. Qed.
Lemma not_inter_union g : readable g -> is_inter g = false -> r_union (toks g) g.
Proof.
  intros H HI. apply readable_grammar in H. inversion H; subst; auto; discriminate.
Qed.
Theorem or_meets a b : readable a -> readable b ->
  exists g, geo_from_mcnp (geo_to_mcnp (geo_or a b)) = Ok g /\
  forall (P : Type) (surf cell : str -> P -> Prop) p, denote surf cell g p <-> denote surf cell a p /\ denote surf cell b p.
Proof.
  intros HA HB. exists (meet a b). split; [|intros; apply denote_meet]. unfold geo_or. rewrite <- text_meet.
  apply readable_grammar in HA, HB. eapply grammar_readable. now apply meet_grammar; eassumption.
Qed.
Theorem and_unites a b : readable a -> readable b -> is_inter a = false -> is_inter b = false ->
  exists g, geo_from_mcnp (geo_to_mcnp (geo_and a b)) = Ok g /\
  forall (P : Type) (surf cell : str -> P -> Prop) p, denote surf cell g p <-> denote surf cell a p \/ denote surf cell b p.
Proof.
  intros HA HB IA IB. exists (unite a b). split; [|intros; apply denote_unite]. unfold geo_and. rewrite <- text_unite.
  apply (grammar_readable (toks a ++ L ":" :: toks b)). constructor. apply unite_grammar; now apply not_inter_union.
Qed.
Theorem unary_kept op a : In op ["+"; "-"; "#"]%char -> readable a -> is_prim a = true -> readable (GUnary op a).
Proof.
  intros HO HA HP. apply (grammar_readable ([op] :: toks a)). do 2 constructor. apply atom_unary; auto.
  apply readable_grammar in HA. destruct a; try discriminate HP; inversion HA as [? ? X| |]; subst; inversion X as [? ? Y|]; subst; inversion Y; subst; auto.
Qed.

(** * MCNP's precedence *)
Section M.
  Variable P : Type.
  Variables surf cell : str -> P -> Prop.
  Lemma in_some_one l : in_some [l] <-> Forall (fun f => f) l.
  Proof. unfold in_some. split; [intros H; inversion H; subst; auto; now inversion H1|now constructor]. Qed.
  Lemma in_some_single Q : in_some [[Q]] <-> Q.
  Proof. rewrite in_some_one. split; [now inversion 1|auto]. Qed.
  Lemma unmixed_pieces g p : unmixed g = true ->
    (is_union g = false -> exists l, pieces P surf cell g p = [l]) /\ (in_some (pieces P surf cell g p) <-> denote surf cell g p).
  Proof.
    induction g as [l IH1 r IH2|l IH1 r IH2|op g IH|g IH|d]; cbn [unmixed pieces denote is_union]; intros H.
    - apply andb_prop in H as [H H4]. apply andb_prop in H as [H H3]. apply andb_prop in H as [H1 H2].
      apply negb_true_iff in H1, H2. destruct (IH1 H3) as [(x & E1) D1]; auto. destruct (IH2 H4) as [(y & E2) D2]; auto.
      rewrite E1, E2 in *. cbn [glue]. split; [eauto|]. rewrite in_some_one in *. rewrite Forall_app, D1, D2. tauto.
    - apply andb_prop in H as [H1 H2]. destruct (IH1 H1) as [_ D1]. destruct (IH2 H2) as [_ D2]. split; [discriminate|].
      unfold in_some in *. rewrite Exists_app, D1, D2. tauto.
    - split; [eauto|]. rewrite in_some_single. destruct (IH H) as [_ D]. destruct (ceqb op "+"); [exact D|]. destruct (ceqb op "-"); [now rewrite D|].
      destruct g; try (now rewrite D); tauto.
    - split; [eauto|]. rewrite in_some_single. now apply IH.
    - split; [eauto|]. now rewrite in_some_single.
  Qed.
End M.
Theorem unmixed_mcnp g : unmixed g = true -> forall (P : Type) (surf cell : str -> P -> Prop) p,
  mcnp_denote surf cell g p <-> denote surf cell g p.
Proof. intros H P surf cell p. now apply unmixed_pieces. Qed.

(** * Drawing *)
Section S.
  Variable P : Type.
  Variables surfaces cells : str -> option (P -> bool).
  Definition member (d : str -> option (P -> bool)) (s : str) (p : P) : Prop := match d s with Some f => f p = true | None => False end.
  Theorem drawn g f : no_cell g = true -> to_show P surfaces cells g = Ok f ->
    forall p, f p = true <-> denote (member surfaces) (member cells) g p.
  Proof.
    revert f. induction g as [l IH1 r IH2|l IH1 r IH2|op g IH|g IH|d]; intros f HN H p.
    - cbn [no_cell to_show denote] in *. apply andb_prop in HN as [N1 N2].
      destruct (to_show P surfaces cells l) as [a| |]; try discriminate. destruct (to_show P surfaces cells r) as [b| |]; try discriminate.
      injection H as <-. rewrite <- (IH1 a N1 eq_refl), <- (IH2 b N2 eq_refl). unfold shape_and. rewrite andb_true_iff. tauto.
    - cbn [no_cell to_show denote] in *. apply andb_prop in HN as [N1 N2].
      destruct (to_show P surfaces cells l) as [a| |]; try discriminate. destruct (to_show P surfaces cells r) as [b| |]; try discriminate.
      injection H as <-. rewrite <- (IH1 a N1 eq_refl), <- (IH2 b N2 eq_refl). unfold shape_or. rewrite orb_true_iff. tauto.
    - assert (ND : no_cell g = true) by (destruct g; auto).
      assert (NEG : forall a, to_show P surfaces cells g = Ok a -> (shape_invert P a p = true <-> ~ denote (member surfaces) (member cells) g p)).
      { intros a Ha. rewrite <- (IH a ND Ha p). unfold shape_invert. destruct (a p); cbn; split; intuition discriminate. }
      cbn [to_show denote]. cbn [to_show] in H. destruct (ceqb op "+") eqn:E1; [now apply IH|]. destruct (ceqb op "-") eqn:E2.
      { destruct (to_show P surfaces cells g) as [a| |]; try discriminate. injection H as <-. now apply NEG. }
      destruct g; try (cbn [no_cell] in HN; rewrite E1, E2 in HN; discriminate HN);
        (destruct (to_show P surfaces cells _) as [a| |]; try discriminate; injection H as <-; now apply NEG).
    - cbn [no_cell to_show denote] in *. now apply IH.
    - cbn [to_show denote] in *. unfold show_digit in H. unfold member. destruct (surfaces d) as [a|]; [|discriminate]. now injection H as <-.
  Qed.
  Theorem drawable g : no_cell g = true -> (exists f, to_show P surfaces cells g = Ok f) <-> Forall (fun s => surfaces s <> None) (names g).
  Proof.
    induction g as [l IH1 r IH2|l IH1 r IH2|op g IH|g IH|d]; intros HN.
    - cbn [no_cell to_show names] in *. apply andb_prop in HN as [N1 N2]. rewrite Forall_app, <- (IH1 N1), <- (IH2 N2).
      destruct (to_show P surfaces cells l) as [a| |]; destruct (to_show P surfaces cells r) as [b| |]; cbn; split; intros X;
        repeat match goal with H : exists _, _ |- _ => destruct H | H : _ /\ _ |- _ => destruct H end; try discriminate; eauto.
    - cbn [no_cell to_show names] in *. apply andb_prop in HN as [N1 N2]. rewrite Forall_app, <- (IH1 N1), <- (IH2 N2).
      destruct (to_show P surfaces cells l) as [a| |]; destruct (to_show P surfaces cells r) as [b| |]; cbn; split; intros X;
        repeat match goal with H : exists _, _ |- _ => destruct H | H : _ /\ _ |- _ => destruct H end; try discriminate; eauto.
    - assert (ND : no_cell g = true) by (destruct g; auto).
      assert (EN : names (GUnary op g) = names g).
      { destruct g; try reflexivity. cbn [names no_cell] in *. now rewrite HN. }
      rewrite EN, <- (IH ND). cbn [to_show]. destruct (ceqb op "+") eqn:E1; [tauto|]. 
      assert (B : (exists f, bind (to_show P surfaces cells g) (fun a => Ok (shape_invert P a)) = Ok f) <-> (exists f, to_show P surfaces cells g = Ok f)).
      { destruct (to_show P surfaces cells g); cbn; split; intros [f X]; try discriminate; eauto. }
      destruct (ceqb op "-") eqn:E2; [exact B|]. destruct g; try exact B. cbn [no_cell] in HN. rewrite E1, E2 in HN. discriminate.
    - cbn [no_cell to_show names] in *. now apply IH.
    - cbn [to_show names]. unfold show_digit. destruct (surfaces d) as [a|] eqn:E; split.
      + intros _. constructor; [congruence|constructor].
      + eauto.
      + intros [f X]; discriminate.
      + intros X. inversion X; congruence.
  Qed.
End S.

(** * Foreign characters *)
Definition geo_char (c : ascii) : bool :=
  is_space c || is_digit c || existsb (ceqb c) [":"; "."; "("; ")"; "+"; "-"; "#"]%char.
Lemma token_char c : alpha re_gtoken c = true -> geo_char c = true.
Proof.
  intros H. pose proof (all_ascii (fun c => implb (alpha re_gtoken c) (geo_char c))) as X.
  assert (Y : forallb (fun n => implb (alpha re_gtoken (ascii_of_nat n)) (geo_char (ascii_of_nat n))) (seq 0 256) = true) by (vm_compute; reflexivity).
  specialize (X Y c). cbn beta in X. now rewrite H in X.
Qed.
Lemma match_at_alpha r p s o : match_at r p s = Some o -> allc (alpha r) (mtext o).
Proof.
  unfold match_at. destruct (m r (mkst p s []) Some) as [s'|] eqn:E; [|discriminate]. intros [= <-]. cbn [mtext].
  apply m_sound in E as (s1 & HM & [= ->]). apply M_consumes in HM as (u & [HR _] & HA). cbn [rest] in HR. rewrite HR, firstn_consumed. exact HA.
Qed.
Lemma search_at r : forall s p o, search r p s = Some o -> exists p' s', match_at r p' s' = Some o.
Proof.
  induction s as [|c s IH]; intros p o H; cbn [search] in H; destruct (match_at r p _) eqn:E; try discriminate; try (injection H as <-; eauto). eauto.
Qed.
Lemma finditer_alpha r : forall fuel p s, Forall (fun o => allc (alpha r) (mtext o)) (finditer_f fuel r p s).
Proof.
  induction fuel as [|f IH]; intros p s; cbn [finditer_f]; [constructor|]. destruct (search r p s) as [o|] eqn:E; [|constructor].
  apply search_at in E as (p' & s' & E). apply match_at_alpha in E. destruct (mtext o) as [|c t] eqn:ET; [destruct (mrest o)|]; constructor; rewrite ?ET; auto.
Qed.
Lemma lstrip_split s : exists a, s = a ++ lstrip s /\ allc is_space a.
Proof.
  induction s as [|c s (a & IH & HA)]; [exists []; split; [reflexivity|constructor]|]. cbn [lstrip]. destruct (is_space c) eqn:E.
  - exists (c :: a). split; [cbn; congruence|constructor; auto].
  - exists []. split; [reflexivity|constructor].
Qed.
Lemma strip_split s : exists a b, s = a ++ strip s ++ b /\ allc is_space a /\ allc is_space b.
Proof.
  destruct (lstrip_split s) as (a & E & HA). destruct (lstrip_split (rev (lstrip s))) as (b & E2 & HB).
  exists a, (rev b). unfold strip, rstrip. split; [|split; [auto|now apply Forall_rev]].
  rewrite E at 1. f_equal. rewrite <- (rev_involutive (lstrip s)), E2 at 1. now rewrite rev_app_distr.
Qed.
Theorem foreign_rejected s c : In c s -> geo_char c = false -> geo_from_mcnp s = Lib TypesError.
Proof.
  intros HI HC. unfold geo_from_mcnp, geo_tokens. destruct (seqb _ _) eqn:E; [|reflexivity]. exfalso. apply seqb_eq in E.
  destruct (strip_split s) as (a & b & ES & HA & HB). rewrite ES in HI.
  assert (HS : is_space c = false) by (unfold geo_char in HC; now destruct (is_space c)).
  assert (NI : forall u, allc is_space u -> ~ In c u) by (intros u HU X; unfold allc in HU; rewrite Forall_forall in HU; apply HU in X; congruence).
  apply in_app_or in HI as [HI|HI]; [now apply NI in HI|]. apply in_app_or in HI as [HI|HI]; [|now apply NI in HI].
  rewrite <- E in HI. apply in_concat in HI as (t & HT & HI). unfold raw_tokens, finditer in HT. apply in_map_iff in HT as (o & <- & HO).
  pose proof (finditer_alpha re_gtoken (S (length (strip s))) [] (strip s)) as F. rewrite Forall_forall in F. apply F in HO.
  unfold allc in HO. rewrite Forall_forall in HO. apply HO in HI. apply token_char in HI. congruence.
Qed.

(** * MCNP's grammar *)
Scheme r_prim_i := Induction for r_prim Sort Prop with r_atom_i := Induction for r_atom Sort Prop
  with r_union_i := Induction for r_union Sort Prop with r_inter_i := Induction for r_inter Sort Prop.
Combined Scheme r_ind from r_prim_i, r_atom_i, r_union_i, r_inter_i.

Lemma atom_not_inter ts g : r_atom ts g -> is_union g = false /\ is_inter g = false.
Proof. intros H. inversion H; subst; auto. inversion H0; subst; auto. Qed.
Lemma union_plain ts g : r_union ts g -> is_union g = false -> r_atom ts g.
Proof. intros H. inversion H; subst; auto. discriminate. Qed.

Lemma unmixed_grammar :
  (forall ts g, r_prim ts g -> unmixed g = true -> k_prim ts g) /\
  (forall ts g, r_atom ts g -> unmixed g = true -> k_atom ts g) /\
  (forall ts g, r_union ts g -> unmixed g = true -> k_union ts g /\ (is_union g = false -> k_atom ts g)) /\
  (forall ts g, r_inter ts g -> unmixed g = true -> k_union ts g /\ (is_union g = false -> k_inter ts g)).
Proof.
  apply (r_ind (fun ts g _ => unmixed g = true -> k_prim ts g) (fun ts g _ => unmixed g = true -> k_atom ts g)
    (fun ts g _ => unmixed g = true -> k_union ts g /\ (is_union g = false -> k_atom ts g))
    (fun ts g _ => unmixed g = true -> k_union ts g /\ (is_union g = false -> k_inter ts g))).
  - intros. now constructor.
  - intros ts g _ IH H. constructor. now apply IH.
  - intros ts g _ IH H. apply k_plain. auto.
  - intros op ts g HI _ IH H. apply k_unary; auto.
  - intros ts g _ IH H. split; [|auto]. apply k_factors, k_one. auto.
  - intros ts1 g1 ts2 g2 _ IH1 _ IH2 H. cbn in H. apply andb_prop in H as [H1 H2]. split; [|discriminate].
    apply k_colon; [now apply IH1|]. apply k_one. auto.
  - intros ts g _ IH H. destruct (IH H) as [A B]. split; auto. intros U. apply k_one. auto.
  - intros ts1 g1 b ts2 g2 _ IH1 HB _ IH2 H. cbn in H. repeat (apply andb_prop in H as [H ?]).
    apply negb_true_iff in H, H2. destruct (IH1 H1) as [_ A], (IH2 H0) as [_ B].
    assert (K : k_inter (ts1 ++ b :: ts2) (GInter g1 g2)) by (apply k_blank; auto).
    split; auto. now apply k_factors.
  - intros ts1 g1 ts2 g2 _ IH1 _ IH2 H. cbn in H. repeat (apply andb_prop in H as [H ?]).
    apply negb_true_iff in H, H2. destruct (IH1 H1) as [_ A], (IH2 H0) as [_ B].
    assert (K : k_inter (ts1 ++ L "(" :: ts2) (GInter g1 g2)) by (apply k_open; auto).
    split; auto. now apply k_factors.
Qed.
Lemma unmixed_read s g : geo_from_mcnp s = Ok g -> unmixed g = true -> exists ts, geo_tokens s = Some ts /\ k_union ts g.
Proof.
  intros H U. apply from_iff in H as (ts & T & H). exists ts. split; auto. now apply (proj2 (proj2 (proj2 unmixed_grammar))).
Qed.
