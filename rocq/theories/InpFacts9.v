(** Surfaces: what is written is read back. *)

From Coq Require Import Ascii String NArith ZArith Bool Arith Lia List.
From Verif Require Import PyStr Regex RegexParse PyNum PyNumFacts Types TypesSpec TypesFacts TypesFacts2 TypesFacts3 TypesFacts4 TypesFacts5 SubFacts CardText CardTextSpec CardTextFacts CardTextFacts2 CardTextFacts3 CardTextFacts4 CardTextFacts5 CardTextFacts6
  Cards Tables CardsSpec CardsFacts CardsFacts2 CardsFacts3 CardsFacts4 CardsFacts5 CardsFacts6 Geometry Numbered Problem InpFile InpSpec InpSpec2 InpFacts InpFacts2 InpFacts5 RegexFacts RegexLang RegexDer InpFacts6 InpFacts7 InpFacts8.
Import ListNotations.
Open Scope char_scope.
Open Scope list_scope.

(** ** From the language of an expression to its matches *)

(** No anchors; what is repeated is never empty. *)
Fixpoint thrifty (r : re) : bool :=
  match r with
  | REps | RSet _ => true
  | RCat a b | RAlt a b => thrifty a && thrifty b
  | RRep _ mn mx a => negb (null a) && thrifty a && match mx with Some n => Nat.leb mn n | None => true end
  | RGrp _ a => thrifty a
  | _ => false
  end.
Lemma V_accc r : thrifty r = true -> forall u, V r u -> exists c, accc r u c.
Proof.
  induction r as [|cs|a IHa b IHb|a IHa b IHb|lz mn mx a IH|k a IH| | |ng lit]; cbn [thrifty V]; intros HT u HV; try discriminate.
  - subst. exists []. intros p t cp. reflexivity.
  - destruct HV as (x & -> & HX). exists []. intros p t cp. cbn [M app]. exists x, t. auto.
  - apply andb_prop in HT as [H1 H2]. destruct HV as (u1 & u2 & V1 & V2 & ->).
    destruct (IHa H1 _ V1) as (c1 & C1). destruct (IHb H2 _ V2) as (c2 & C2). exists (c2 ++ c1). now apply accc_cat.
  - apply andb_prop in HT as [H1 H2]. destruct HV as [HV|HV].
    + destruct (IHa H1 _ HV) as (c & C). exists c. now apply accc_altl.
    + destruct (IHb H2 _ HV) as (c & C). exists c. now apply accc_altr.
  - apply andb_prop in HT as [H1 H3]. apply andb_prop in H1 as [H1 H2]. destruct HV as (l & HF & Hn & Hx & ->).
    assert (exists l2 : list (str * capl), map fst l2 = l /\ Forall (fun x => accc a (fst x) (snd x) /\ fst x <> []) l2) as (l2 & <- & HL).
    { clear Hn Hx. induction HF as [|u l HU HF IHl]; [exists []; auto|]. destruct IHl as (l2 & <- & HL). destruct (IH H2 _ HU) as (c & C).
      exists ((u, c) :: l2). split; auto. constructor; auto. split; auto. cbn [fst]. intros ->. apply null_V in HU. rewrite HU in H1. discriminate. }
    eexists. apply accc_rep; auto; rewrite map_length in *; auto. destruct mx as [n|]; auto. apply Nat.leb_le in H3. lia.
  - destruct (IH HT _ HV) as (c & C). exists ((k, u) :: c). now apply accc_grp.
Qed.

(** Group numbers and anchors do not matter for the language. *)
Definition ecat (a b : re) : re := match a, b with REps, _ => b | _, REps => a | _, _ => RCat a b end.
Fixpoint erase (r : re) : re :=
  match r with
  | RCat a b => ecat (erase a) (erase b)
  | RAlt a b => RAlt (erase a) (erase b)
  | RRep l n x a => RRep l n x (erase a)
  | RGrp _ a => erase a
  | RSet c => RSet c
  | _ => REps
  end.
Lemma ecat_V a b u : V (ecat a b) u <-> V (RCat a b) u.
Proof.
  assert (H1 : V b u <-> V (RCat REps b) u).
  { cbn [V]. split; [intros H; exists [], u; auto|intros (u1 & u2 & -> & H & ->); auto]. }
  assert (H2 : V a u <-> V (RCat a REps) u).
  { cbn [V]. split; [intros H; exists u, []; rewrite app_nil_r; auto|intros (u1 & u2 & H & -> & ->); rewrite app_nil_r; auto]. }
  destruct a; cbn [ecat]; auto; destruct b; auto; reflexivity.
Qed.
Lemma erase_V r : forall u, V (erase r) u <-> V r u.
Proof.
  induction r as [|cs|a IHa b IHb|a IHa b IHb|lz mn mx a IH|k a IH| | |ng lit]; intros u; cbn [erase]; try reflexivity.
  - rewrite ecat_V. cbn [V]. split; intros (u1 & u2 & H1 & H2 & ->); exists u1, u2; (split; [now apply IHa|]); (split; [now apply IHb|reflexivity]).
  - cbn [V]. now rewrite IHa, IHb.
  - cbn [V]. split; intros (l & HF & H); exists l; (split; [|exact H]); (eapply Forall_impl; [|exact HF]); intros v; now apply IH.
  - apply IH.
Qed.
Fixpoint alts (r : re) : list re := match r with RAlt a b => alts a ++ alts b | _ => [r] end.
Lemma alts_V r a u : In a (alts r) -> V a u -> V r u.
Proof.
  induction r as [|cs|r1 IHa r2 IHb|r1 IHa r2 IHb|lz mn mx r IH|k r IH| | |ng lit]; cbn [alts]; intros HI HV; try (destruct HI as [<-|[]]; exact HV).
  apply in_app_or in HI as [HI|HI]; [left|right]; auto.
Qed.
(** [c] is one of the alternatives of [r]. *)
Definition offers (r : re) (c : re) : bool := existsb (re_eqb (erase c)) (map erase (alts r)).
Lemma offers_V r c u : offers r c = true -> V c u -> V r u.
Proof.
  unfold offers. intros H HV. apply existsb_exists in H as (a & HI & E). apply re_eqb_ok in E. apply in_map_iff in HI as (b & <- & HI).
  apply (alts_V r b u HI). apply erase_V. rewrite <- E. now apply erase_V.
Qed.

(** ** The pattern of a surface after its prefix *)

Definition re_word : re := RRep false 1 None (RSet nonspace).
Lemma word_accc u : u <> [] -> allc (inset nonspace) u -> accc re_word u [].
Proof. intros HN HU. apply acc_accc. now apply acc_plus_set. Qed.
Lemma blank_accc : accc re_blank [sp] [].
Proof. intros p t cp. exists sp, t. auto. Qed.

Section Tail.
  Variable opts : re.
  Definition re_transform : re := RRep false 0 (Some 1) (RGrp 3 (RCat re_blank re_word)).
  Definition re_option : re := RGrp 4 (RCat re_blank (RGrp 5 opts)).
  Definition re_rest : re := RCat (RGrp 2 re_word) (RCat re_transform (RCat re_option REnd)).
  Hypothesis HT : thrifty opts = true.
  Hypothesis HG : memn 1 (groups opts) = false /\ memn 2 (groups opts) = false /\ memn 3 (groups opts) = false /\ memn 4 (groups opts) = false.

  Definition gap_text (tr : option str) : str := match tr with Some t => sp :: t | None => [] end.

  Lemma option_M s s' : M (RCat re_option REnd) s s' ->
    exists v, rest s = sp :: v /\ V opts v /\ rest s' = [] /\ lookup 4 (caps s') = Some (rest s) /\
    lookup 1 (caps s') = lookup 1 (caps s) /\ lookup 2 (caps s') = lookup 2 (caps s) /\ lookup 3 (caps s') = lookup 3 (caps s).
  Proof.
    intros (s1 & (s0 & H1 & ->) & (HR & ->)). destruct HG as (G1 & G2 & G3 & G4). cbn [rest addcap] in HR.
    assert (HX : forall n, n <> 4 -> n <> 5 -> memn n (groups opts) = false -> lookup n (caps (addcap 4 s s0)) = lookup n (caps s)).
    { intros n N4 N5 HN. unfold addcap. cbn [caps lookup]. destruct (Nat.eqb 4 n) eqn:E; [apply Nat.eqb_eq in E; congruence|].
      apply (M_lookup n) in H1; auto. cbn [groups re_blank app]. intros [X|X]; [congruence|]. now apply memn_no in X. }
    pose proof (M_V _ _ _ H1) as (u & HV & EU). rewrite HR, app_nil_r in EU. cbn [V] in HV. destruct HV as (u1 & u2 & (x & -> & Hx) & HV & ->).
    assert (x = sp) as ->.
    { revert Hx. clear. intros HX. assert (Y : forallb (fun x => implb (inset {| cneg := false; cranges := [(32, 32)%N] |} x) (Ascii.eqb x sp)) all_chars = true) by (vm_compute; reflexivity).
      rewrite forallb_forall in Y. specialize (Y x (in_all_chars x)). rewrite HX in Y. now apply Ascii.eqb_eq. }
    exists u2. split; [exact EU|]. split; [exact HV|]. split; [exact HR|]. split.
    - unfold addcap. cbn [caps lookup]. rewrite Nat.eqb_refl, HR. cbn [length]. rewrite Nat.sub_0_r, firstn_all. reflexivity.
    - repeat split; apply HX; auto; discriminate.
  Qed.

  Lemma tail_match p cp w tr opt : w <> [] -> allc (inset nonspace) w ->
    (forall t, tr = Some t -> t <> [] /\ allc (inset nonspace) t) -> V opts opt ->
    match tr with
    | None => forall x v, opt = x ++ sp :: v -> allc (inset nonspace) x -> ~ V opts v
    | Some t => ~ V opts (t ++ sp :: opt)
    end ->
    exists s', m re_rest (mkst p (w ++ gap_text tr ++ sp :: opt) cp) Some = Some s' /\ rest s' = [] /\
      lookup 1 (caps s') = lookup 1 cp /\ lookup 2 (caps s') = Some w /\
      lookup 3 (caps s') = match tr with Some t => Some (sp :: t) | None => lookup 3 cp end /\ lookup 4 (caps s') = Some (sp :: opt).
  Proof.
    intros NW HW HTR HV HU.
    assert (HM : exists s', m re_rest (mkst p (w ++ gap_text tr ++ sp :: opt) cp) Some = Some s').
    { destruct (V_accc opts HT opt HV) as (c & C).
      assert (A4 : accc re_option (sp :: opt) ((4, sp :: opt) :: (5, opt) :: c)).
      { unfold re_option. apply accc_grp. pose proof (accc_cat _ _ [sp] opt [] ((5, opt) :: c) blank_accc (accc_grp 5 _ _ _ C)) as X. rewrite app_nil_r in X. exact X. }
      assert (A3 : exists c3, accc re_transform (gap_text tr) c3).
      { destruct tr as [t|]; cbn [gap_text].
        - destruct (HTR t eq_refl) as [NT HTT]. eexists. apply accc_opt_some; [|discriminate]. apply accc_grp.
          exact (accc_cat _ _ [sp] t [] [] blank_accc (word_accc t NT HTT)).
        - exists []. apply accc_opt_none. }
      destruct A3 as (c3 & A3). pose proof (accc_grp 2 _ _ _ (word_accc w NW HW)) as A2.
      destruct (m re_rest (mkst p (w ++ gap_text tr ++ sp :: opt) cp) Some) as [s'|] eqn:E; [eauto|]. exfalso.
      assert (N : forall s s', M re_rest s s' -> m re_rest s (@Some st) <> None) by (intros s s' X; apply (m_complete _ re_rest s s'); [exact X|discriminate]).
      eapply N; [|exact E]. unfold re_rest. cbn [M]. eexists. split; [apply A2|]. eexists. split; [apply A3|]. eexists.
      split; [|split; [|reflexivity]].
      - pose proof (A4 (rev (gap_text tr) ++ rev w ++ p) [] (c3 ++ [(2, w)] ++ cp)) as X. rewrite app_nil_r in X. exact X.
      - reflexivity. }
    destruct HM as (s' & E). exists s'. split; [exact E|]. apply m_sound in E as (s1 & HM & [= <-]).
    destruct HM as (s2 & (s0 & H1 & ->) & (s3 & H2 & H3)).
    apply M_W in H1 as (w' & c' & HW' & EW & _ & EC); [|reflexivity]. cbn [rest caps] in EW, EC. apply W_rep_set in HW' as (HA & _ & _ & ->).
    apply option_M in H3 as (v & EV & VV & ER & L4 & L1 & L2 & L3).
    destruct HG as (G1 & G2 & G3 & G4).
    assert (K : forall n, n <> 3 -> lookup n (caps s3) = lookup n (caps (addcap 2 (mkst p (w ++ gap_text tr ++ sp :: opt) cp) s0))).
    { intros n Hn. apply (M_lookup n) in H2; auto. cbn [groups re_transform re_blank re_word app]. intros [X|[]]. congruence. }
    apply M_W in H2 as (u & c3 & HW3 & E3 & _ & EC3); [|reflexivity]. cbn [rest addcap] in E3.
    assert (ns : forall x, allc (inset nonspace) x -> ~ In sp x).
    { intros x Hx HI. unfold allc in Hx. rewrite Forall_forall in Hx. now apply (nonspace_sp _ (Hx _ HI)). }
    assert (WB : forall x d, W (RGrp 3 (RCat re_blank re_word)) x d -> exists t, x = sp :: t /\ allc (inset nonspace) t /\ d = [(3, sp :: t)]).
    { intros x d (d' & (u1 & u2 & c1 & c2 & (y & -> & Hy & ->) & X2 & -> & ->) & ->). apply W_rep_set in X2 as (X2 & _ & _ & ->).
      assert (y = sp) as ->.
      { revert Hy. clear. intros HX. assert (Y : forallb (fun x => implb (inset {| cneg := false; cranges := [(32, 32)%N] |} x) (Ascii.eqb x sp)) all_chars = true) by (vm_compute; reflexivity).
        rewrite forallb_forall in Y. specialize (Y y (in_all_chars y)). rewrite HX in Y. now apply Ascii.eqb_eq. }
      exists u2. auto. }
    assert (HH : exists t, gap_text tr ++ sp :: opt = sp :: t) by (destruct tr; cbn; eauto).
    assert (H0 : exists t, rest s0 = sp :: t).
    { rewrite E3. apply W_opt in HW3 as [[-> _]|HW3]; [rewrite EV; cbn; eauto|]. apply WB in HW3 as (t & -> & _). cbn. eauto. }
    destruct HH as (t1 & HH). destruct H0 as (t0 & H0). rewrite HH, H0 in EW. apply word_unique in EW as [<- <-]; auto.
    rewrite H0, <- HH in E3. split; [exact ER|].
    assert (Q2 : lookup 2 (caps (addcap 2 (mkst p (w ++ gap_text tr ++ sp :: opt) cp) s0)) = Some w).
    { unfold addcap. cbn [caps lookup rest]. rewrite Nat.eqb_refl, HH, H0. now rewrite firstn_consumed. }
    assert (Q1 : lookup 1 (caps (addcap 2 (mkst p (w ++ gap_text tr ++ sp :: opt) cp) s0)) = lookup 1 cp).
    { unfold addcap. cbn [caps lookup Nat.eqb]. now rewrite EC. }
    assert (Q3 : lookup 3 (caps (addcap 2 (mkst p (w ++ gap_text tr ++ sp :: opt) cp) s0)) = lookup 3 cp).
    { unfold addcap. cbn [caps lookup Nat.eqb]. now rewrite EC. }
    split; [now rewrite L1, K by discriminate|]. split; [now rewrite L2, K by discriminate|]. rewrite L3, L4, EC3, EV.
    rewrite EV in E3. apply W_opt in HW3 as [[-> ->]|HW3].
    - cbn [app] in *. destruct tr as [t|]; cbn [gap_text] in E3.
      + exfalso. apply HU. injection E3 as E3. cbn [app] in E3. now rewrite E3.
      + injection E3 as <-. rewrite Q3. split; reflexivity.
    - apply WB in HW3 as (t & -> & Ht & ->). cbn [app] in E3. destruct tr as [t'|]; cbn [gap_text app] in E3.
      + injection E3 as E3. destruct (HTR t' eq_refl) as [_ Ht']. apply word_unique in E3 as [-> ->]; [|auto..]. cbn [app lookup Nat.eqb]. split; reflexivity.
      + exfalso. injection E3 as E3. now apply (HU t v).
  Qed.
End Tail.

(** ** The whole pattern *)

Definition surface_opts : re := match tail1 (tail1 (tail1 re_surface)) with RCat _ (RCat (RGrp _ (RCat _ (RGrp _ a))) _) => a | _ => REps end.
Lemma surface_re : re_surface = RCat RBeg (RCat re_sign (re_rest surface_opts)).
Proof. vm_cast_no_check (eq_refl re_surface). Qed.
Lemma surface_opts_ok : thrifty surface_opts = true /\
  (memn 1 (groups surface_opts) = false /\ memn 2 (groups surface_opts) = false /\ memn 3 (groups surface_opts) = false /\ memn 4 (groups surface_opts) = false).
Proof.
  split; [vm_cast_no_check (eq_refl true)|]. split; [vm_cast_no_check (eq_refl false)|]. split; [vm_cast_no_check (eq_refl false)|]. split; vm_cast_no_check (eq_refl false).
Qed.
(** A word, a blank and an option. *)
Definition one_more : re := RCat re_word (RCat re_blank surface_opts).
Definition surface_classes : list cls := f_surface_SurfaceOption.
Definition surface_class_ok (c : cls) : bool :=
  let r := compile true (c_pat c) in
  regularb c && bare c && ends_z r && offers surface_opts r && disj steps r one_more && disj steps r re_word &&
  forallb (fun k => negb (is_short k (c_kw c))) [Sj; Sr; Si; Slog; Silog] && match c_kw c with x :: _ => negb (is_digit x) | [] => false end &&
  match c_kind c with KOption => true | _ => false end && forallb (fun a => negb (head_attr (a_name a))) (c_attrs c).
Lemma surface_classes_ok : forallb surface_class_ok surface_classes = true.
Proof. vm_cast_no_check (eq_refl true). Qed.
(** An option never begins as a number does. *)
Definition number_first : list ascii := L "+-0123456789".
Lemma options_letter : refuses [number_first] surface_opts = true.
Proof. vm_cast_no_check (eq_refl true). Qed.

Lemma sign_char x : (inset {| cneg := false; cranges := [(43, 43)%N] |} x = true -> x = "+") /\ (inset {| cneg := false; cranges := [(42, 42)%N] |} x = true -> x = "*").
Proof.
  assert (Y : forallb (fun x => implb (inset {| cneg := false; cranges := [(43, 43)%N] |} x) (Ascii.eqb x "+") && implb (inset {| cneg := false; cranges := [(42, 42)%N] |} x) (Ascii.eqb x "*")) all_chars = true) by (vm_compute; reflexivity).
  rewrite forallb_forall in Y. specialize (Y x (in_all_chars x)). apply andb_prop in Y as [Y1 Y2].
  split; intros H; [rewrite H in Y1|rewrite H in Y2]; now apply Ascii.eqb_eq.
Qed.
Lemma sign_first R c t x : c = "+" \/ c = "*" -> m R (mkst [c] t [(1, [c])]) (@Some st) = Some x ->
  m (RCat RBeg (RCat re_sign R)) (mkst [] (c :: t) []) (@Some st) = Some x.
Proof.
  intros HC H. rewrite !m_catE. cbn [m pre]. unfold re_sign. cbn [m need maxleft rest length loopg czero Nat.sub cdec].
  assert (EA : forall cp, addcap 1 (mkst [] (c :: t) cp) (mkst [c] t cp) = mkst [c] t ((1, [c]) :: cp)).
  { intros cp. unfold addcap. cbn [pre rest caps]. f_equal. f_equal. f_equal. exact (firstn_consumed [c] t). }
  assert (EP : progress (mkst [] (c :: t) []) (mkst [c] t [(1, [c])]) = true) by exact (progress_app [] [c] t [] [c] [(1, [c])] ltac:(discriminate)).
  destruct HC as [-> | ->].
  - replace (inset {| cneg := false; cranges := [(43, 43)%N] |} "+") with true by (vm_compute; reflexivity). cbn [pre caps].
    rewrite EA. match goal with |- context [if progress ?a ?b then _ else _] => replace (progress a b) with true by (symmetry; exact EP) end. cbn [Init.Nat.pred]. match goal with |- context [m R ?s ?k] => replace (m R s k) with (Some x) by (symmetry; exact H) end. reflexivity.
  - replace (inset {| cneg := false; cranges := [(43, 43)%N] |} "*") with false by (vm_compute; reflexivity).
    replace (inset {| cneg := false; cranges := [(42, 42)%N] |} "*") with true by (vm_compute; reflexivity). cbn [pre caps].
    rewrite EA. match goal with |- context [if progress ?a ?b then _ else _] => replace (progress a b) with true by (symmetry; exact EP) end. cbn [Init.Nat.pred]. match goal with |- context [m R ?s ?k] => replace (m R s k) with (Some x) by (symmetry; exact H) end. reflexivity.
Qed.
Lemma sign_none R s : hd sp s <> "+" -> hd sp s <> "*" ->
  m (RCat RBeg (RCat re_sign R)) (mkst [] s []) (@Some st) = m R (mkst [] s []) (@Some st).
Proof.
  intros HP HS. rewrite !m_catE. cbn [m pre]. unfold re_sign. cbn [m need maxleft rest loopg czero Nat.sub cdec].
  destruct s as [|c t]; [reflexivity|]. cbn [hd] in *. destruct (sign_char c) as [H1 H2].
  destruct (inset {| cneg := false; cranges := [(43, 43)%N] |} c); [now elim HP; apply H1|].
  destruct (inset {| cneg := false; cranges := [(42, 42)%N] |} c); [now elim HS; apply H2|]. reflexivity.
Qed.

Definition prefix_text (p : option ascii) : str := match p with Some c => [c] | None => [] end.
Lemma surface_match pf w tr opt : (forall c, pf = Some c -> c = "+" \/ c = "*") -> hd sp w <> "+" -> hd sp w <> "*" ->
  w <> [] -> allc (inset nonspace) w -> (forall t, tr = Some t -> t <> [] /\ allc (inset nonspace) t) -> V surface_opts opt ->
  match tr with
  | None => forall x v, opt = x ++ sp :: v -> allc (inset nonspace) x -> ~ V surface_opts v
  | Some t => ~ V surface_opts (t ++ sp :: opt)
  end ->
  exists o, re_match re_surface (prefix_text pf ++ w ++ gap_text tr ++ sp :: opt) = Some o /\
    group 1 o = option_map (fun c => [c]) pf /\ group 2 o = Some w /\ group 3 o = option_map (fun t => sp :: t) tr /\ group 4 o = Some (sp :: opt).
Proof.
  intros HPF HP HS NW HW HTR HV HU. destruct surface_opts_ok as [HT HG]. rewrite surface_re. unfold re_match, match_at.
  assert (HX : hd sp (w ++ gap_text tr ++ sp :: opt) = hd sp w) by (destruct w; [congruence|reflexivity]).
  destruct pf as [c|]; cbn [prefix_text app].
  - destruct (tail_match surface_opts HT HG [c] [(1, [c])] w tr opt NW HW HTR HV HU) as (s' & E & ER & E1 & E2 & E3 & E4).
    rewrite (sign_first _ c _ s' (HPF c eq_refl) E). eexists. split; [reflexivity|]. unfold group. cbn [mcaps option_map].
    rewrite E1, E2, E3, E4. cbn [lookup Nat.eqb]. repeat split; try (destruct tr; reflexivity).
  - destruct (tail_match surface_opts HT HG [] [] w tr opt NW HW HTR HV HU) as (s' & E & ER & E1 & E2 & E3 & E4).
    rewrite sign_none; [|rewrite HX; exact HP|rewrite HX; exact HS]. rewrite E. eexists. split; [reflexivity|]. unfold group. cbn [mcaps option_map].
    rewrite E1, E2, E3, E4. cbn [lookup Nat.eqb]. repeat split; try (destruct tr; reflexivity).
Qed.
