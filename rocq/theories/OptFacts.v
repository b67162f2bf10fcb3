(** Lists of options: which part of a text the pattern of a family takes. *)

From Coq Require Import Ascii String NArith ZArith Bool Arith Lia List.
From Verif Require Import PyStr Regex RegexParse RegexFacts RegexLang PyNum PyNumFacts Types TypesSpec TypesFacts TypesFacts2 TypesFacts3 TypesFacts4 TypesFacts5 SubFacts CardText CardTextSpec CardTextFacts CardTextFacts2 CardTextFacts3 CardTextFacts4 CardTextFacts5 CardTextFacts6
  Cards Tables CardsSpec CardsFacts CardsFacts2 CardsFacts3 CardsFacts4 CardsFacts5 CardsFacts6 RegexDer InpFacts6 InpFacts9 OptSpec.
Import ListNotations.
Open Scope char_scope.
Open Scope list_scope.

(** ** Two runs of the same expression *)

Section Param.
  Context {A B : Type} (R : option A -> option B -> Prop).
  Hypothesis R0 : R None None.
  Hypothesis R2 : forall x x' y y', R x x' -> R y y' -> R (match x with Some v => Some v | None => y end) (match x' with Some v => Some v | None => y' end).

  Section Same.
    Variables (b : st -> (st -> option A) -> option A) (b' : st -> (st -> option B) -> option B) (k : st -> option A) (k' : st -> option B).
    Hypothesis HB : forall s f f', (forall t, R (f t) (f' t)) -> R (b s f) (b' s f').
    Hypothesis HK : forall s, R (k s) (k' s).
    Lemma need_param n : forall f f', (forall s, R (f s) (f' s)) -> forall s, R (need b n f s) (need b' n f' s).
    Proof. induction n as [|n IH]; intros f f' HF s; cbn [need]; auto. Qed.
    Lemma loopg_param fuel : forall c s, R (loopg b k fuel c s) (loopg b' k' fuel c s).
    Proof.
      induction fuel as [|n IH]; intros c s; cbn [loopg]; auto. destruct (czero c); auto. apply R2; auto. apply HB. intros t. destruct (progress s t); auto.
    Qed.
    Lemma loopl_param fuel : forall c s, R (loopl b k fuel c s) (loopl b' k' fuel c s).
    Proof.
      induction fuel as [|n IH]; intros c s; cbn [loopl]; auto. apply R2; auto. destruct (czero c); auto. apply HB. intros t. destruct (progress s t); auto.
    Qed.
  End Same.
  Lemma m_param r : forall s k k', (forall t, R (k t) (k' t)) -> R (m r s k) (m r s k').
  Proof.
    induction r as [|cs|a IHa b IHb|a IHa b IHb|lz mn mx a IH|n a IH| | |ng lit]; intros s k k' HK; cbn [m]; auto.
    - destruct (rest s) as [|x t]; auto. destruct (inset cs x); auto.
    - apply need_param; auto. intros t. destruct lz; [apply loopl_param|apply loopg_param]; auto.
    - destruct (pre s); auto.
    - destruct (rest s); auto.
    - destruct (xorb _ _); auto.
  Qed.
End Param.

(** What follows an expression does not change which way it takes first. *)
Theorem m_first A r s s1 (k : st -> option A) x : m r s (@Some st) = Some s1 -> k s1 = Some x -> m r s k = Some x.
Proof.
  intros H HK. set (R := fun (y : option st) (z : option A) => (y = None -> z = None) /\ forall u v, y = Some u -> k u = Some v -> z = Some v).
  assert (X : R (m r s (@Some st)) (m r s k)).
  { apply m_param.
    - split; congruence.
    - intros a a' b b' [H1 H2] [H3 H4]. split.
      + destruct a; [discriminate|]. intros E. rewrite H1; auto.
      + intros u v. destruct a as [w|].
        * intros [= <-] E. now rewrite (H2 _ _ eq_refl E).
        * intros E1 E2. rewrite H1; eauto.
    - intros t. split; [discriminate|]. intros u v [= <-] E. exact E. }
  destruct X as [_ X]. eauto.
Qed.

(** ** Group numbers do not matter *)

Definition same (s s' : st) : Prop := pre s = pre s' /\ rest s = rest s'.
Section Erase.
  Context {A B : Type} (R : option A -> option B -> Prop).
  Hypothesis R0 : R None None.
  Hypothesis R2 : forall x x' y y', R x x' -> R y y' -> R (match x with Some v => Some v | None => y end) (match x' with Some v => Some v | None => y' end).
  Section Loop.
    Variables (b : st -> (st -> option A) -> option A) (b' : st -> (st -> option B) -> option B) (k : st -> option A) (k' : st -> option B).
    Hypothesis HB : forall s s' f f', same s s' -> (forall t t', same t t' -> R (f t) (f' t')) -> R (b s f) (b' s' f').
    Hypothesis HK : forall s s', same s s' -> R (k s) (k' s').
    Lemma same_progress s s' t t' : same s s' -> same t t' -> progress s t = progress s' t'.
    Proof. intros [_ E] [_ E']. unfold progress. now rewrite E, E'. Qed.
    Lemma need_erase n : forall f f', (forall s s', same s s' -> R (f s) (f' s')) -> forall s s', same s s' -> R (need b n f s) (need b' n f' s').
    Proof. induction n as [|n IH]; intros f f' HF s s' HS; cbn [need]; auto. Qed.
    Lemma loopg_erase fuel : forall c s s', same s s' -> R (loopg b k fuel c s) (loopg b' k' fuel c s').
    Proof.
      induction fuel as [|n IH]; intros c s s' HS; cbn [loopg]; auto. destruct (czero c); auto. apply R2; auto. apply HB; auto. intros t t' HT.
      rewrite (same_progress s s' t t' HS HT). destruct (progress s' t'); auto.
    Qed.
    Lemma loopl_erase fuel : forall c s s', same s s' -> R (loopl b k fuel c s) (loopl b' k' fuel c s').
    Proof.
      induction fuel as [|n IH]; intros c s s' HS; cbn [loopl]; auto. apply R2; auto. destruct (czero c); auto. apply HB; auto. intros t t' HT.
      rewrite (same_progress s s' t t' HS HT). destruct (progress s' t'); auto.
    Qed.
  End Loop.
  Lemma m_ecat C a b s (k : st -> option C) : m (ecat a b) s k = m (RCat a b) s k.
  Proof. destruct a; try reflexivity; destruct b; reflexivity. Qed.
  Lemma m_erase r : thrifty r = true -> forall s s' k k', same s s' -> (forall t t', same t t' -> R (k t) (k' t')) -> R (m r s k) (m (erase r) s' k').
  Proof.
    induction r as [|cs|a IHa b IHb|a IHa b IHb|lz mn mx a IH|n a IH| | |ng lit]; cbn [thrifty erase]; intros HT s s' k k' HS HK; try discriminate.
    - cbn [m]. auto.
    - cbn [m]. destruct HS as [HP HR]. rewrite HR. destruct (rest s') as [|x t]; auto. destruct (inset cs x); auto. apply HK. split; cbn; congruence.
    - apply andb_prop in HT as [H1 H2]. rewrite m_ecat. cbn [m]. apply IHa; auto.
    - apply andb_prop in HT as [H1 H2]. cbn [m]. apply R2; auto.
    - apply andb_prop in HT as [H1 _]. apply andb_prop in H1 as [_ H1]. cbn [m]. apply need_erase; auto. intros t t' HT.
      assert (E : rest t = rest t') by apply HT. rewrite E. destruct lz; [apply loopl_erase|apply loopg_erase]; auto.
    - cbn [m]. apply IH; auto.
  Qed.
End Erase.

(** ** The text an expression takes *)

(** [r] takes [w] from a text that goes on with something in [F]. *)
Definition takes (F : str -> Prop) (r : re) (w : str) : Prop :=
  forall p t cp, F t -> exists cp', m r (mkst p (w ++ t) cp) (@Some st) = Some (mkst (rev w ++ p) t cp').

Lemma takes_erase F r w : thrifty r = true -> takes F (erase r) w <-> takes F r w.
Proof.
  intros HT. set (R := fun (x y : option st) => match x, y with Some s, Some s' => same s s' | None, None => True | _, _ => False end).
  assert (X : forall p t cp, R (m r (mkst p (w ++ t) cp) (@Some st)) (m (erase r) (mkst p (w ++ t) cp) (@Some st))).
  { intros p t cp. apply m_erase; auto; [exact I| |split; auto]. intros [x|] [x'|] y y' H1 H2; cbn in *; tauto. }
  split; intros H p t cp HF; destruct (H p t cp HF) as (cp' & E); specialize (X p t cp); rewrite E in X.
  - destruct (m r _ _) as [[p1 t1 c1]|]; [|destruct X]. destruct X as [X1 X2]. cbn in X1, X2. subst. eauto.
  - destruct (m (erase r) _ _) as [[p1 t1 c1]|]; [|destruct X]. destruct X as [X1 X2]. cbn in X1, X2. subst. eauto.
Qed.
Lemma takes_cat F G a b u v : takes G a u -> takes F b v -> (forall t, F t -> G (v ++ t)) -> takes F (RCat a b) (u ++ v).
Proof.
  intros HA HB HG p t cp HF. rewrite <- app_assoc. destruct (HA p (v ++ t) cp (HG t HF)) as (c1 & E1). destruct (HB (rev u ++ p) t c1 HF) as (c2 & E2).
  exists c2. rewrite m_catE, rev_app_distr, <- app_assoc. exact (m_first _ _ _ _ _ _ E1 E2).
Qed.
Lemma takes_nil F : takes F REps [].
Proof. intros p t cp _. exists cp. reflexivity. Qed.
Lemma takes_chr F cs c : inset cs c = true -> takes F (RSet cs) [c].
Proof. intros H p t cp _. exists cp. cbn [app rev]. rewrite m_setE by exact H. reflexivity. Qed.
Lemma takes_grp F n r w : takes F r w -> takes F (RGrp n r) w.
Proof. intros H p t cp HF. destruct (H p t cp HF) as (c & E). eexists. rewrite m_grp. rewrite (m_first _ _ _ _ (fun s' => Some (addcap n (mkst p (w ++ t) cp) s')) _ E eq_refl). reflexivity. Qed.
Lemma takes_weak (F G : str -> Prop) r w : (forall t, F t -> G t) -> takes G r w -> takes F r w.
Proof. intros H HT p t cp HF. apply HT. auto. Qed.
Lemma takes_opt F r w : takes F r w -> takes F (RRep false 0 (Some 1) r) w.
Proof. intros H p t cp HF. destruct (H p t cp HF) as (c & E). exists c. rewrite m_optE. now rewrite E. Qed.
Lemma takes_skip (F : str -> Prop) r : (forall p t cp, F t -> m r (mkst p t cp) (@Some st) = None) -> takes F (RRep false 0 (Some 1) r) [].
Proof. intros H p t cp HF. exists cp. rewrite m_optE. cbn [app rev]. now rewrite H. Qed.
Lemma takes_altl F a b w : takes F a w -> takes F (RAlt a b) w.
Proof. intros H p t cp HF. destruct (H p t cp HF) as (c & E). exists c. cbn [m]. now rewrite E. Qed.
Lemma takes_altr (F : str -> Prop) a b w : (forall p t cp, F t -> m a (mkst p (w ++ t) cp) (@Some st) = None) -> takes F b w -> takes F (RAlt a b) w.
Proof. intros HN H p t cp HF. destruct (H p t cp HF) as (c & E). exists c. cbn [m]. now rewrite HN. Qed.
Lemma takes_V F r w : takes F r w -> F [] -> V r w.
Proof.
  intros H HF. destruct (H [] [] [] HF) as (c & E). apply m_sound in E as (s1 & HM & [= ->]). apply M_V in HM as (u & HV & EU). cbn [rest] in EU. rewrite !app_nil_r in EU. now subst.
Qed.

(** The first of the alternatives that can begin decides. *)
Definition never (F : str -> Prop) (w : str) (r : re) : Prop := forall p t cp, F t -> m r (mkst p (w ++ t) cp) (@Some st) = None.
Lemma never_alts F w r : Forall (never F w) (alts r) -> never F w r.
Proof.
  induction r as [|cs|a IHa b IHb|a IHa b IHb|lz mn mx a IH|n a IH| | |ng lit]; cbn [alts]; intros H; try (inversion H; assumption).
  apply Forall_app in H as [H1 H2]. intros p t cp HF. cbn [m]. rewrite (IHa H1) by auto. now apply IHb.
Qed.
Lemma app_split {A} (a b l1 l2 : list A) x : a ++ b = l1 ++ x :: l2 -> (exists c, a = l1 ++ x :: c) \/ (exists c, l1 = a ++ c /\ b = c ++ x :: l2).
Proof.
  revert l1. induction a as [|y a IH]; intros l1 E.
  - right. exists l1. auto.
  - destruct l1 as [|z l1]; injection E as -> E.
    + left. exists a. reflexivity.
    + destruct (IH _ E) as [(c & ->)|(c & -> & ->)]; [left|right]; exists c; auto.
Qed.
Lemma takes_alts F w r : forall l1 x l2, alts r = l1 ++ x :: l2 -> Forall (never F w) l1 -> takes F x w -> takes F r w.
Proof.
  assert (ONE : forall (y : re) l1 x l2, [y] = l1 ++ x :: l2 -> x = y) by (intros y [|z [|]] x l2 E; try discriminate; now injection E as ->).
  induction r as [|cs|a IHa b IHb|a IHa b IHb|lz mn mx a IH|n a IH| | |ng lit]; cbn [alts]; intros l1 x l2 E HN HT; try (rewrite <- (ONE _ _ _ _ E); exact HT).
  apply app_split in E as [(c & E)|(c & -> & E)].
  - apply takes_altl. eauto.
  - apply Forall_app in HN as [H1 H2]. apply takes_altr; [|eauto]. now apply never_alts.
Qed.

(** An expression that shares no beginning with the text never begins. *)
Definition after (F : re) (t : str) : Prop := V F t.
Lemma never_disj n F r c w : disj n (RCat r anything) (RCat c F) = true -> V c w -> never (after F) w r.
Proof.
  intros HD HV p t cp HF. destruct (m r _ _) as [s'|] eqn:E; auto. exfalso. apply m_sound in E as (s1 & HM & _). apply M_V in HM as (u & HU & EU). cbn [rest] in EU.
  apply (disj_ok _ _ _ (w ++ t) HD).
  - rewrite EU. cbn [V]. exists u, (rest s1). split; [exact HU|]. split; [|reflexivity]. exists (map (fun c => [c]) (rest s1)). split; [|split; [cbn; lia|split; [exact I|]]].
    + apply Forall_map, Forall_forall. intros x _. exists x. split; auto.
    + generalize (rest s1). intros l. induction l; cbn; congruence.
  - cbn [V]. exists w, t. split; [exact HV|]. split; [exact HF|reflexivity].
Qed.

(** ** The pattern of a class of regular form, inside the pattern of its family *)

Fixpoint ofields (g : nat) (l : list (aty * bool)) : re :=
  match l with [] => REps | (a, o) :: l' => RCat (opt_re o (field_re g a)) (ofields (S g) l') end.
Definition otail_d (f : form) : re :=
  match f_desig f with
  | Some false => RCat (chr_re ":") (RCat (RGrp 0 nonblank_re) (ofields 1 (f_fields f)))
  | Some true => RCat (RRep false 0 (Some 1) (RCat (chr_re ":") (RGrp 0 nonblank_re))) (ofields 1 (f_fields f))
  | None => ofields 1 (f_fields f)
  end.
Definition otail_s (f : form) : re :=
  match f_suffix f with Some o => RCat (opt_re o (RGrp 0 digits_re)) (otail_d f) | None => otail_d f end.
Definition oform (kw : str) (f : form) : re :=
  if f_prefix f then RCat (RRep false 0 (Some 1) (RGrp 1 (chr_re "*"))) (lits_re kw (otail_s f)) else lits_re kw (otail_s f).

Lemma erase_shift k r : erase (shift k r) = erase r.
Proof.
  induction r as [|cs|a IHa b IHb|a IHa b IHb|lz mn mx a IH|n a IH| | |ng lit]; cbn [shift erase]; congruence.
Qed.
Lemma erase_field g h a : erase (field_re g a) = erase (field_re h a).
Proof. destruct a; cbn [field_re erase]; now rewrite !erase_shift. Qed.
Lemma erase_opt o a b : erase a = erase b -> erase (opt_re o a) = erase (opt_re o b).
Proof. destruct o; cbn [opt_re erase]; congruence. Qed.
Lemma erase_fields l : forall g h, erase (fields_re g l) = erase (ofields h l).
Proof.
  induction l as [|[a o] l IH]; intros g h; [reflexivity|]. cbn [fields_re ofields erase]. rewrite (erase_opt o _ _ (erase_field g h a)), (IH (S g) (S h)). reflexivity.
Qed.
Lemma erase_lits kw a b : erase a = erase b -> erase (lits_re kw a) = erase (lits_re kw b).
Proof. intros H. induction kw as [|c kw IH]; auto. cbn [lits_re fold_right erase]. fold (lits_re kw a) (lits_re kw b). now rewrite IH. Qed.
Lemma erase_form kw f : erase (form_re kw f) = erase (oform kw f).
Proof.
  rewrite form_body. cbn [erase ecat]. unfold body, oform. 
  assert (HD : forall n, erase (tail_d f n) = erase (otail_d f)).
  { intros n. unfold tail_d, otail_d. destruct (f_desig f) as [[]|]; cbn [erase]; now rewrite (erase_fields _ _ 1). }
  assert (HS : forall n, erase (tail_s f n) = erase (otail_s f)).
  { intros n. unfold tail_s, otail_s. destruct (f_suffix f) as [o|]; cbn [erase]; rewrite HD; auto. f_equal. now apply erase_opt. }
  destruct (f_prefix f); cbn [erase]; rewrite (erase_lits kw _ (otail_s f) (HS _)); reflexivity.
Qed.

(** ** Its parts take their words *)

Lemma caps_free r p s cp cp' : thrifty r = true ->
  match m r (mkst p s cp) (@Some st), m r (mkst p s cp') (@Some st) with Some a, Some b => same a b | None, None => True | _, _ => False end.
Proof.
  intros HT. set (R := fun (x y : option st) => match x, y with Some s, Some s' => same s s' | None, None => True | _, _ => False end).
  assert (X : forall c, R (m r (mkst p s c) (@Some st)) (m (erase r) (mkst p s []) (@Some st))).
  { intros c. apply m_erase; auto; [exact I| |split; auto]. intros [x|] [x'|] y y' H1 H2; cbn in *; tauto. }
  pose proof (X cp) as X1. pose proof (X cp') as X2. unfold R in *. destruct (m r (mkst p s cp) _) as [a|], (m r (mkst p s cp') _) as [b|], (m (erase r) _ _) as [d|]; try tauto.
  destruct X1, X2. split; congruence.
Qed.
Lemma reads_takes r w : thrifty r = true -> plain r = true -> reads_word r w -> takes bnd r w.
Proof.
  intros HT HP [_ HW] p t cp HB. destruct (HW p t HB) as (c & E). unfold match_at in E.
  pose proof (caps_free r p (w ++ t) cp [] HT) as X. destruct (m r (mkst p (w ++ t) []) _) as [s1|] eqn:E1; [|discriminate].
  destruct (m r (mkst p (w ++ t) cp) _) as [s2|] eqn:E2; [|destruct X]. destruct X as [X1 X2]. injection E as _ ER _.
  apply m_sound in E1 as (s0 & HM & [= ->]). apply M_W in HM as (u & c1 & _ & EU & EP & _); auto. cbn [rest pre] in EU, EP. rewrite ER in EU. apply app_inv_tail in EU. subst u.
  destruct s2 as [p2 t2 c2]. cbn [pre rest] in X1, X2. exists c2. congruence.
Qed.
Lemma takes_shift F k r w : thrifty r = true -> takes F r w -> takes F (shift k r) w.
Proof.
  intros HT H. assert (HS : thrifty (shift k r) = true).
  { clear H. revert HT. induction r as [|cs|a IHa b IHb|a IHa b IHb|lz mn mx a IH|n a IH| | |ng lit]; cbn [thrifty shift]; auto; intros HT.
    - apply andb_prop in HT as [H1 H2]. now rewrite IHa, IHb.
    - apply andb_prop in HT as [H1 H2]. now rewrite IHa, IHb.
    - apply andb_prop in HT as [HT H3]. apply andb_prop in HT as [H1 H2]. rewrite (IH H2), H3, !andb_true_r.
      replace (null (shift k a)) with (null a); auto. clear. induction a as [|cs|a IHa b IHb|a IHa b IHb|lz mn mx a IH|n a IH| | |ng lit]; cbn [null shift]; auto; try congruence. }
  apply takes_erase; auto. rewrite erase_shift. now apply takes_erase.
Qed.

Lemma thrifty_ty t : word_ty t = true -> thrifty (ty_re t) = true.
Proof. destruct t; intros H; try discriminate; vm_compute; reflexivity. Qed.
Lemma takes_sp F : takes F (chr_re sp) [sp].
Proof. apply takes_chr. reflexivity. Qed.
Lemma takes_once F r w : takes F r w -> takes F (RRep true 1 None r) w.
Proof.
  intros H p t cp HF. destruct (H p t cp HF) as (c & E). exists c. cbn [m need]. apply (m_first _ _ _ _ _ _ E). cbn [loopl rest]. destruct (length (w ++ t)); reflexivity.
Qed.
Lemma takes_word g t v : word_ty t = true -> val_ok t v -> takes bnd (RCat (chr_re sp) (shift g (ty_re t))) (sp :: write v).
Proof.
  intros HT HV. destruct (val_word (fun _ _ => Lib InpError) t v HT HV) as (_ & HR & _).
  change (sp :: write v) with ([sp] ++ write v). apply takes_cat with (G := fun _ => True); [apply takes_sp| |auto].
  destruct (ty_re_word t HT) as (HP & _). apply takes_shift; [now apply thrifty_ty|]. apply reads_takes; auto. now apply thrifty_ty.
Qed.
Lemma takes_fields l : forall g vs, Forall (fun x => word_ty (ty_of (fst x)) = true) l -> Forall lone vs -> gapless l vs ->
  takes bnd (ofields g l) (spaced (all_words l vs)).
Proof.
  induction l as [|[a o] l IH]; intros g vs HX HL HG.
  - destruct vs; [|destruct HG]. apply takes_nil.
  - destruct vs as [|[v|] vs]; cbn [gapless] in HG; [destruct HG| |inversion HL as [|? ? H1 _]; destruct H1].
    pose proof (Forall_inv HX) as X1. pose proof (Forall_inv_tail HX) as X2. pose proof (Forall_inv HL) as L1. pose proof (Forall_inv_tail HL) as L2. cbn [fst] in X1.
    destruct HG as [HV HG]. cbn [ofields all_words]. rewrite spaced_app. apply takes_cat with (G := bnd); [|now apply IH|].
    + assert (HF : takes bnd (field_re g a) (spaced (fwords a v))).
      { destruct a as [t|t]; cbn [aval_ok ty_of] in *; cbn [field_re fwords].
        - change (spaced [write v]) with ((sp :: write v) ++ []). rewrite app_nil_r. apply takes_grp. now apply takes_word.
        - destruct v; try destruct HV. destruct l0 as [|y [|]]; try destruct L1. inversion H0 as [|? ? H1 _]; subst.
          change (spaced (map write [y])) with ((sp :: write y) ++ []). rewrite app_nil_r. apply takes_grp, takes_once. now apply takes_word. }
      destruct o; cbn [opt_re]; [now apply takes_opt|exact HF].
    + intros t' HB. destruct (all_words l vs) as [|w ws]; [exact HB|]. right. cbn. eauto.
Qed.
Lemma takes_S s : s <> [] -> nospace s -> takes bnd nonblank_re s.
Proof. intros HN HS. change nonblank_re with r_S. apply reads_takes; [reflexivity|reflexivity|now apply reads_string]. Qed.
Lemma takes_digits ds : ds <> [] -> digits ds -> takes no_digit digits_re ds.
Proof.
  intros HN HD p t cp HF. exists cp. change digits_re with (RRep false 1 None (RSet cs_dig)).
  apply (m_plus_run _ cs_dig _ ds [] t); auto; try reflexivity.
  - rewrite app_nil_r. now apply allc_dig.
  - now apply no_digit_out.
  - intros v1 v2 E HV. destruct v1; [congruence|discriminate].
Qed.
Lemma takes_lits F kw r w : takes F r w -> takes F (lits_re kw r) (kw ++ w).
Proof.
  intros H. induction kw as [|c kw IH]; auto. cbn [lits_re fold_right app]. change (c :: kw ++ w) with ([c] ++ (kw ++ w)). apply takes_cat with (G := fun _ => True); auto.
  apply takes_chr, lit_self.
Qed.

Section Form.
  Variables (kw : str) (f : form) (fs : list (option val)).
  Hypothesis (HK : forallb kw_char kw = true) (HKN : kw <> []) (HX : fields_ok (f_fields f) = true) (HL : Forall lone fs) (HG : gapless (f_fields f) fs).
  Let ws := all_words (f_fields f) fs.

  Lemma takes_d hd : Forall2 head_ok (d_part f) hd -> takes bnd (otail_d f) (dtext hd ++ spaced ws) /\ (forall t, bnd t -> no_digit ((dtext hd ++ spaced ws) ++ t)).
  Proof.
    intros H. pose proof (fun g => takes_fields (f_fields f) g fs (fields_word _ HX) HL HG) as HF. fold ws in HF.
    assert (B : forall t, bnd t -> bnd (spaced ws ++ t)). { intros t HB. destruct ws; [exact HB|right; cbn; eauto]. }
    unfold d_part in H. unfold otail_d. destruct (f_desig f) as [o|].
    - inversion H as [|? v ? hd' H1 H2]; subst. inversion H2; subst. cbn in H1. destruct v as [v|]; cbn [dtext].
      + destruct H1 as (s & -> & H1). destruct (desig_head s H1) as [H3 H4]. cbn [write].
        assert (HS : takes bnd (RGrp 0 nonblank_re) s) by (apply takes_grp, takes_S; auto; now apply head_nospace).
        split.
        * destruct o.
          -- apply takes_cat with (G := bnd); auto. apply takes_opt. change (":" :: s) with ([":"] ++ s). apply takes_cat with (G := fun _ => True); auto. apply takes_chr. reflexivity.
          -- change ((":" :: s) ++ spaced ws) with ([":"] ++ (s ++ spaced ws)). apply takes_cat with (G := fun _ => True); auto. { apply takes_chr. reflexivity. } apply takes_cat with (G := bnd); auto.
        * intros t HB. right. exists ":", ((s ++ spaced ws) ++ t). auto.
      + subst o. split.
        * change (spaced ws) with ([] ++ spaced ws). apply takes_cat with (G := bnd); auto. apply takes_skip. intros p t cp [->|(t' & ->)]; reflexivity.
        * intros t HB. now apply bnd_no_digit, B.
    - inversion H; subst. cbn [dtext app]. split; auto. intros t HB. now apply bnd_no_digit, B.
  Qed.
  Lemma takes_s hs hd : Forall2 head_ok (s_part f) hs -> Forall2 head_ok (d_part f) hd -> takes bnd (otail_s f) (starts hs ++ dtext hd ++ spaced ws).
  Proof.
    intros H HD. destruct (takes_d hd HD) as [HT HN]. unfold s_part in H. unfold otail_s. destruct (f_suffix f) as [o|].
    - inversion H as [|? v ? hd' H1 H2]; subst. inversion H2; subst. cbn in H1. apply takes_cat with (G := no_digit); auto. destruct v as [v|]; cbn [starts].
      + destruct H1 as (k & -> & _). cbn [write integer_to_mcnp].
        assert (E : str_of_Z (Z.of_N k) = str_of_N k) by (destruct k; reflexivity). rewrite E.
        assert (HY : takes no_digit (RGrp 0 digits_re) (str_of_N k)) by (apply takes_grp, takes_digits; auto using str_of_N_nonempty, str_of_N_digits).
        destruct o; cbn [opt_re]; auto. now apply takes_opt.
      + subst o. cbn [opt_re]. apply takes_skip. intros p t cp HF. rewrite m_grp. change digits_re with (RRep false 1 None (RSet cs_dig)). apply no_digit_out in HF.
        destruct HF as [->|(c & t' & -> & HC)]; [reflexivity|]. cbn [m need rest]. now rewrite HC.
    - inversion H; subst. exact HT.
  Qed.
  Lemma takes_form hp hs hd : Forall2 head_ok (p_part f) hp -> Forall2 head_ok (s_part f) hs -> Forall2 head_ok (d_part f) hd ->
    takes bnd (oform kw f) (starts hp ++ kw ++ starts hs ++ dtext hd ++ spaced ws).
  Proof.
    intros H HS HD. pose proof (takes_lits bnd kw _ _ (takes_s hs hd HS HD)) as HLT. unfold p_part in H. unfold oform. destruct (f_prefix f).
    - inversion H as [|? v ? hd' H1 H2]; subst. inversion H2; subst. cbn in H1.
      apply takes_cat with (G := fun t => hd_error t <> Some "*"); auto.
      + destruct v as [v|]; cbn [starts].
        * subst v. cbn [write]. apply takes_opt, takes_grp. change (L "*") with ["*"]. apply takes_chr. reflexivity.
        * apply takes_skip. intros p t cp HF. rewrite m_grp. cbn -[inset]. destruct t as [|c t]; auto. destruct (inset _ c) eqn:E; auto.
          apply (inset_chr_eq "*") in E. subst c. now elim HF.
      + intros t _. destruct kw as [|c kw']; [congruence|]. cbn. intros [= ->]. discriminate HK.
    - inversion H; subst. exact HLT.
  Qed.
End Form.
