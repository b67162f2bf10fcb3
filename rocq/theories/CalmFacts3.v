(** Soundness of the test of Calm.v: readers of classes. *)

From Coq Require Import Ascii String NArith ZArith Bool Arith List Lia.
From Verif Require Import PyStr Regex RegexParse RegexFacts RegexDer RegexLang PyNum Types CardText Cards Tables CardsSpec.
From Verif Require Import TypesFacts2 TypesFacts3 TypesFacts5 PtracFacts5 Calm CalmFacts CalmFacts2.
Import ListNotations.

(** * Numbers *)

Lemma integer_kind s v : integer_from_mcnp s = Ok v ->
  (exists z, v = IVal z) \/ (exists h, v = IHor h /\ horiz_from_mcnp s = Some h).
Proof.
  unfold integer_from_mcnp. destruct (horiz_from_mcnp s) as [h|].
  - intros [= <-]. eauto.
  - destruct (lead_one (fortran s)) as [t| |]; cbn [bind]; try discriminate. destruct (to_dec t) as [d|]; [|discriminate].
    destruct (dec_to_int d) as [z| |]; cbn [bind]; try discriminate. intros [= <-]. eauto.
Qed.
Lemma real_kind s v : real_from_mcnp s = Ok v ->
  (exists d, v = RVal d /\ (allc no_n s -> exists a b c, d = Fin a b c)) \/ (exists h, v = RHor h /\ horiz_from_mcnp s = Some h).
Proof.
  unfold real_from_mcnp. destruct (horiz_from_mcnp s) as [h|].
  - intros [= <-]. eauto.
  - destruct (lead_one (fortran s)) as [t| |] eqn:EL; cbn [bind]; try discriminate. destruct (to_dec t) as [d|] eqn:ED; [|discriminate].
    intros [= <-]. left. exists d. split; [reflexivity|]. intros HN. apply to_dec_no_n in ED; [exact ED|].
    eapply lead_one_allc; [reflexivity| |exact EL]. now apply fortran_allc.
Qed.

(** * Pieces found in a text *)

Lemma match_at_V r p s o : match_at r p s = Some o -> V r (mtext o) /\ s = mtext o ++ mrest o.
Proof.
  unfold match_at. destruct (m r (mkst p s []) Some) as [s'|] eqn:E; [|discriminate]. intros [= <-].
  apply m_sound in E as (s1 & HM & [= <-]). apply M_V in HM as (u & HV & EU). cbn [rest] in EU. cbn [mtext mrest]. subst s.
  rewrite firstn_consumed. auto.
Qed.
Lemma search_V r P : forall s p o, allc P s -> search r p s = Some o -> V r (mtext o) /\ allc P (mtext o) /\ allc P (mrest o).
Proof.
  induction s as [|c s IH]; intros p o HS H; cbn [search] in H; destruct (match_at r p _) as [q|] eqn:E; try discriminate.
  - injection H as ->. apply match_at_V in E as [HV ES]. rewrite ES in HS. apply allc_app in HS. tauto.
  - injection H as ->. apply match_at_V in E as [HV ES]. rewrite ES in HS. apply allc_app in HS. tauto.
  - inversion HS; subst. eauto.
Qed.
Lemma finditer_V r P s o : allc P s -> In o (finditer r s) -> V r (mtext o) /\ allc P (mtext o).
Proof.
  unfold finditer. generalize (S (length s)) as f, (@nil ascii) as p. intros f. revert s.
  induction f as [|f IH]; intros s p HS H; cbn [finditer_f] in H; [destruct H|].
  destruct (search r p s) as [x|] eqn:E; [|destruct H].
  apply (search_V _ P) in E as (HV & HT & HR); auto.
  destruct (mtext x) eqn:ET; [destruct (mrest x) eqn:ER|]; destruct H as [H|H]; subst; try (rewrite ET in *; now auto); try (now destruct H).
  - inversion HR; subst. eapply IH; [|exact H]. auto.
  - eapply IH; [|exact H]. auto.
Qed.

Lemma mapM_no_py {A B} (f : A -> result B) l : (forall x, In x l -> is_py (f x) = false) -> is_py (mapM f l) = false.
Proof.
  induction l as [|x l IH]; intros H; [reflexivity|]. cbn [mapM]. apply is_py_bind; [apply H; now left|]. intros a _.
  apply is_py_bind; [|reflexivity]. apply IH. intros y Hy. apply H. now right.
Qed.

(** * Values *)

Section Cls.
  Variables (ext : string -> str -> result val) (fm : string -> list cls) (bad : list string) (short : bool).
  Hypothesis (HEXT : forall n s, existsb (String.eqb n) bad = false -> is_py (ext n s) = false).

  Lemma string_no_py s : is_py (string_from_mcnp s) = false.
  Proof. reflexivity. Qed.

  (** What the groups of an attribute hold. *)
  Definition holds_of (rs : list re) (t : str) : Prop := exists a, In a rs /\ V a t.

  Lemma read_no_py rs t s : reads_ok bad rs t = true -> holds_of rs s -> is_py (read_aty ext t (strip s)) = false.
  Proof.
    intros HR (a & HA & HV). destruct t as [t|t]; cbn [read_aty reads_ok] in *.
    - destruct t; cbn [read_ty] in *; try discriminate.
      + apply andb_prop in HR as [H1 H2]. rewrite forallb_forall in H1, H2. apply is_py_bind; [|reflexivity]. apply integer_no_py.
        * exact (solid_V _ _ (H1 _ HA) HV).
        * exact (n_free_V _ _ (H2 _ HA) HV).
      + rewrite forallb_forall in HR. apply is_py_bind; [|reflexivity]. apply real_no_py. exact (solid_V _ _ (HR _ HA) HV).
      + apply is_py_bind; [apply string_no_py|reflexivity].
      + apply is_py_bind; [apply distribution_no_py|reflexivity].
      + apply is_py_bind; [apply zaid_no_py|reflexivity].
      + apply is_py_bind; [apply designator_no_py|reflexivity].
      + apply is_py_bind; [apply substance_no_py|reflexivity].
      + apply HEXT. now apply negb_true_iff.
    - apply is_py_bind; [|reflexivity]. destruct t; try discriminate.
      + apply numbers_no_py. intros u N HN. cbn [read_ty]. apply is_py_bind; [now apply integer_no_py|reflexivity].
      + apply numbers_no_py. intros u N HN. cbn [read_ty]. apply is_py_bind; [now apply real_no_py|reflexivity].
      + unfold tuple_from_mcnp. apply mapM_no_py. intros x _. apply is_py_bind; [apply string_no_py|reflexivity].
      + unfold tuple_from_mcnp. apply mapM_no_py. intros x _. apply is_py_bind; [apply distribution_no_py|reflexivity].
      + unfold tuple_from_mcnp. apply mapM_no_py. intros x _. apply is_py_bind; [apply zaid_no_py|reflexivity].
      + unfold tuple_from_mcnp. apply mapM_no_py. intros x _. apply is_py_bind; [apply designator_no_py|reflexivity].
      + unfold tuple_from_mcnp. apply mapM_no_py. intros x _. apply is_py_bind; [apply substance_no_py|reflexivity].
      + unfold tuple_from_mcnp. apply orb_prop in HR as [HR|HR].
        * apply mapM_no_py. intros x _. cbn [read_ty]. apply HEXT. now apply negb_true_iff.
        * rewrite forallb_forall in HR. specialize (HR _ HA). cbn [pat_of]. apply mapM_no_py. intros x HX. exfalso.
          apply (finditer_V _ (alpha a)) in HX as [HXV HXA]; [|apply strip_allc, alpha_V; exact HV].
          apply (hits_V _ _ HR) in HXV. apply Exists_exists in HXV as (c & HC & N). unfold allc in HXA. rewrite Forall_forall in HXA.
          apply N, filter_In. split; [apply all_chars_in|auto].
  Qed.

  Definition kinded (ks : list akind) (o : option val) : Prop := exists k, In k ks /\ is_k k (opt_pv o).

  Lemma read_kind rs t s v : holds_of rs s -> (short = true \/ horiz_from_mcnp (strip s) = None) ->
    read_aty ext t (strip s) = Ok v -> kinded (kinds short rs t) (Some v).
  Proof.
    intros (a & HA & HV) HS HR. unfold kinds.
    assert (HH : forall h, horiz_from_mcnp (strip s) = Some h -> In KHor (hor short rs)).
    { intros h EH. destruct HS as [-> |HS]; [|congruence]. unfold hor. cbn [andb]. destruct (forallb s_free rs) eqn:EF; [|now left].
      exfalso. rewrite forallb_forall in EF. rewrite (horiz_letter (strip s)) in EH; [discriminate|]. exact (s_free_V _ _ (EF _ HA) HV). }
    destruct t as [t|t]; cbn [read_aty] in HR.
    - destruct t; cbn [read_ty] in HR.
      + destruct (integer_from_mcnp (strip s)) as [i| |] eqn:E; try discriminate. injection HR as <-. destruct (integer_kind _ _ E) as [(z & ->)|(h & -> & EH)].
        * exists KInt. split; [right; now left|]. cbn. eauto.
        * exists KHor. split; [right; right; eauto|]. cbn. eauto.
      + destruct (real_from_mcnp (strip s)) as [i| |] eqn:E; try discriminate. injection HR as <-. destruct (real_kind _ _ E) as [(d & -> & HD)|(h & -> & EH)].
        * destruct (forallb n_free rs) eqn:EN.
          -- rewrite forallb_forall in EN. destruct (HD (n_free_V _ _ (EN _ HA) HV)) as (x & y & z & ->).
             exists KReal. split; [right; now left|]. cbn. eauto 6.
          -- exists KOther. split; [right; right; now left|]. cbn. discriminate.
        * exists KHor. split; [right; apply in_app_iff; right; eauto|]. cbn. eauto.
      + destruct (string_from_mcnp (strip s)) as [i| |]; try discriminate. injection HR as <-. exists KStr. split; [right; now left|]. cbn. eauto.
      + exists KOther. split; [right; now left|]. discriminate.
      + exists KOther. split; [right; now left|]. discriminate.
      + exists KOther. split; [right; now left|]. discriminate.
      + exists KOther. split; [right; now left|]. discriminate.
      + exists KOther. split; [right; now left|]. discriminate.
      + exists KOther. split; [right; now left|]. discriminate.
      + exists KOther. split; [right; now left|]. discriminate.
      + exists KOther. split; [right; now left|]. discriminate.
    - destruct (tuple_from_mcnp _ _ _) as [l| |]; try discriminate. injection HR as <-. exists KTup. split; [right; now left|]. cbn. eauto.
  Qed.

  (** The constructor's conversion keeps the kind. *)
  Lemma conv_items t l : exists l', mapM (conv_item ext fm t) (map AVal l) = Ok l'.
  Proof. induction l as [|v l (l' & IH)]; cbn [map mapM]; [eauto|]. cbn [conv_item bind]. rewrite IH. cbn [bind]. eauto. Qed.
  Lemma conv_kind rs t v : kinded (kinds short rs t) v -> (forall u, v = Some u -> match t with Tup _ => exists l, u = VTup l | _ => True end) ->
    exists x, conv ext fm t (to_arg v) = Ok x /\ kinded (kinds short rs t) x.
  Proof.
    intros HK HT. destruct v as [v|].
    - cbn [to_arg]. destruct t as [t|t].
      + exists (Some v). split; [reflexivity|exact HK].
      + destruct (HT v eq_refl) as (l & ->). cbn [conv items]. destruct (conv_items t l) as (l' & ->). cbn [bind].
        eexists. split; [reflexivity|]. exists KTup. split; [right; now left|]. cbn. eauto.
    - exists None. split; [destruct t; reflexivity|]. exists KNone. split; [now left|reflexivity].
  Qed.

  (** * Attributes *)

  (** Objects whose attributes are of the kinds listed. *)
  Definition obj_ok (seen : list (string * list akind)) (o : obj) : Prop :=
    forall n ks, In (n, ks) seen -> exists v, assoc n o = Some v /\ kinded ks v.

  Lemma envs_ok o l : obj_ok l o -> exists e, In e (envs l) /\ forall n k, assoc n e = Some k -> exists v, assoc n o = Some v /\ is_k k (opt_pv v).
  Proof.
    induction l as [|[n ks] l IH]; intros H.
    - exists []. split; [now left|]. intros n k. discriminate.
    - destruct IH as (e & HE & HO). { intros n' ks' HI. apply H. now right. }
      destruct (H n ks (or_introl eq_refl)) as (v & HV & k & HK & HKV). exists ((n, k) :: e). split.
      + cbn [envs]. apply in_flat_map. exists e. split; [exact HE|]. apply in_map_iff. exists k. auto.
      + intros n' k'. cbn [assoc]. destruct (String.eqb_spec n n') as [->|]; [|apply HO]. intros [= <-]. eauto.
  Qed.
  Lemma assoc_upd n v o x : assoc x (upd n v o) = if String.eqb n x then Some v else assoc x o.
  Proof.
    induction o as [|[y w] o IH]; cbn [upd assoc].
    - reflexivity.
    - destruct (String.eqb_spec y n) as [->|N].
      + cbn [assoc]. destruct (String.eqb_spec n x); reflexivity.
      + cbn [assoc]. rewrite IH. destruct (String.eqb_spec y x) as [->|]; [|reflexivity]. destruct (String.eqb_spec n x); [congruence|reflexivity].
  Qed.

  Definition field_ok (r : re) (i : nat) (t : aty) (v : option val) : Prop :=
    kinded (kinds short (grp_res r i) t) v /\ (forall u, v = Some u -> match t with Tup _ => exists l, u = VTup l | _ => True end).

  Lemma init_no_py r l : forall i seen vs o, calm_attrs bad short r i seen l = true -> obj_ok seen o ->
    length vs = length l -> (forall j a v, nth_error l j = Some a -> nth_error vs j = Some v -> field_ok r (i + j) (a_ty a) v) ->
    is_py (init_attrs ext fm (combine l (map to_arg vs)) o) = false.
  Proof.
    induction l as [|a l IH]; intros i seen vs o HC HO HL HV; [destruct vs; [reflexivity|discriminate]|].
    destruct vs as [|v vs]; [discriminate|]. cbn [map combine init_attrs calm_attrs] in *.
    apply andb_prop in HC as [HC HC4]. apply andb_prop in HC as [HC HC3]. apply andb_prop in HC as [HC1 HC2].
    destruct (HV 0 a v eq_refl eq_refl) as [HK HT]. rewrite Nat.add_0_r in HK.
    destruct (conv_kind _ _ _ HK HT) as (x & EX & k & HKI & HKX). unfold set_attr. rewrite EX.
    assert (HF : obj_ok (filter (fun x => existsb (String.eqb (fst x)) (refs a)) seen) o).
    { intros n ks HI. apply filter_In in HI as [HI _]. auto. }
    destruct (envs_ok _ _ HF) as (e & HE & HEO). rewrite forallb_forall in HC3. specialize (HC3 _ HE). rewrite forallb_forall in HC3. specialize (HC3 _ HKI).
    pose proof (checks_sound o x (fun n => assoc n e) k HKX HEO _ HC3) as HP.
    destruct (run_checks o x (a_checks a)) as [u| |] eqn:ER; [|reflexivity|discriminate].
    apply (IH (S i) _ vs _ HC4).
    - intros n ks [HI|HI].
      + injection HI as <- <-. exists x. split; [rewrite assoc_upd, String.eqb_refl; reflexivity|]. exists k. split; [|exact HKX]. refine (proj2 (filter_In (fun k => survives k (a_checks a)) k (kinds short (grp_res r i) (a_ty a))) (conj HKI _)).
        unfold survives. apply forallb_forall. intros b HB. destruct (abeval (fun _ => None) k b) as [[[]|]|] eqn:EA; try reflexivity. exfalso.
        refine (checks_certain o x (fun _ => None) k HKX _ (a_checks a) _ u ER); [discriminate|eauto].
      + destruct (HO _ _ HI) as (w & HW & HWK). exists w. split; [|exact HWK]. rewrite assoc_upd. destruct (String.eqb_spec (a_name a) n) as [EN|]; [|exact HW].
        exfalso. apply negb_true_iff in HC1. assert (X : existsb (String.eqb (a_name a)) (map fst seen) = true); [|congruence].
        apply existsb_exists. exists n. split; [|now apply String.eqb_eq]. apply in_map_iff. exists (n, ks). auto.
    - cbn in HL. lia.
    - intros j b w Hb Hw. specialize (HV (S j) b w Hb Hw). now rewrite Nat.add_succ_r in HV.
  Qed.

  Definition long (o : mobj) : Prop := forall i t, group i o = Some t -> horiz_from_mcnp (strip t) = None.

  Lemma read_attrs_no_py r s o l : re_match r s = Some o -> (short = true \/ long o) -> forall i seen, 0 < i -> calm_attrs bad short r i seen l = true ->
    is_py (read_attrs ext i l o) = false /\
    forall vs, read_attrs ext i l o = Ok vs -> length vs = length l /\
      forall j a v, nth_error l j = Some a -> nth_error vs j = Some v -> field_ok r (i + j) (a_ty a) v.
  Proof.
    intros HM HS. induction l as [|a l IH]; intros i seen HI HC.
    - split; [reflexivity|]. intros vs [= <-]. split; [reflexivity|]. intros [|j]; discriminate.
    - cbn [calm_attrs] in HC. apply andb_prop in HC as [HC HC4]. apply andb_prop in HC as [HC HC3]. apply andb_prop in HC as [HC1 HC2].
      destruct (IH (S i) _ (Nat.lt_0_succ i) HC4) as [IH1 IH2]. cbn [read_attrs].
      assert (G : forall t, truthy (group i o) = Some t -> holds_of (grp_res r i) t /\ group i o = Some t).
      { intros t HT. assert (HG : group i o = Some t) by (destruct (group i o) as [[|]|]; cbn in HT; congruence). split; [|exact HG].
        destruct (group_V _ _ _ _ _ HM HI HG) as (b & HB & HV). exists b. auto. }
      assert (A : is_py (read_attr ext (a_ty a) (group i o)) = false).
      { unfold read_attr. destruct (truthy (group i o)) as [t|]; [|reflexivity]. destruct (G t eq_refl) as [HH _].
        apply is_py_bind; [exact (read_no_py _ _ _ HC2 HH)|reflexivity]. }
      assert (B : forall v, read_attr ext (a_ty a) (group i o) = Ok v -> field_ok r i (a_ty a) v).
      { unfold read_attr. intros v EV. destruct (truthy (group i o)) as [t|] eqn:ET.
        - destruct (G t eq_refl) as [HH HG]. destruct (read_aty ext (a_ty a) (strip t)) as [w| |] eqn:EW; try discriminate. injection EV as <-. split.
          + apply (read_kind _ _ _ _ HH); [|exact EW]. destruct HS as [HS|HS]; [now left|right; exact (HS _ _ HG)].
          + intros u [= <-]. destruct (a_ty a); [exact I|]. cbn [read_aty] in EW. destruct (tuple_from_mcnp _ _ _); try discriminate. injection EW as <-. eauto.
        - injection EV as <-. split; [exists KNone; split; [now left|reflexivity]|discriminate]. }
      split.
      + apply is_py_bind; [exact A|]. intros v _. apply is_py_bind; [exact IH1|reflexivity].
      + intros vs. destruct (read_attr ext (a_ty a) (group i o)) as [v| |] eqn:EV; try discriminate. cbn [bind].
        destruct (read_attrs ext (S i) l o) as [ws| |] eqn:EW; try discriminate. cbn [bind]. intros [= <-]. destruct (IH2 _ eq_refl) as [HL HF]. split; [cbn; lia|].
        intros [|j] b w Hb Hw.
        * injection Hb as <-. injection Hw as <-. rewrite Nat.add_0_r. exact (B v eq_refl).
        * rewrite Nat.add_succ_r. exact (HF j b w Hb Hw).
  Qed.

  Theorem read_cls_no_py c s o : calm bad short c = true -> re_match (compile true (c_pat c)) s = Some o -> (short = true \/ long o) ->
    is_py (read_cls ext fm c o) = false.
  Proof.
    intros HC HM HS. unfold calm in HC. destruct (read_attrs_no_py _ _ _ _ HM HS 1 [] Nat.lt_0_1 HC) as [A B].
    unfold read_cls. apply is_py_bind; [exact A|]. intros vs EV. destruct (B vs EV) as [HL HF]. unfold construct.
    apply (init_no_py _ _ 1 [] vs [] HC); auto. intros n ks [].
  Qed.
End Cls.

(** * Cards, options and entries *)

Lemma first_match_in cs s c o : first_match cs s = Some (c, o) -> In c cs /\ re_match (compile true (c_pat c)) s = Some o.
Proof.
  induction cs as [|d cs IH]; cbn [first_match]; [discriminate|]. destruct (re_match (compile true (c_pat d)) s) as [q|] eqn:E.
  - destruct (seqb (mtext q) s).
    + intros [= -> ->]. auto using in_eq.
    + intros H. apply IH in H as [A B]. auto using in_cons.
  - intros H. apply IH in H as [A B]. auto using in_cons.
Qed.

Section Fam.
  Variables (fm : string -> list cls) (bad : list string).
  Hypothesis (HF : forall n c, existsb (String.eqb n) bad = false -> In c (fm n) -> calm bad true c = true).

  Lemma family_no_py ext cs s : (forall n s, existsb (String.eqb n) bad = false -> is_py (ext n s) = false) ->
    (forall c, In c cs -> calm bad true c = true) -> is_py (family_from_mcnp ext fm cs s) = false.
  Proof.
    intros HE HC. unfold family_from_mcnp. destruct (first_match cs (preprocess s)) as [[c o]|] eqn:E; [|reflexivity].
    apply first_match_in in E as [HI HM]. apply is_py_bind; [|reflexivity]. eapply read_cls_no_py; eauto.
  Qed.
  Theorem ext_no_py k : forall n s, existsb (String.eqb n) bad = false -> is_py (ext_of fm k n s) = false.
  Proof.
    induction k as [|k IH]; intros n s HB; [reflexivity|]. cbn [ext_of]. apply is_py_bind; [|reflexivity]. apply family_no_py; [exact IH|]. eauto.
  Qed.
  Lemma card_no_py k c s : calm bad true c = true -> is_py (card_from_mcnp (ext_of fm k) fm c s) = false.
  Proof.
    intros HC. unfold card_from_mcnp. destruct (card_preprocess s) as [t cm]. destruct (re_match (compile true (c_pat c)) t) as [o|] eqn:E; [|reflexivity].
    apply is_py_bind; [|reflexivity]. refine (read_cls_no_py _ fm bad true (ext_no_py k) c t o HC E (or_introl eq_refl)).
  Qed.
  Lemma card_no_py_long k c s : calm bad false c = true ->
    (forall o, re_match (compile true (c_pat c)) (fst (card_preprocess s)) = Some o -> long o) ->
    is_py (card_from_mcnp (ext_of fm k) fm c s) = false.
  Proof.
    intros HC HL. unfold card_from_mcnp. destruct (card_preprocess s) as [t cm]. cbn [fst] in HL. destruct (re_match (compile true (c_pat c)) t) as [o|] eqn:E; [|reflexivity].
    apply is_py_bind; [|reflexivity]. refine (read_cls_no_py _ fm bad false (ext_no_py k) c t o HC E (or_intror (HL o eq_refl))).
  Qed.
End Fam.
