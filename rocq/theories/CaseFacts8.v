(** Lemmas about reading in small letters: the same result, errors included, for texts without a capital E. *)

From Coq Require Import Ascii String NArith ZArith Bool Arith List Lia.
From Verif Require Import PyStr Regex RegexParse RegexFacts RegexLang PyNum PyNumFacts Types TypesFacts2 Lattice GeometryFacts5 CardText Cards CaseSpec Calm CalmFacts CalmFacts2 CalmFacts3 Tables PiecesSpec CaseFacts CaseFacts2 CaseFacts3 CaseFacts4 CaseFacts5 CaseFacts6 CaseFacts7.
From Verif Require CardsFacts2 CardTextFacts6.
Import ListNotations.

Lemma rmap_same {A} (r : result A) : rmap same r = r.
Proof. destruct r; reflexivity. Qed.
Lemma rmap_bind {A B} (f : A -> B) (r : result A) : bind r (fun x => Ok (f x)) = rmap f r.
Proof. destruct r; reflexivity. Qed.
Lemma rmap_rmap {A B C} (f : A -> B) (g : B -> C) (r : result A) : rmap g (rmap f r) = rmap (fun x => g (f x)) r.
Proof. destruct r; reflexivity. Qed.
Lemma distribution_eq s : distribution_from_mcnp (slower s) = distribution_from_mcnp s.
Proof.
  unfold distribution_from_mcnp. pose proof (count_low re_distribution s eq_refl eq_refl) as Q.
  destruct (re_match re_distribution (slower s)), (re_match re_distribution s); try discriminate Q; [rewrite (some_inj _ _ Q); reflexivity|reflexivity].
Qed.
Lemma zaid_eq s : zaid_from_mcnp (slower s) = rmap small_zaid (zaid_from_mcnp s).
Proof.
  unfold zaid_from_mcnp. rewrite (re_match_low re_zaid s eq_refl). destruct (re_match re_zaid s) as [o|] eqn:E; [|reflexivity]. cbn [option_map].
  unfold grp. rewrite !(group_plain re_zaid [] s o _ E) by (try lia; reflexivity). rewrite group_low. unfold mk_zaid.
  destruct (_ && _)%bool; [|reflexivity]. destruct (_ && _)%bool; reflexivity.
Qed.
Lemma substance_eq s : allc not_E s -> substance_from_mcnp (slower s) = rmap (fun x => (small_zaid (fst x), snd x)) (substance_from_mcnp s).
Proof.
  intros N. unfold substance_from_mcnp. rewrite (re_match_low re_substance s eq_refl). destruct (re_match re_substance s) as [o|] eqn:E; [|reflexivity]. cbn [option_map]. rewrite !grp_low.
  rewrite (real_same (grp 2 o) (not_E_head _ (grp_allc _ _ _ _ _ 2 E N))), zaid_eq. destruct (zaid_from_mcnp (grp 1 o)); [|reflexivity|reflexivity]. cbn [rmap bind]. destruct (real_from_mcnp (grp 2 o)); reflexivity.
Qed.
Lemma index_eq s : allc not_E s -> index_from_mcnp (slower s) = index_from_mcnp s.
Proof.
  intros N. unfold index_from_mcnp. rewrite (re_match_low re_index s eq_refl). destruct (re_match re_index s) as [o|] eqn:E; [|reflexivity]. cbn [option_map]. rewrite !grp_low.
  now rewrite (integer_same (grp 1 o) (not_E_head _ (grp_allc _ _ _ _ _ 1 E N))), (integer_same (grp 2 o) (not_E_head _ (grp_allc _ _ _ _ _ 2 E N))).
Qed.
Lemma designator_eq s : designator_from_mcnp (slower s) = rmap slower (designator_from_mcnp s).
Proof. unfold designator_from_mcnp. rewrite (re_match_low re_designator s eq_refl). destruct (re_match re_designator s); reflexivity. Qed.
Lemma mapM_eq {A B C D} (f : A -> result B) (f' : C -> result D) (h : A -> C) (g : B -> D) l : (forall x, In x l -> f' (h x) = rmap g (f x)) -> mapM f' (map h l) = rmap (map g) (mapM f l).
Proof.
  induction l as [|a l IH]; intros H; [reflexivity|]. cbn [mapM map]. rewrite (H a (or_introl eq_refl)), (IH (fun x I => H x (or_intror I))).
  destruct (f a); [|reflexivity|reflexivity]. cbn [rmap bind]. destruct (mapM f l); reflexivity.
Qed.
Lemma transf_with_same r n s : caseless r = true -> allc not_E s -> transf_with r n (slower s) = transf_with r n s.
Proof.
  intros C N. unfold transf_with. rewrite (re_match_low r s C). destruct (re_match r s) as [o|] eqn:M; [|reflexivity]. cbn [option_map].
  assert (E : mapM (fun i => real_from_mcnp (grp i (low_mobj o))) (seq 1 n) = mapM (fun i => real_from_mcnp (grp i o)) (seq 1 n)).
  { generalize (seq 1 n). induction l as [|i l IH]; [reflexivity|]. cbn [mapM]. now rewrite IH, grp_low, (real_same (grp i o) (not_E_head _ (grp_allc _ _ _ _ _ i M N))). }
  rewrite E. destruct (mapM (fun i => real_from_mcnp (grp i o)) (seq 1 n)) as [v| |]; [|reflexivity|reflexivity]. cbn [bind].
  rewrite group_low, truthy_low. destruct (truthy (group (S n) o)) as [t|] eqn:T; cbn [option_map]; [|reflexivity].
  assert (G : allc not_E t).
  { destruct (group (S n) o) as [u|] eqn:G; [|discriminate T]. destruct u as [|c u]; [discriminate T|]. injection T as <-. exact (group_allc _ _ _ _ _ _ _ M N G). }
  now rewrite (integer_same t (not_E_head t G)).
Qed.
Lemma transf_eq k s : allc not_E s -> transf_from_mcnp k (slower s) = transf_from_mcnp k s.
Proof. rewrite !transf_with_eq. exact (transf_with_same _ _ s (transf_caseless k)). Qed.
Lemma raw_small s : seqb (concat (lat_raw s)) s = true -> slower s = s.
Proof.
  intros E. apply CardsFacts2.seqb_eq in E. rewrite <- E.
  unfold lat_raw, finditer. pose proof (finditer_alpha re_ltoken (S (length s)) [] s) as F. clear - F.
  induction F as [|o l HO F IH]; [reflexivity|]. cbn [map concat]. rewrite slower_app, IH. f_equal.
  assert (NC : no_capitals re_ltoken = true) by reflexivity. clear - HO NC. induction HO as [|c t Hc _ IH]; [reflexivity|]. cbn [slower map]. f_equal; [|exact IH].
  destruct (capital c) as [E|I]; [exact E|]. unfold no_capitals in NC. rewrite forallb_forall in NC. specialize (NC c I). rewrite Hc in NC. discriminate.
Qed.
Lemma raw_small_up s : seqb (concat (lat_raw (slower s))) (slower s) = true -> slower s = s.
Proof.
  intros E. apply CardsFacts2.seqb_eq in E.
  assert (F : allc (alpha re_ltoken) (slower s)).
  { rewrite <- E. unfold lat_raw, finditer. pose proof (finditer_alpha re_ltoken (S (length (slower s))) [] (slower s)) as F. clear - F.
    induction F as [|o l HO F IH]; [constructor|]. cbn [map concat]. apply Forall_app. split; [exact HO|exact IH]. }
  clear - F. revert F. generalize s. intros u F. induction u as [|c u IH]; [reflexivity|]. cbn [slower map] in *. inversion F as [|? ? F1 F2]. subst. f_equal; [|exact (IH F2)].
  destruct (capital c) as [Q|I]; [exact Q|]. pose proof (proj1 (forallb_forall (fun c => negb (alpha re_ltoken (lower c))) capitals) eq_refl c I) as Q. cbv beta in Q. rewrite F1 in Q. discriminate Q.
Qed.
Lemma tokens_eq s : lat_tokens (slower s) = lat_tokens s.
Proof.
  unfold lat_tokens. rewrite !strip_low. destruct (seqb (concat (lat_raw (slower (strip s)))) (slower (strip s))) eqn:A.
  - pose proof (raw_small_up _ A) as E. now rewrite E in *; rewrite A.
  - destruct (seqb (concat (lat_raw (strip s))) (strip s)) eqn:B; [|reflexivity]. rewrite (raw_small _ B), B in A. discriminate A.
Qed.
Lemma lattice_eq s : lat_from_mcnp (slower s) = lat_from_mcnp s.
Proof. unfold lat_from_mcnp. now rewrite tokens_eq. Qed.

Section Exact.
  Variables (ext : string -> str -> result val) (fam : string -> list cls).
  Hypothesis HE : forall n s, down small (ext n s) (ext n (slower s)).
  Hypothesis HX : forall n s, allc not_E s -> ext n (slower s) = rmap small (ext n s).
  Lemma bind_small {A} (f : A -> A) (w : A -> val) (r r' : result A) : r' = rmap f r -> (forall x, w (f x) = small (w x)) -> bind r' (fun x => Ok (w x)) = rmap small (bind r (fun x => Ok (w x))).
  Proof. intros -> H. destruct r; [|reflexivity|reflexivity]. cbn [rmap bind]. now rewrite H. Qed.
  Lemma bind_even {A} (w : A -> val) (r r' : result A) : r' = r -> (forall x, w x = small (w x)) -> bind r' (fun x => Ok (w x)) = rmap small (bind r (fun x => Ok (w x))).
  Proof. intros -> H. destruct r; [|reflexivity|reflexivity]. cbn [rmap bind]. now rewrite <- H. Qed.
  Lemma read_ty_eq t s : allc not_E s -> read_ty ext t (slower s) = rmap small (read_ty ext t s).
  Proof.
    intros N. destruct t; cbn [read_ty].
    - exact (bind_even VInt _ _ (integer_same s (not_E_head s N)) (fun _ => eq_refl)).
    - exact (bind_even VReal _ _ (real_same s (not_E_head s N)) (fun _ => eq_refl)).
    - reflexivity.
    - exact (bind_even VDist _ _ (distribution_eq s) (fun _ => eq_refl)).
    - exact (bind_small small_zaid VZaid _ _ (zaid_eq s) (fun _ => eq_refl)).
    - exact (bind_small slower VDesig _ _ (designator_eq s) (fun _ => eq_refl)).
    - refine (bind_small _ VSub _ _ (substance_eq s N) _). intros [z r]. reflexivity.
    - exact (bind_even VIndex _ _ (index_eq s N) (fun _ => eq_refl)).
    - exact (bind_even (VTr k) _ _ (transf_eq k s N) (fun _ => eq_refl)).
    - exact (bind_even VLat _ _ (lattice_eq s) (fun _ => eq_refl)).
    - exact (HX _ _ N).
  Qed.
  Lemma read_aty_eq a s : allc not_E s -> read_aty ext a (slower s) = rmap small (read_aty ext a s).
  Proof.
    intros N. destruct a as [t|t]; cbn [read_aty]; [exact (read_ty_eq t s N)|]. unfold tuple_from_mcnp. rewrite (finditer_low _ s (caseless_compile _)).
    rewrite (mapM_eq (fun o => read_ty ext t (mtext o)) (fun o => read_ty ext t (mtext o)) low_mobj small).
    - destruct (mapM (fun o => read_ty ext t (mtext o)) (finditer (compile true (slice 2 2 (pat_of t))) s)); reflexivity.
    - intros o I. exact (read_ty_eq t (mtext o) (proj2 (finditer_V _ not_E s o N I))).
  Qed.
  Lemma read_attr_eq t g : (forall u, g = Some u -> allc not_E u) -> read_attr ext t (option_map slower g) = rmap (option_map small) (read_attr ext t g).
  Proof.
    intros N. unfold read_attr. rewrite truthy_low. destruct (truthy g) as [s|] eqn:T; cbn [option_map]; [|reflexivity]. rewrite strip_low.
    rewrite (read_aty_eq t (strip s) (strip_allc _ _ (truthy_allc _ _ _ T N))). destruct (read_aty ext t (strip s)); reflexivity.
  Qed.
  Lemma read_attrs_eq l m : (forall i u, group i m = Some u -> allc not_E u) -> forall i, read_attrs ext i l (low_mobj m) = rmap (map (option_map small)) (read_attrs ext i l m).
  Proof.
    intros N. induction l as [|a l IH]; intros i; cbn [read_attrs]; [reflexivity|]. rewrite group_low, (read_attr_eq _ _ (N i)), IH.
    destruct (read_attr ext (a_ty a) (group i m)); [|reflexivity|reflexivity]. cbn [rmap bind]. destruct (read_attrs ext (S i) l m); reflexivity.
  Qed.
  Lemma init_eq l : Forall (fun x : attr * option val => exists y, conv ext fam (a_ty (fst x)) (to_arg (snd x)) = Ok y) l -> forallb (fun a => forallb evenb (a_checks (fst a))) l = true ->
    forall o, init_attrs ext fam (map (fun x => (fst x, to_arg (option_map small (snd x)))) l) (small_obj o) = rmap small_obj (init_attrs ext fam (map (fun x => (fst x, to_arg (snd x))) l) o).
  Proof.
    induction 1 as [|[a v] l [y HY] F IH]; intros K o; cbn [map init_attrs fst snd] in *; [reflexivity|]. cbn [forallb fst] in K. apply andb_prop in K as [K KL].
    unfold set_attr. rewrite HY, (conv_low ext fam HE _ _ _ HY), (checks_even o y _ K). destruct (run_checks o y (a_checks a)) as [u| |]; [|reflexivity|reflexivity].
    rewrite <- upd_low. exact (IH KL _).
  Qed.
  Lemma read_cls_eq c m : evenc c = true -> (forall i u, group i m = Some u -> allc not_E u) -> read_cls ext fam c (low_mobj m) = rmap small_obj (read_cls ext fam c m).
  Proof.
    intros K N. unfold read_cls. rewrite (read_attrs_eq _ _ N). destruct (read_attrs ext 1 (c_attrs c) m) as [vs| |] eqn:E; [|reflexivity|reflexivity]. cbn [rmap bind]. unfold construct.
    assert (G : forall g : option val -> arg, combine (c_attrs c) (map g vs) = map (fun x => (fst x, g (snd x))) (combine (c_attrs c) vs)).
    { clear. intros g. generalize (c_attrs c). induction vs as [|v vs IH]; intros [|a l]; cbn [map combine fst snd]; try reflexivity. now rewrite IH. }
    rewrite map_map, (G (fun v => to_arg (option_map small v))), G. refine (init_eq _ (attrs_conv _ _ _ _ _ _ E) _ []).
    apply forallb_forall. intros [a v] I. apply in_combine_l in I. unfold evenc in K. rewrite forallb_forall in K. exact (K a I).
  Qed.
  Lemma card_eq c s : evenc c = true -> allc not_E s -> card_from_mcnp ext fam c (slower s) = rmap (fun x => (small_obj (fst x), map slower (snd x))) (card_from_mcnp ext fam c s).
  Proof.
    intros K N. unfold card_from_mcnp. rewrite card_preprocess_low. pose proof (card_preprocess_E s N) as NP. destruct (card_preprocess s) as [t cm]. cbn [fst snd] in *.
    rewrite (re_match_low _ t (caseless_compile _)). destruct (re_match (compile true (c_pat c)) t) as [m|] eqn:M; [|reflexivity]. cbn [option_map].
    rewrite (read_cls_eq c m K (fun i u => group_allc not_E _ _ _ _ i u M NP)). destruct (read_cls ext fam c m); reflexivity.
  Qed.
  Lemma family_eq cs s : (forall c, In c cs -> evenc c = true) -> allc not_E s -> family_from_mcnp ext fam cs (slower s) = rmap (fun x => (fst x, small_obj (snd x))) (family_from_mcnp ext fam cs s).
  Proof.
    intros K N. unfold family_from_mcnp. cbv zeta. rewrite preprocess_low, first_match_low. destruct (first_match cs (preprocess s)) as [[c m]|] eqn:EF; [|reflexivity]. cbn [option_map fst snd].
    assert (M : re_match (compile true (c_pat c)) (preprocess s) = Some m).
    { clear - EF. induction cs as [|d cs IH]; [discriminate EF|]. cbn [first_match] in EF. destruct (re_match (compile true (c_pat d)) (preprocess s)) as [x|] eqn:E; [|exact (IH EF)].
      destruct (seqb (mtext x) (preprocess s)); [|exact (IH EF)]. injection EF as <- <-. exact E. }
    rewrite (read_cls_eq c m (K c (first_match_in _ _ _ _ EF)) (fun i u => group_allc not_E _ _ _ _ i u M (preprocess_E s N))). destruct (read_cls ext fam c m); reflexivity.
  Qed.
End Exact.
Lemma ext_eq fam n : (forall k c, In c (fam k) -> kept c = true) -> (forall k c, In c (fam k) -> evenc c = true) -> forall name s, allc not_E s -> ext_of fam n name (slower s) = rmap small (ext_of fam n name s).
Proof.
  intros K K2. induction n as [|n IH]; intros name s N; [reflexivity|]. cbn [ext_of]. rewrite (family_eq (ext_of fam n) fam (ext_low fam n K) IH (fam name) s (K2 name) N).
  destruct (family_from_mcnp (ext_of fam n) fam (fam name) s) as [[c o]| |]; [|reflexivity|reflexivity]. cbn [rmap bind fst snd]. now rewrite obj_val_low.
Qed.
Lemma library_eq name s : allc not_E s -> ext name (slower s) = rmap small (ext name s).
Proof. exact (ext_eq fam 4 fam_kept fam_even name s). Qed.
