(** Lemmas about reading in small letters: cells, surfaces, data cards and the cutting of files. *)

From Coq Require Import Ascii String NArith ZArith Bool Arith List Lia.
From Verif Require Import PyStr Regex RegexParse RegexFacts RegexLang PyNum Types TypesFacts2 Geometry GeometryFacts5 CardText Cards CaseSpec CalmFacts3 Tables PiecesSpec Numbered Problem InpFile CaseInpSpec
  CaseFacts CaseFacts2 CaseFacts3 CaseFacts4 CaseFacts5 CaseFacts6 CaseFacts7 CaseFacts8.
From Verif Require CardsFacts2.
Import ListNotations.

(** ** Geometries *)
Definition letterless (r : re) : bool := if no_capitals r then forallb (fun c => negb (alpha r (lower c))) capitals else false.
Lemma spelled r s : letterless r = true -> seqb (concat (map mtext (finditer r s))) s = true -> slower s = s.
Proof.
  unfold letterless. destruct (no_capitals r) eqn:NC; [|discriminate]. intros _ E. apply CardsFacts2.seqb_eq in E. rewrite <- E.
  unfold finditer. pose proof (finditer_alpha r (S (length s)) [] s) as F. clear - F NC.
  induction F as [|o l HO F IH]; [reflexivity|]. cbn [map concat]. rewrite slower_app, IH. f_equal.
  clear - HO NC. induction HO as [|c t Hc _ IH]; [reflexivity|]. cbn [slower map]. f_equal; [|exact IH].
  destruct (capital c) as [E|I]; [exact E|]. unfold no_capitals in NC. rewrite forallb_forall in NC. specialize (NC c I). rewrite Hc in NC. discriminate.
Qed.
Lemma spelled_up r s : letterless r = true -> seqb (concat (map mtext (finditer r (slower s)))) (slower s) = true -> slower s = s.
Proof.
  unfold letterless. destruct (no_capitals r); [|discriminate]. intros NC E. apply CardsFacts2.seqb_eq in E.
  assert (F : allc (alpha r) (slower s)).
  { rewrite <- E. unfold finditer. pose proof (finditer_alpha r (S (length (slower s))) [] (slower s)) as F. clear - F.
    induction F as [|o l HO F IH]; [constructor|]. cbn [map concat]. apply Forall_app. split; [exact HO|exact IH]. }
  clear - F NC. revert F. generalize s. intros u F. induction u as [|c u IH]; [reflexivity|]. cbn [slower map] in *. inversion F as [|? ? F1 F2]. subst. f_equal; [|exact (IH F2)].
  destruct (capital c) as [Q|I]; [exact Q|]. pose proof (proj1 (forallb_forall _ capitals) NC c I) as Q. cbv beta in Q. rewrite F1 in Q. discriminate Q.
Qed.
Lemma geo_tokens_eq s : geo_tokens (slower s) = geo_tokens s.
Proof.
  unfold geo_tokens, raw_tokens. rewrite !strip_low. assert (LL : letterless re_gtoken = true) by (vm_compute; reflexivity). revert LL. generalize re_gtoken. intros r LL.
  destruct (seqb (concat (map mtext (finditer r (slower (strip s))))) (slower (strip s))) eqn:A.
  - pose proof (spelled_up r _ LL A) as E. now rewrite E in *; rewrite A.
  - destruct (seqb (concat (map mtext (finditer r (strip s)))) (strip s)) eqn:B; [|reflexivity]. rewrite (spelled r _ LL B), B in A. discriminate A.
Qed.
Lemma geo_eq s : geo_from_mcnp (slower s) = geo_from_mcnp s.
Proof. unfold geo_from_mcnp. now rewrite geo_tokens_eq. Qed.

(** ** Cells and surfaces *)
Lemma attr_eq t r p s m i : match_at r p s = Some m -> allc not_E s -> read_attr ext t (group i (low_mobj m)) = rmap (option_map small) (read_attr ext t (group i m)).
Proof. intros M N. rewrite group_low. exact (read_attr_eq ext library_eq t (group i m) (fun u G => group_allc not_E r p s m i u M N G)). Qed.
Lemma take_small n x n' r : take_number n (to_arg x) = (n', r) -> exists r', take_number n (to_arg (option_map small x)) = (n', r') /\
  (forall e, r = Py e -> r' = Py e) /\ (forall e, r = Lib e -> r' = Lib e) /\
  (forall a, r = Ok a -> exists a' y, r' = Ok a' /\ conv ext fam (One TInt) a = Ok y /\ conv ext fam (One TInt) a' = Ok (option_map small y)).
Proof.
  destruct x as [v|]; cbn [option_map to_arg take_number].
  - intros [= <- <-]. eexists. split; [reflexivity|]. split; [discriminate|]. split; [discriminate|]. intros a [= <-]. exists (AVal (small v)), (Some v). repeat split.
  - destruct (next_number n) as [[z k]|]; intros [= <- <-]; eexists; (split; [reflexivity|]); (split; [congruence|]); (split; [congruence|]); [|discriminate].
    intros a [= <-]. exists (AInt z), (Some (VInt (IVal z))). repeat split.
Qed.
Lemma checked_eq o l y : forallb evenb l = true -> checked (small_obj o) l (Ok (option_map small y)) = rmap (option_map small) (checked o l (Ok y)).
Proof. intros K. unfold checked. cbn [bind]. rewrite (checks_even o y l K). destruct (run_checks o y l); reflexivity. Qed.
Lemma conv_one t x : conv ext fam (One t) (to_arg x) = Ok x.
Proof. destruct x; reflexivity. Qed.
Lemma cell_tail_eq {A} (g : A -> A) (c c' : cellobj) (r r' : result A) f f' l l' :
  r' = rmap g r -> (forall x, cell_sets l' (f' (g x)) = rmap small_cell (cell_sets l (f x))) ->
  (match cell_tail c' r' f' with (c', Ok _) => cell_sets l' c' | (_, Lib e) => Lib e | (_, Py e) => Py e end) =
  rmap small_cell (match cell_tail c r f with (c', Ok _) => cell_sets l c' | (_, Lib e) => Lib e | (_, Py e) => Py e end).
Proof. intros -> H. destruct r; [exact (H a)|reflexivity|reflexivity]. Qed.
Lemma surf_tail_eq {A} (g : A -> A) (c c' : surfobj) (r r' : result A) f f' l l' :
  r' = rmap g r -> (forall x, surf_sets l' (f' (g x)) = rmap small_surf (surf_sets l (f x))) ->
  (match surf_tail c' r' f' with (c', Ok _) => surf_sets l' c' | (_, Lib e) => Lib e | (_, Py e) => Py e end) =
  rmap small_surf (match surf_tail c r f with (c', Ok _) => surf_sets l c' | (_, Lib e) => Lib e | (_, Py e) => Py e end).
Proof. intros -> H. destruct r; [exact (H a)|reflexivity|reflexivity]. Qed.
Lemma sets_cons s l c : cell_sets (s :: l) c = match cell_set s c with (c', Ok _) => cell_sets l c' | (_, Lib e) => Lib e | (_, Py e) => Py e end.
Proof. reflexivity. Qed.
Lemma surfs_cons s l c : surf_sets (s :: l) c = match surf_set s c with (c', Ok _) => surf_sets l c' | (_, Lib e) => Lib e | (_, Py e) => Py e end.
Proof. reflexivity. Qed.
Lemma cell_new_eq n x m d g o : (exists y, conv ext fam options_ty (to_arg o) = Ok y) ->
  snd (cell_new n {| ca_number := to_arg (option_map small x); ca_material := MArg (to_arg (option_map small m)); ca_density := to_arg (option_map small d); ca_geometry := g; ca_options := to_arg (option_map small o) |}) =
  rmap small_cell (snd (cell_new n {| ca_number := to_arg x; ca_material := MArg (to_arg m); ca_density := to_arg d; ca_geometry := g; ca_options := to_arg o |})).
Proof.
  intros [yo HO]. pose proof (conv_low ext fam library_low _ _ _ HO) as HO'. unfold cell_new. cbn [ca_number ca_material ca_density ca_geometry ca_options].
  destruct (take_number n (to_arg x)) as [n' r] eqn:T. destruct (take_small _ _ _ _ T) as (r' & -> & HP & HL & HK). cbn [snd].
  destruct r as [a|e|e]; [|rewrite (HL e eq_refl); reflexivity|rewrite (HP e eq_refl); reflexivity]. destruct (HK a eq_refl) as (a' & y & -> & CA & CA'). cbn [bind]. clear T HP HL HK.
  rewrite !sets_cons. cbn [cell_set]. rewrite CA, CA'. refine (cell_tail_eq (option_map small) _ _ _ _ _ _ _ _ (checked_eq [] [range_test 1 99999999] y eq_refl) _). intros x1.
  rewrite !sets_cons. cbn [cell_set]. rewrite !conv_one. refine (cell_tail_eq (option_map small) _ _ _ _ _ _ _ _ (checked_eq [] [range_test 0 99999999] m eq_refl) _). intros x2.
  rewrite !sets_cons. cbn [cell_set]. rewrite !conv_one. refine (cell_tail_eq (option_map small) _ _ _ _ _ _ _ _ (checked_eq [("material"%string, x2)] [density_test] d eq_refl) _). intros x3.
  rewrite !sets_cons. cbn [cell_set]. refine (cell_tail_eq same _ _ _ _ _ _ _ _ (eq_sym (rmap_same _)) _). intros x4.
  rewrite !sets_cons. cbn [cell_set]. fold options_ty. rewrite HO, HO'. reflexivity.
Qed.
Lemma surf_new_eq n x t p o :
  snd (surf_new n {| sa_option := to_arg (option_map small o); sa_number := to_arg (option_map small x); sa_transform := to_arg (option_map small t); sa_prefix := to_arg (option_map small p) |}) =
  rmap small_surf (snd (surf_new n {| sa_option := to_arg o; sa_number := to_arg x; sa_transform := to_arg t; sa_prefix := to_arg p |})).
Proof.
  unfold surf_new. cbn [sa_option sa_number sa_transform sa_prefix].
  destruct (take_number n (to_arg x)) as [n' r] eqn:T. destruct (take_small _ _ _ _ T) as (r' & -> & HP & HL & HK). cbn [snd].
  destruct r as [a|e|e]; [|rewrite (HL e eq_refl); reflexivity|rewrite (HP e eq_refl); reflexivity]. destruct (HK a eq_refl) as (a' & y & -> & CA & CA'). cbn [bind]. clear T HP HL HK.
  rewrite !surfs_cons. cbn [surf_set]. rewrite !conv_one. refine (surf_tail_eq (option_map small) _ _ _ _ _ _ _ _ (checked_eq [] [transform_test] t eq_refl) _). intros x1.
  rewrite !surfs_cons. cbn [surf_set]. rewrite CA, CA'. refine (surf_tail_eq (option_map small) _ _ _ _ _ _ _ _ (checked_eq [("transform"%string, x1)] [surface_number_test] y eq_refl) _). intros x2.
  rewrite !surfs_cons. cbn [surf_set]. rewrite !conv_one. refine (surf_tail_eq (option_map small) _ _ _ _ _ _ _ _ (checked_eq [] [BIsNone EX] o eq_refl) _). intros x3.
  rewrite !surfs_cons. cbn [surf_set]. rewrite !conv_one. refine (surf_tail_eq (option_map small) _ _ _ _ _ _ _ _ (checked_eq [] [prefix_test] p eq_refl) _). intros x4. reflexivity.
Qed.
Lemma then_eq {A B} (f : A -> A) (g : B -> B) (r r' : result A) (k k' : A -> result B) : r' = rmap f r -> (forall x, r = Ok x -> k' (f x) = rmap g (k x)) -> bind r' k' = rmap g (bind r k).
Proof. intros -> H. destruct r; [exact (H a eq_refl)|reflexivity|reflexivity]. Qed.
Definition geometry_of (g : option str) : result garg :=
  match truthy g with Some g => bind (geo_from_mcnp (strip g)) (fun g => Ok (GGeo (CTree g))) | None => Ok GNone end.
Lemma geometry_eq g : geometry_of (option_map slower g) = geometry_of g.
Proof. unfold geometry_of. rewrite truthy_low. destruct (truthy g) as [s|]; cbn [option_map]; [|reflexivity]. now rewrite strip_low, geo_eq. Qed.
Lemma cell_eq s : allc not_E s -> cell_from_mcnp (slower s) = rmap small_remarked (cell_from_mcnp s).
Proof.
  intros N. unfold cell_from_mcnp. rewrite card_preprocess_low. pose proof (card_preprocess_E s N) as NP. destruct (card_preprocess s) as [t cm]. cbn [fst snd] in *.
  rewrite (re_match_low re_cell t (caseless_compile _)). destruct (re_match re_cell t) as [m|] eqn:M; [|reflexivity]. cbn [option_map].
  refine (then_eq _ _ _ _ _ _ (attr_eq _ _ _ _ _ _ M NP) _). intros x1 _. refine (then_eq _ _ _ _ _ _ (attr_eq _ _ _ _ _ _ M NP) _). intros x2 _. refine (then_eq _ _ _ _ _ _ (attr_eq _ _ _ _ _ _ M NP) _). intros x3 _.
  fold (geometry_of (group 4 m)). fold (geometry_of (group 4 (low_mobj m))). rewrite group_low, geometry_eq. refine (then_eq same _ _ _ _ _ (eq_sym (rmap_same _)) _). intros g _.
  refine (then_eq _ _ _ _ _ _ (attr_eq _ _ _ _ _ _ M NP) _). intros x5 H5. unfold same. refine (then_eq small_cell _ _ _ _ _ (cell_new_eq _ _ _ _ _ _ (conv_read _ _ _ _ _ H5)) _). intros c _. reflexivity.
Qed.
Lemma surface_eq s : allc not_E s -> surface_from_mcnp (slower s) = rmap small_remarked (surface_from_mcnp s).
Proof.
  intros N. unfold surface_from_mcnp. rewrite card_preprocess_low. pose proof (card_preprocess_E s N) as NP. destruct (card_preprocess s) as [t cm]. cbn [fst snd] in *.
  rewrite (re_match_low re_surface t (caseless_compile _)). destruct (re_match re_surface t) as [m|] eqn:M; [|reflexivity]. cbn [option_map].
  refine (then_eq _ _ _ _ _ _ (attr_eq _ _ _ _ _ _ M NP) _). intros x1 _. refine (then_eq _ _ _ _ _ _ (attr_eq _ _ _ _ _ _ M NP) _). intros x2 _. refine (then_eq _ _ _ _ _ _ (attr_eq _ _ _ _ _ _ M NP) _). intros x3 _.
  refine (then_eq _ _ _ _ _ _ (attr_eq _ _ _ _ _ _ M NP) _). intros x4 _. refine (then_eq small_surf _ _ _ _ _ (surf_new_eq _ _ _ _ _) _). intros c _. reflexivity.
Qed.
Lemma like_eq s : allc not_E s -> like_from_mcnp (slower s) = rmap small_remarked (like_from_mcnp s).
Proof.
  intros N. unfold like_from_mcnp. rewrite (card_eq ext fam library_low library_eq k_Like s eq_refl N). destruct (card_from_mcnp ext fam k_Like s); reflexivity.
Qed.
Lemma comment_eq s : allc not_E s -> comment_from_mcnp (slower s) = rmap small_remarked (comment_from_mcnp s).
Proof.
  intros N. unfold comment_from_mcnp. rewrite (card_eq ext fam library_low library_eq k_Comment s eq_refl N). destruct (card_from_mcnp ext fam k_Comment s) as [[o cm]| |]; [|reflexivity|reflexivity].
  cbn [rmap bind fst snd small_remarked small_card]. f_equal. f_equal. f_equal. unfold attr_of. rewrite assoc_low. destruct (assoc "text" o) as [[v|]|]; [|reflexivity|reflexivity]. destruct v as [i|r|t|n|z|t|y|y|k t|l|c l|l|z|t]; try reflexivity. destruct y; reflexivity.
Qed.
Lemma first_of_eq l s : Forall (fun r => r (slower s) = rmap small_remarked (r s)) l -> first_of l (slower s) = rmap small_remarked (first_of l s).
Proof. induction 1 as [|r l H F IH]; [reflexivity|]. cbn [first_of]. rewrite H. destruct (r s); [reflexivity|exact IH|reflexivity]. Qed.
Lemma cell_card_eq s : allc not_E s -> read_cell_card (slower s) = rmap small_remarked (read_cell_card s).
Proof. intros N. apply first_of_eq. repeat constructor; [exact (cell_eq s N)|exact (like_eq s N)|exact (comment_eq s N)]. Qed.
Lemma surface_card_eq s : allc not_E s -> read_surface_card (slower s) = rmap small_remarked (read_surface_card s).
Proof. intros N. apply first_of_eq. repeat constructor; [exact (surface_eq s N)|exact (comment_eq s N)]. Qed.

(** ** Data cards *)
Lemma unfit_eq c s : ~ fits c s -> card_from_mcnp ext fam c (slower s) = rmap (fun x => (small_obj (fst x), map slower (snd x))) (card_from_mcnp ext fam c s).
Proof.
  unfold fits, card_from_mcnp. intros H. rewrite card_preprocess_low. destruct (card_preprocess s) as [t cm]. cbn [fst snd] in *.
  rewrite (re_match_low _ t (caseless_compile _)). destruct (re_match (compile true (c_pat c)) t); [elim H; discriminate|reflexivity].
Qed.
Definition even_entry (e : entry) : bool := match e with Known c => evenc c | Remark => true end.
Lemma entries_even : filter (fun e => negb (even_entry e)) data_entries = [Known k_F_1; Known k_F_2; Known k_Totnu].
Proof. vm_compute. reflexivity. Qed.
Lemma data_card_eq s : allc not_E s -> (forall c, In c [k_F_1; k_F_2; k_Totnu] -> ~ fits c s) -> read_data_card (slower s) = rmap small_remarked (read_data_card s).
Proof.
  intros N U. apply first_of_eq. apply Forall_forall. intros r I. apply in_map_iff in I as (e & <- & I). destruct e as [c|]; cbn [read_entry]; [|exact (comment_eq s N)].
  assert (Q : card_from_mcnp ext fam c (slower s) = rmap (fun x => (small_obj (fst x), map slower (snd x))) (card_from_mcnp ext fam c s)).
  { destruct (evenc c) eqn:K; [exact (card_eq ext fam library_low library_eq c s K N)|]. apply unfit_eq, U.
    assert (J : In (Known c) (filter (fun e => negb (even_entry e)) data_entries)) by (apply filter_In; split; [exact I|]; cbn [even_entry]; now rewrite K).
    rewrite entries_even in J. destruct J as [J|[J|[J|[]]]]; injection J as <-; [left|right; left|right; right; left]; reflexivity. }
  rewrite Q. destruct (card_from_mcnp ext fam c s); reflexivity.
Qed.
