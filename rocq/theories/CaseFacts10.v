(** Lemmas about reading in small letters: whole files. *)

From Coq Require Import Ascii String NArith ZArith Bool Arith List Lia.
From Verif Require Import PyStr Regex RegexParse RegexFacts RegexLang PyNum Types TypesFacts2 CardText Cards CaseSpec CalmFacts3 Tables PiecesSpec Numbered Problem InpFile CaseInpSpec
  CaseFacts CaseFacts2 CaseFacts3 CaseFacts4 CaseFacts5 CaseFacts6 CaseFacts7 CaseFacts8 CaseFacts9.
From Verif Require CardsFacts2 CardTextFacts6.
Import ListNotations.

(** ** Cutting *)
Lemma slower_rev s : slower (rev s) = rev (slower s).
Proof. unfold slower. now rewrite map_rev. Qed.
Lemma split_keep_low r : caseless r = true -> forall n p s cur, split_keep_f n r (slower p) (slower s) (slower cur) = map slower (split_keep_f n r p s cur).
Proof.
  intros C. induction n as [|n IH]; intros p s cur; cbn [split_keep_f map]; [now rewrite slower_app, slower_rev|]. rewrite (match_low r p s C). destruct (match_at r p s) as [o|]; cbn [option_map].
  - rewrite grp_low. cbn [map low_mobj mtext mrest]. rewrite slower_rev. f_equal. f_equal. rewrite <- slower_rev, <- slower_app. exact (IH _ _ []).
  - destruct s as [|c s]; cbn [slower map]; [now rewrite slower_rev|]. exact (IH (c :: p) s (c :: cur)).
Qed.
Lemma resplit_low r s : caseless r = true -> resplit r (slower s) = map slower (resplit r s).
Proof.
  intros C. unfold resplit. rewrite slower_length. generalize (S (length s)). intros n. change (@nil ascii) with (slower []) at 1 2. generalize (@nil ascii) at 1 3 as p. generalize (@nil ascii) as cur. revert s.
  induction n as [|n IH]; intros s cur p; cbn [resplit_f map]; [now rewrite slower_app, slower_rev|]. rewrite (match_low r p s C). destruct (match_at r p s) as [o|]; cbn [option_map].
  - cbn [low_mobj mtext mrest]. destruct (mtext o) as [|x t] eqn:ET; cbn [slower map].
    + destruct s as [|c s]; cbn [slower map]; [now rewrite slower_rev|]. exact (IH s (c :: cur) (c :: p)).
    + rewrite slower_rev. f_equal. change (lower x :: map lower t) with (slower (x :: t)). rewrite <- slower_rev, <- slower_app. exact (IH _ [] _).
  - destruct s as [|c s]; cbn [slower map]; [now rewrite slower_rev|]. exact (IH s (c :: cur) (c :: p)).
Qed.
Lemma append_low ps : forall rows, append_to (map slower ps) (map (map slower) rows) = map (map slower) (append_to ps rows).
Proof.
  induction ps as [|p ps IH]; intros [|row rows]; try reflexivity. cbn [append_to map]. rewrite map_app. f_equal. apply IH.
Qed.
Lemma removelast_low (l : list str) : removelast (map slower l) = map slower (removelast l).
Proof. induction l as [|w l IH]; [reflexivity|]. destruct l; [reflexivity|]. cbn [map removelast] in *. now rewrite IH. Qed.
Lemma untable_low t : untable (slower t) = slower (untable t).
Proof.
  unfold untable. rewrite (re_match_low re_table t eq_refl). destruct (re_match re_table t) as [o|]; cbn [option_map]; [|reflexivity]. rewrite !grp_low, (resplit_low re_space1 (grp 1 o) eq_refl), (split_on_low nl (grp 2 o) eq_refl (lower_back nl eq_refl)), removelast_low.
  cbv zeta. rewrite !slower_app, join_low. f_equal. f_equal. change (slower [nl]) with [nl]. f_equal. rewrite map_map.
  generalize (removelast (split_on nl (grp 2 o))). intros ls.
  replace (map (fun c => [c]) (tl (map slower (resplit re_space1 (grp 1 o))))) with (map (map slower) (map (fun c => [c]) (tl (resplit re_space1 (grp 1 o))))) by (destruct (resplit re_space1 (grp 1 o)); [reflexivity|]; cbn [tl map]; rewrite !map_map; reflexivity).
  generalize (map (fun c => [c]) (tl (resplit re_space1 (grp 1 o)))). intros rows.
  replace (fold_left (fun rows line => append_to (resplit re_space1 line) rows) (map slower ls) (map (map slower) rows)) with (map (map slower) (fold_left (fun rows line => append_to (resplit re_space1 line) rows) ls rows)).
  - rewrite map_map. apply map_ext. intros w. now rewrite join_low.
  - revert rows. induction ls as [|w ls IH]; intros rows; [reflexivity|]. cbn [fold_left map]. rewrite (resplit_low re_space1 w eq_refl), append_low. apply IH.
Qed.
Lemma gather_low ls : gather (map slower ls) = let '(a, cs, rest) := gather ls in (slower a, map slower cs, map slower rest).
Proof.
  induction ls as [|l ls IH]; [reflexivity|]. cbn [gather map]. rewrite (re_match_low re_indented l eq_refl). destruct (re_match re_indented l) as [o|]; cbn [option_map]; [|reflexivity].
  rewrite (split1_low "$" l eq_refl (lower_back "$"%char eq_refl)). destruct (split1 "$" l) as [a c]. cbn [fst snd]. rewrite IH. destruct (gather ls) as [[t cs] rest]. rewrite slower_app. destruct c; reflexivity.
Qed.
Lemma join_lines_low n : forall ls, join_lines n (map slower ls) = slower (join_lines n ls).
Proof.
  induction n as [|n IH]; intros ls; [reflexivity|]. destruct ls as [|l ls]; [reflexivity|]. cbn [join_lines map]. rewrite (split1_low "$" l eq_refl (lower_back "$"%char eq_refl)). destruct (split1 "$" l) as [a c]. cbn [fst snd].
  rewrite gather_low. destruct (gather ls) as [[t cs] rest]. rewrite !slower_app, IH, join_low. destruct c; reflexivity.
Qed.
Lemma inp_preprocess_low s : inp_preprocess (slower s) = slower (inp_preprocess s).
Proof.
  unfold inp_preprocess. cbv zeta. rewrite (sub_const re_emptied [nl; nl] s eq_refl eq_refl). generalize (sub re_emptied (fun _ => [nl; nl]) s). clear s. intros s.
  assert (E : concat (map untable (split_keep re_vertical (slower s))) = slower (concat (map untable (split_keep re_vertical s)))).
  { unfold split_keep. rewrite slower_length. rewrite (split_keep_low re_vertical eq_refl (S (length s)) [] s [] : split_keep_f (S (length s)) re_vertical [] (slower s) [] = _).
    generalize (split_keep_f (S (length s)) re_vertical [] s []). intros l. induction l as [|w l IH]; [reflexivity|]. cbn [map concat]. now rewrite slower_app, IH, untable_low. }
  rewrite E. generalize (concat (map untable (split_keep re_vertical s))). clear s E. intros s.
  rewrite (sub_const re_amp (nl :: srepeat 4 [sp]) s eq_refl eq_refl). generalize (sub re_amp (fun _ => nl :: srepeat 4 [sp]) s). clear s. intros s.
  rewrite (split_on_low nl s eq_refl (lower_back nl eq_refl)), map_length, join_lines_low. generalize (join_lines (length (split_on nl s)) (split_on nl s)). clear s. intros s.
  rewrite (sub_const re_blanks [sp] s eq_refl eq_refl), (sub_const re_open ["("%char] _ eq_refl eq_refl), (sub_const re_close [")"%char] _ eq_refl eq_refl), (sub_const re_blankline [nl; nl] _ eq_refl eq_refl),
    (sub_const re_equals [sp] _ eq_refl eq_refl), (sub_const re_tab [sp; sp; sp; sp] _ eq_refl eq_refl). apply strip_low.
Qed.
Lemma card_lines_low s : card_lines (slower s) = map slower (card_lines s).
Proof. unfold card_lines. rewrite strip_low. apply (split_on_low nl _ eq_refl (lower_back nl eq_refl)). Qed.
Lemma cut_low s : cut_blocks (slower s) = option_map small_blocks (cut_blocks s).
Proof.
  unfold cut_blocks. rewrite (re_match_low re_file s (caseless_compile _)). destruct (re_match re_file s) as [o|]; [|reflexivity]. cbn [option_map]. unfold small_blocks. cbn [b_message b_title b_cells b_surfaces b_data b_other].
  now rewrite !grp_low, !group_low, !truthy_low, !card_lines_low.
Qed.
Lemma blocks_low s : cut_blocks (inp_preprocess (slower s)) = option_map small_blocks (cut_blocks (inp_preprocess s)).
Proof. rewrite inp_preprocess_low. apply cut_low. Qed.

(** ** Capital E *)
Lemma split_keep_E r : forall n p s cur, allc not_E s -> allc not_E cur -> Forall (allc not_E) (split_keep_f n r p s cur).
Proof.
  induction n as [|n IH]; intros p s cur HS HC; cbn [split_keep_f].
  - constructor; [|constructor]. apply Forall_app. split; [apply Forall_rev, HC|exact HS].
  - destruct (match_at r p s) as [o|] eqn:M.
    + destruct (CardTextFacts6.match_pres (fun c => not_E c = true) r p s o M HS) as (_ & HR & HG). constructor; [apply Forall_rev, HC|]. constructor; [apply HG|]. apply IH; [exact HR|constructor].
    + destruct s as [|c s]; [constructor; [apply Forall_rev, HC|constructor]|]. inversion HS. subst. apply IH; [assumption|]. constructor; assumption.
Qed.
Lemma resplit_E r s : allc not_E s -> Forall (allc not_E) (resplit r s).
Proof.
  intros HS. unfold resplit. assert (HC : allc not_E []) by constructor. revert HS HC. generalize (S (length s)). intros n. generalize (@nil ascii) at 2 as p. generalize (@nil ascii) as cur. revert s.
  induction n as [|n IH]; intros s cur p HS HC; cbn [resplit_f].
  - constructor; [|constructor]. apply Forall_app. split; [apply Forall_rev, HC|exact HS].
  - assert (G : Forall (allc not_E) match s with [] => [rev cur] | c :: t => resplit_f n r (c :: p) t (c :: cur) end).
    { destruct s as [|c s]; [constructor; [apply Forall_rev, HC|constructor]|]. inversion HS. subst. apply IH; [assumption|]. constructor; assumption. }
    destruct (match_at r p s) as [o|] eqn:M; [|exact G]. destruct (mtext o); [exact G|].
    destruct (CardTextFacts6.match_pres (fun c => not_E c = true) r p s o M HS) as (_ & HR & _). constructor; [apply Forall_rev, HC|]. apply IH; [exact HR|constructor].
Qed.
Lemma pieces_E d s : allc not_E s -> Forall (allc not_E) (split_on d s).
Proof. intros H. apply Forall_forall. intros w I. apply CardTextFacts6.split_on_pieces in I as [_ Q]. unfold allc in *. rewrite Forall_forall in *. auto. Qed.
Lemma join_sep_E sep l : allc not_E sep -> Forall (allc not_E) l -> allc not_E (join sep l).
Proof.
  intros HS. induction 1 as [|w l H F IH]; [constructor|]. destruct l as [|v l]; [exact H|]. cbn [join]. apply Forall_app. split; [exact H|]. apply Forall_app. split; [exact HS|exact IH].
Qed.
Lemma append_E ps : Forall (allc not_E) ps -> forall rows, Forall (Forall (allc not_E)) rows -> Forall (Forall (allc not_E)) (append_to ps rows).
Proof.
  induction 1 as [|p ps H F IH]; intros rows HR; [exact HR|]. destruct HR as [|row rows H1 HR]; [constructor|]. cbn [append_to]. constructor; [|exact (IH rows HR)]. apply Forall_app. split; [exact H1|]. constructor; [exact H|constructor].
Qed.
Lemma tl_all {A} (P : A -> Prop) l : Forall P l -> Forall P (tl l).
Proof. destruct 1; [constructor|assumption]. Qed.
Lemma removelast_all {A} (P : A -> Prop) l : Forall P l -> Forall P (removelast l).
Proof. induction 1 as [|x l H F IH]; [constructor|]. destruct l; [constructor|]. cbn [removelast] in *. constructor; assumption. Qed.
Lemma untable_E t : allc not_E t -> allc not_E (untable t).
Proof.
  intros H. unfold untable. destruct (re_match re_table t) as [o|] eqn:M; [|exact H]. cbv zeta. apply Forall_app. split; [repeat constructor|]. apply Forall_app. split; [|repeat constructor].
  apply join_sep_E; [repeat constructor|].
  pose proof (removelast_all _ _ (pieces_E nl _ (grp_allc not_E _ _ _ _ 2 M H))) as HL. pose proof (tl_all _ _ (resplit_E re_space1 _ (grp_allc not_E _ _ _ _ 1 M H))) as HC.
  assert (HR : Forall (Forall (allc not_E)) (map (fun c => [c]) (tl (resplit re_space1 (grp 1 o))))).
  { revert HC. generalize (tl (resplit re_space1 (grp 1 o))). intros l HC. induction HC as [|c l' H1 _ IH]; [constructor|]. cbn [map]. constructor; [constructor; [exact H1|constructor]|exact IH]. }
  revert HL HR. generalize (removelast (split_on nl (grp 2 o))). intros ls HL. generalize (map (fun c => [c]) (tl (resplit re_space1 (grp 1 o)))). clear - HL.
  induction HL as [|w ls HW HL IH]; intros rows HR; cbn [fold_left].
  - induction HR as [|row rows H1 HR IH]; [constructor|]. cbn [map]. constructor; [apply join_sep_E; [repeat constructor|exact H1]|exact IH].
  - apply IH, append_E; [apply resplit_E, HW|exact HR].
Qed.
Lemma split1_all d s : allc not_E s -> allc not_E (fst (split1 d s)) /\ (forall c, snd (split1 d s) = Some c -> allc not_E c).
Proof.
  induction 1 as [|c s H HS IH]; [split; [constructor|discriminate]|]. cbn [split1]. destruct (ceqb c d); [split; [constructor|intros x [= <-]; exact HS]|]. destruct (split1 d s) as [a b]. cbn [fst snd] in *.
  destruct IH as [IA IB]. split; [constructor; assumption|exact IB].
Qed.
Lemma gather_E ls : Forall (allc not_E) ls -> let '(a, cs, rest) := gather ls in allc not_E a /\ Forall (allc not_E) cs /\ Forall (allc not_E) rest.
Proof.
  induction 1 as [|l ls H F IH]; [cbn [gather]; repeat split; constructor|]. cbn [gather]. destruct (re_match re_indented l); [|repeat split; [constructor|constructor|constructor; assumption]].
  destruct (split1_all "$"%char l H) as [HA HB]. destruct (split1 "$" l) as [a c]. cbn [fst snd] in *. destruct (gather ls) as [[t cs] rest]. destruct IH as (I1 & I2 & I3).
  split; [apply Forall_app; split; assumption|]. split; [|exact I3]. destruct c as [c|]; [constructor; [exact (HB c eq_refl)|exact I2]|exact I2].
Qed.
Lemma join_lines_E n : forall ls, Forall (allc not_E) ls -> allc not_E (join_lines n ls).
Proof.
  induction n as [|n IH]; intros ls H; [constructor|]. destruct H as [|l ls H F]; [constructor|]. cbn [join_lines]. destruct (split1_all "$"%char l H) as [HA HB]. destruct (split1 "$" l) as [a c]. cbn [fst snd] in *.
  pose proof (gather_E ls F) as G. destruct (gather ls) as [[t cs] rest]. destruct G as (G1 & G2 & G3). apply Forall_app. split; [exact HA|]. apply Forall_app. split; [exact G1|].
  apply Forall_app. split; [|apply Forall_app; split; [repeat constructor|exact (IH rest G3)]]. apply join_sep_E; [repeat constructor|]. constructor; [constructor|]. destruct c as [c|]; [constructor; [exact (HB c eq_refl)|exact G2]|exact G2].
Qed.
Lemma inp_preprocess_E s : allc not_E s -> allc not_E (inp_preprocess s).
Proof.
  intros H. unfold inp_preprocess. cbv zeta. apply strip_allc. repeat (apply const_E; [repeat constructor|]). apply join_lines_E, pieces_E. apply const_E; [repeat constructor|].
  pose proof (split_keep_E re_vertical (S (length (sub re_emptied (fun _ => [nl; nl]) s))) [] _ [] (const_E re_emptied [nl; nl] s ltac:(repeat constructor) H) ltac:(constructor)) as F. fold (split_keep re_vertical (sub re_emptied (fun _ => [nl; nl]) s)) in F.
  induction F as [|w l HW F IH]; [constructor|]. cbn [map concat]. apply Forall_app. split; [apply untable_E, HW|exact IH].
Qed.

(** ** Files *)
Lemma imp_small v : is_imp (small v) = is_imp v.
Proof. destruct v as [i|r|t|n|z|t|y|y|k t|l|c l|l|z|t]; try reflexivity. destruct y; reflexivity. Qed.
Lemma no_imp_small c : no_imp (small_card c) = no_imp c.
Proof.
  destruct c as [c|o|c|t|k o]; try reflexivity. cbn [small_card no_imp small_cell ce_options]. destruct (ce_options c) as [v|]; [|reflexivity]. destruct v as [i|r|t|n|z|t|y|y|k t|l|k l|l|z|t]; try reflexivity; [destruct y; reflexivity|].
  cbn [option_map small]. f_equal. induction l as [|v l IH]; [reflexivity|]. cbn [map existsb]. now rewrite imp_small, IH.
Qed.
Lemma inp_new_small t a b d m o : inp_new (slower t) (map small_remarked a) (map small_remarked b) (map small_remarked d) (option_map slower m) (option_map slower o) = rmap small_inp (inp_new t a b d m o).
Proof.
  unfold inp_new. rewrite slower_length. destruct (negb _); [reflexivity|].
  replace (forallb (fun c => no_imp (fst c)) (map small_remarked a)) with (forallb (fun c => no_imp (fst c)) a); [destruct (forallb (fun c => no_imp (fst c)) a); reflexivity|].
  induction a as [|x a IH]; [reflexivity|]. cbn [map forallb small_remarked fst]. now rewrite no_imp_small, IH.
Qed.
Lemma lines_E s : allc not_E s -> Forall (allc not_E) (card_lines s).
Proof. intros H. apply pieces_E, strip_allc, H. Qed.
Lemma file_with (rc rs rd : str -> result remarked) s b : cut_blocks (inp_preprocess s) = Some b -> 
  (forall l, In l (b_cells b) -> rc (slower l) = rmap small_remarked (rc l)) -> (forall l, In l (b_surfaces b) -> rs (slower l) = rmap small_remarked (rs l)) -> (forall l, In l (b_data b) -> rd (slower l) = rmap small_remarked (rd l)) ->
  inp_from_mcnp rc rs rd (slower s) = rmap small_inp (inp_from_mcnp rc rs rd s).
Proof.
  intros C HC HS HD. unfold inp_from_mcnp. rewrite blocks_low, C. cbn [option_map small_blocks b_message b_title b_cells b_surfaces b_data b_other].
  refine (then_eq _ _ _ _ _ _ (mapM_eq rc rc slower small_remarked _ HC) _). intros a _. refine (then_eq _ _ _ _ _ _ (mapM_eq rs rs slower small_remarked _ HS) _). intros u _.
  refine (then_eq _ _ _ _ _ _ (mapM_eq rd rd slower small_remarked _ HD) _). intros d _. apply inp_new_small.
Qed.
Lemma cut_E s b : allc not_E s -> cut_blocks s = Some b -> Forall (allc not_E) (b_cells b) /\ Forall (allc not_E) (b_surfaces b) /\ Forall (allc not_E) (b_data b).
Proof.
  intros N. unfold cut_blocks. destruct (re_match re_file s) as [o|] eqn:M; [|discriminate]. intros [= <-]. cbn [b_cells b_surfaces b_data].
  split; [|split]; apply lines_E; exact (grp_allc not_E _ _ _ _ _ M N).
Qed.
Lemma to_outcome {A} (f : A -> A) (r r' : result A) : r' = rmap f r -> r' = outcome f r.
Proof. intros ->. destruct r; reflexivity. Qed.
Lemma file_eq s b : ~ In "E"%char s -> cut_blocks (inp_preprocess s) = Some b -> (forall l c, In l (b_data b) -> In c [k_F_1; k_F_2; k_Totnu] -> ~ fits c l) ->
  read_inp (slower s) = outcome small_inp (read_inp s).
Proof.
  intros N C U. apply no_E in N. destruct (cut_E _ _ (inp_preprocess_E s N) C) as (NC & NS & ND). rewrite Forall_forall in NC, NS, ND. unfold read_inp.
  apply to_outcome. exact (file_with read_cell_card read_surface_card read_data_card s b C (fun l I => cell_card_eq l (NC l I)) (fun l I => surface_card_eq l (NS l I)) (fun l I => data_card_eq l (ND l I) (fun c => U l c I))).
Qed.
Lemma outcome_eq {A} (f : A -> A) (r r' q : result A) : q = outcome f r -> q = outcome f r' -> outcome f r = outcome f r'.
Proof. intros -> E. exact E. Qed.
Lemma exact_card c s : In c classes -> ~ In (c_name c) raw_words -> ~ In "E"%char s -> card_from_mcnp ext fam c (slower s) = outcome (fun x => (small_obj (fst x), map slower (snd x))) (card_from_mcnp ext fam c s).
Proof. intros I N NE. apply to_outcome. exact (card_eq ext fam library_low library_eq c s (class_even c I N) (no_E s NE)). Qed.
Lemma exact_option n s : ~ In "E"%char s -> family_from_mcnp ext fam (fam n) (slower s) = outcome (fun x => (fst x, small_obj (snd x))) (family_from_mcnp ext fam (fam n) s).
Proof. intros NE. apply to_outcome. exact (family_eq ext fam library_low library_eq (fam n) s (fam_even n) (no_E s NE)). Qed.
Lemma exact_cell s : ~ In "E"%char s -> read_cell_card (slower s) = outcome small_remarked (read_cell_card s).
Proof. intros NE. apply to_outcome. exact (cell_card_eq s (no_E s NE)). Qed.
Lemma exact_surface s : ~ In "E"%char s -> read_surface_card (slower s) = outcome small_remarked (read_surface_card s).
Proof. intros NE. apply to_outcome. exact (surface_card_eq s (no_E s NE)). Qed.
Lemma exact_data s : ~ In "E"%char s -> (forall c, In c [k_F_1; k_F_2; k_Totnu] -> ~ fits c s) -> read_data_card (slower s) = outcome small_remarked (read_data_card s).
Proof. intros NE U. apply to_outcome. exact (data_card_eq s (no_E s NE) U). Qed.
Lemma pair_fst {A B} (x : A * B) a b : x = (a, b) -> fst x = a.
Proof. intros ->. reflexivity. Qed.
Lemma prepared_same (f : str -> str) s t : (forall s, f (slower s) = slower (f s)) -> same_letters s t -> same_letters (f t) (f s).
Proof. unfold same_letters. intros H E. now rewrite <- !H, E. Qed.
Lemma fits_same c s t : same_letters s t -> fits c s -> fits c t.
Proof.
  intros E H Q. apply H. pose proof (prepared_same (fun s => fst (card_preprocess s)) s t (fun s => pair_fst _ _ _ (card_preprocess_low s)) E) as A. cbv beta in A.
  exact (proj1 (pattern_same (c_pat c) _ _ A) Q).
Qed.
Lemma same_outcome {A B} (f : A -> A) (rd : B -> result A) (sm : B -> B) s t : sm s = sm t -> rd (sm s) = outcome f (rd s) -> rd (sm t) = outcome f (rd t) -> outcome f (rd s) = outcome f (rd t).
Proof. intros E H H'. rewrite <- H, <- H', E. reflexivity. Qed.
Lemma two_cards c s t : In c classes -> ~ In (c_name c) raw_words -> ~ In "E"%char s -> ~ In "E"%char t -> same_letters s t ->
  outcome (fun x => (small_obj (fst x), map slower (snd x))) (card_from_mcnp ext fam c s) = outcome (fun x => (small_obj (fst x), map slower (snd x))) (card_from_mcnp ext fam c t).
Proof. intros I N NS NT E. exact (same_outcome _ (card_from_mcnp ext fam c) slower s t E (exact_card c s I N NS) (exact_card c t I N NT)). Qed.
Lemma two_options n s t : ~ In "E"%char s -> ~ In "E"%char t -> same_letters s t ->
  outcome (fun x => (fst x, small_obj (snd x))) (family_from_mcnp ext fam (fam n) s) = outcome (fun x => (fst x, small_obj (snd x))) (family_from_mcnp ext fam (fam n) t).
Proof. intros NS NT E. exact (same_outcome _ (family_from_mcnp ext fam (fam n)) slower s t E (exact_option n s NS) (exact_option n t NT)). Qed.
Lemma two_cells s t : ~ In "E"%char s -> ~ In "E"%char t -> same_letters s t -> outcome small_remarked (read_cell_card s) = outcome small_remarked (read_cell_card t).
Proof. intros NS NT E. exact (same_outcome _ read_cell_card slower s t E (exact_cell s NS) (exact_cell t NT)). Qed.
Lemma two_surfaces s t : ~ In "E"%char s -> ~ In "E"%char t -> same_letters s t -> outcome small_remarked (read_surface_card s) = outcome small_remarked (read_surface_card t).
Proof. intros NS NT E. exact (same_outcome _ read_surface_card slower s t E (exact_surface s NS) (exact_surface t NT)). Qed.
Lemma two_data s t : ~ In "E"%char s -> ~ In "E"%char t -> same_letters s t -> (forall c, In c [k_F_1; k_F_2; k_Totnu] -> ~ fits c s) ->
  outcome small_remarked (read_data_card s) = outcome small_remarked (read_data_card t).
Proof.
  intros NS NT E U. refine (same_outcome _ read_data_card slower s t E (exact_data s NS U) (exact_data t NT _)). intros c I F. exact (U c I (fits_same c t s (eq_sym E) F)).
Qed.
Lemma two_blocks s t : same_letters s t -> option_map small_blocks (cut_blocks (inp_preprocess s)) = option_map small_blocks (cut_blocks (inp_preprocess t)).
Proof. intros E. rewrite <- !blocks_low. now rewrite (E : slower s = slower t). Qed.
Lemma two_files s t b : ~ In "E"%char s -> ~ In "E"%char t -> same_letters s t -> cut_blocks (inp_preprocess s) = Some b ->
  (forall l c, In l (b_data b) -> In c [k_F_1; k_F_2; k_Totnu] -> ~ fits c l) -> outcome small_inp (read_inp s) = outcome small_inp (read_inp t).
Proof.
  intros NS NT E C U. pose proof (two_blocks s t E) as Q. rewrite C in Q. destruct (cut_blocks (inp_preprocess t)) as [b'|] eqn:C'; [|discriminate Q]. apply some_inj in Q. apply (f_equal b_data) in Q. cbn [small_blocks b_data] in Q.
  refine (same_outcome _ read_inp slower s t E (file_eq s b NS C U) (file_eq t b' NT C' _)). intros l' c I J F.
  pose proof (in_map slower _ _ I) as M. rewrite <- Q in M. apply in_map_iff in M as (l & EL & M). exact (U l c M J (fits_same c l' l (eq_sym EL) F)).
Qed.
Definition two_spellings : str * str :=
  (L "A title" ++ [nl] ++ L "1 0 -1 IMP:N=1 $ Inside" ++ [nl; nl] ++ L "1 SO 5" ++ [nl; nl] ++ L "ARea 1 2J 3" ++ [nl],
   L "a TITLe" ++ [nl] ++ L "1 0 -1 imp:n=1 $ inside" ++ [nl; nl] ++ L "1 So 5" ++ [nl; nl] ++ L "area 1 2j 3" ++ [nl]).
Lemma file_case : exists s t b x, ~ In "E"%char s /\ ~ In "E"%char t /\ s <> t /\ same_letters s t /\ cut_blocks (inp_preprocess s) = Some b /\
  (forall l c, In l (b_data b) -> In c [k_F_1; k_F_2; k_Totnu] -> ~ fits c l) /\ read_inp s = Ok x /\ small_inp x <> x.
Proof.
  exists (fst two_spellings), (snd two_spellings). eexists. eexists. split; [vm_compute; intuition discriminate|]. split; [vm_compute; intuition discriminate|]. split; [discriminate|]. split; [vm_compute; reflexivity|].
  split; [vm_compute; reflexivity|]. split.
  - cbn [b_data]. intros l c [<-|[]] [<-|[<-|[<-|[]]]] H; apply H; vm_compute; reflexivity.
  - split; [vm_compute; reflexivity|]. vm_compute. discriminate.
Qed.
Lemma words_file : forall x, In x [(L "totnu no", L "totnu NO"); (L "f5:p 1 2 3 4 nd", L "f5:p 1 2 3 4 ND")] ->
  same_letters (fst x) (snd x) /\ (exists y, read_data_card (fst x) = Ok y) /\ read_data_card (snd x) = Lib TypesError.
Proof. intros x [<-|[<-|[]]]; (split; [reflexivity|]); (split; [eexists|]; vm_compute; reflexivity). Qed.
