(** Lemmas about reading in small letters: cards whose texts have no capital E are read in both spellings or in none. *)

From Coq Require Import Ascii String NArith ZArith Bool Arith List Lia.
From Verif Require Import PyStr Regex RegexParse RegexFacts RegexLang PyNum PyNumFacts Types TypesFacts2 CardText Cards CaseSpec Calm CalmFacts CalmFacts2 CalmFacts3 Tables PiecesSpec CaseFacts CaseFacts2 CaseFacts3 CaseFacts4 CaseFacts5 CaseFacts6.
From Verif Require CardsFacts2 CardTextFacts6.
Import ListNotations.

(** ** The text layer *)
Lemma const_E r t s : allc not_E t -> allc not_E s -> allc not_E (sub r (fun _ => t) s).
Proof. intros HT HS. apply (CardTextFacts6.sub_pres (fun c => not_E c = true)); [intros _ _; exact HT|exact HS]. Qed.
Lemma digits_E s : digits s -> allc not_E s.
Proof. intros H. eapply Forall_impl; [|exact H]. intros c Hc. pose proof (all_ascii (fun c => implb (is_digit c) (not_E c)) eq_refl c) as Q. cbv beta in Q. now rewrite Hc in Q. Qed.
Lemma tidy_E s : allc not_E s -> allc not_E (tidy s).
Proof. intros H. unfold tidy. cbv zeta. apply strip_allc. repeat (apply const_E; [repeat constructor|]). exact H. Qed.
Lemma shorten_E pat name s : allc not_E (L name) -> allc not_E s -> allc not_E (shorten pat name s).
Proof.
  intros HN HS. unfold shorten. apply (CardTextFacts6.sub_pres (fun c => not_E c = true)); [|exact HS]. intros o G.
  apply Forall_app. split; [repeat constructor|]. apply Forall_app. split; [apply digits_E, str_of_N_digits|]. apply Forall_app. split; [exact HN|apply G].
Qed.
Lemma compress_E s : allc not_E s -> allc not_E (compress s).
Proof. intros H. unfold compress. cbv zeta. repeat (apply shorten_E; [repeat constructor|]). exact H. Qed.
Lemma lengthen_E pat name s : allc not_E (L name) -> allc not_E s -> allc not_E (lengthen pat name s).
Proof.
  intros HN HS. unfold lengthen. apply (CardTextFacts6.sub_pres (fun c => not_E c = true)); [|exact HS]. intros o G. apply Forall_app. split; [|apply G].
  generalize (N.to_nat (N_of_digits (grp 1 o))). induction n as [|n IH]; [constructor|]. cbn [srepeat]. apply Forall_app. split; [|exact IH]. constructor; [reflexivity|exact HN].
Qed.
Lemma expand_E s : allc not_E s -> allc not_E (expand s).
Proof. intros H. unfold expand. cbv zeta. repeat (apply lengthen_E; [repeat constructor|]). exact H. Qed.
Lemma preprocess_E s : allc not_E s -> allc not_E (preprocess s).
Proof. intros H. unfold preprocess. apply expand_E, compress_E, tidy_E, H. Qed.
Lemma split1_E d s : allc not_E s -> allc not_E (fst (split1 d s)).
Proof.
  induction 1 as [|c s H _ IH]; [constructor|]. cbn [split1]. destruct (ceqb c d); [constructor|]. destruct (split1 d s) as [a b]. cbn [fst] in *. constructor; assumption.
Qed.
Lemma join_E l : Forall (allc not_E) l -> allc not_E (join [nl] l).
Proof.
  induction 1 as [|w l H F IH]; [constructor|]. destruct l as [|v l]; [exact H|]. cbn [join]. apply Forall_app. split; [exact H|]. apply Forall_app. split; [repeat constructor|exact IH].
Qed.
Lemma card_preprocess_E s : allc not_E s -> allc not_E (fst (card_preprocess s)).
Proof.
  intros H. unfold card_preprocess, split_comments. cbn [fst]. apply preprocess_E, join_E. rewrite map_map. apply Forall_forall. intros w I. apply in_map_iff in I as (u & <- & I).
  apply split1_E. apply CardTextFacts6.split_on_pieces in I as [_ Q]. unfold allc in *. rewrite Forall_forall in *. auto.
Qed.

(** ** Objects *)
Definition evenc (c : cls) : bool := forallb (fun a => forallb evenb (a_checks a)) (c_attrs c).
Section Up.
  Variables (ext : string -> str -> result val) (fam : string -> list cls).
  Hypothesis HE : forall n s, down small (ext n s) (ext n (slower s)).
  Hypothesis HU : forall n s, allc not_E s -> up (ext n s) (ext n (slower s)).
  Lemma up_bind {A} (w : A -> val) (r r' : result A) : up r r' -> up (bind r (fun x => Ok (w x))) (bind r' (fun x => Ok (w x))).
  Proof. intros U y H. destruct r' as [x| |]; cbn [bind] in H; try discriminate H. destruct (U x eq_refl) as [z ->]. cbn [bind]. eauto. Qed.
  Lemma up_same {A} (r r' : result A) : r' = r -> up r r'.
  Proof. intros -> y H. eauto. Qed.
  Lemma read_ty_up t s : allc not_E s -> up (read_ty ext t s) (read_ty ext t (slower s)).
  Proof.
    intros N. destruct t; cbn [read_ty].
    - exact (up_bind VInt _ _ (up_same _ _ (integer_same s (not_E_head s N)))).
    - exact (up_bind VReal _ _ (up_same _ _ (real_same s (not_E_head s N)))).
    - intros v H. eexists. reflexivity.
    - exact (up_bind VDist _ _ (distribution_up s)).
    - exact (up_bind VZaid _ _ (zaid_up s)).
    - exact (up_bind VDesig _ _ (designator_up s)).
    - exact (up_bind VSub _ _ (substance_up s N)).
    - exact (up_bind VIndex _ _ (index_up s N)).
    - exact (up_bind (VTr k) _ _ (transf_up k s N)).
    - exact (up_bind VLat _ _ (lattice_up s)).
    - exact (HU _ _ N).
  Qed.
  Lemma read_aty_up a s : allc not_E s -> up (read_aty ext a s) (read_aty ext a (slower s)).
  Proof.
    intros N. destruct a as [t|t]; cbn [read_aty]; [exact (read_ty_up t s N)|]. intros v H. unfold tuple_from_mcnp in *.
    rewrite (finditer_low _ s (caseless_compile _)) in H.
    destruct (mapM (fun o => read_ty ext t (mtext o)) (map low_mobj (finditer (compile true (slice 2 2 (pat_of t))) s))) as [l| |] eqn:E; cbn [bind] in H; try discriminate H.
    assert (Q : exists zs, mapM (fun o => read_ty ext t (mtext o)) (finditer (compile true (slice 2 2 (pat_of t))) s) = Ok zs).
    { refine (mapM_up (fun o => read_ty ext t (mtext o)) (fun o => read_ty ext t (mtext o)) low_mobj _ _ l E). intros o I y Y.
      exact (read_ty_up t (mtext o) (proj2 (finditer_V _ not_E s o N I)) y Y). }
    destruct Q as [zs ->]. cbn [bind]. eauto.
  Qed.
  Lemma truthy_allc P g s : truthy g = Some s -> (forall t, g = Some t -> allc P t) -> allc P s.
  Proof. intros T H. destruct g as [t|]; [|discriminate T]. destruct t as [|c t]; [discriminate T|]. injection T as <-. exact (H _ eq_refl). Qed.
  Lemma read_attr_up t g : (forall u, g = Some u -> allc not_E u) -> up (read_attr ext t g) (read_attr ext t (option_map slower g)).
  Proof.
    intros N v H. unfold read_attr in *. rewrite truthy_low in H. destruct (truthy g) as [s|] eqn:T; cbn [option_map] in H; [|eauto]. rewrite strip_low in H.
    destruct (read_aty ext t (slower (strip s))) as [w| |] eqn:E; cbn [bind] in H; try discriminate H.
    destruct (read_aty_up t (strip s) (strip_allc _ _ (truthy_allc _ _ _ T N)) w E) as [z ->]. cbn [bind]. eauto.
  Qed.
  Lemma read_attrs_up l m : (forall i u, group i m = Some u -> allc not_E u) -> forall i, up (read_attrs ext i l m) (read_attrs ext i l (low_mobj m)).
  Proof.
    intros N. induction l as [|a l IH]; intros i vs H; cbn [read_attrs] in *; [eauto|]. rewrite group_low in H.
    destruct (read_attr ext (a_ty a) (option_map slower (group i m))) as [v| |] eqn:E; cbn [bind] in H; try discriminate H.
    destruct (read_attrs ext (S i) l (low_mobj m)) as [ws| |] eqn:E2; cbn [bind] in H; try discriminate H.
    destruct (read_attr_up _ _ (N i) v E) as [z ->]. destruct (IH _ _ E2) as [zs ->]. cbn [bind]. eauto.
  Qed.
  Lemma conv_read t g v : read_attr ext t g = Ok v -> exists y, conv ext fam t (to_arg v) = Ok y.
  Proof.
    unfold read_attr. destruct (truthy g) as [s|]; [|intros [= <-]; destruct t; cbn; eauto]. destruct (read_aty ext t (strip s)) as [w| |] eqn:E; cbn [bind]; try discriminate. intros [= <-].
    destruct t as [t|t]; [cbn; eauto|]. cbn [read_aty] in E. destruct (tuple_from_mcnp (pat_of t) (read_ty ext t) (strip s)) as [l| |]; cbn [bind] in E; try discriminate E. injection E as <-.
    cbn [to_arg conv items]. assert (Q : exists vs, mapM (conv_item ext fam t) (map AVal l) = Ok vs).
    { clear. induction l as [|v l [vs IH]]; cbn [map mapM conv_item bind]; [eauto|]. rewrite IH. cbn [bind]. eauto. }
    destruct Q as [vs ->]. cbn [bind]. eauto.
  Qed.
  Lemma attrs_conv l m : forall i vs, read_attrs ext i l m = Ok vs -> Forall (fun x => exists y, conv ext fam (a_ty (fst x)) (to_arg (snd x)) = Ok y) (combine l vs).
  Proof.
    induction l as [|a l IH]; intros i vs H; cbn [read_attrs] in H; [constructor|].
    destruct (read_attr ext (a_ty a) (group i m)) as [v| |] eqn:E; cbn [bind] in H; try discriminate H. destruct (read_attrs ext (S i) l m) as [ws| |] eqn:E2; cbn [bind] in H; try discriminate H.
    injection H as <-. cbn [combine]. constructor; [exact (conv_read _ _ _ E)|exact (IH _ _ E2)].
  Qed.
  Lemma init_up l : Forall (fun x : attr * option val => exists y, conv ext fam (a_ty (fst x)) (to_arg (snd x)) = Ok y) l -> forallb (fun a => forallb evenb (a_checks (fst a))) l = true ->
    forall o r, init_attrs ext fam (map (fun x => (fst x, to_arg (option_map small (snd x)))) l) (small_obj o) = Ok r ->
    exists q, init_attrs ext fam (map (fun x => (fst x, to_arg (snd x))) l) o = Ok q.
  Proof.
    induction 1 as [|[a v] l [y HY] F IH]; intros K o r H; cbn [map init_attrs fst snd] in *; [eauto|]. cbn [forallb fst] in K. apply andb_prop in K as [K KL].
    unfold set_attr in *. rewrite HY. rewrite (conv_low ext fam HE _ _ _ HY) in H. rewrite (checks_even o y _ K) in H. destruct (run_checks o y (a_checks a)) as [u| |]; try discriminate H.
    rewrite <- upd_low in H. exact (IH KL _ _ H).
  Qed.
  Lemma read_cls_up c m : evenc c = true -> (forall i u, group i m = Some u -> allc not_E u) -> up (read_cls ext fam c m) (read_cls ext fam c (low_mobj m)).
  Proof.
    intros K N r H. unfold read_cls in *. destruct (read_attrs ext 1 (c_attrs c) (low_mobj m)) as [vs'| |] eqn:E'; cbn [bind] in H; try discriminate H.
    destruct (read_attrs_up (c_attrs c) m N 1 vs' E') as [vs E]. rewrite (read_attrs_low ext HE _ _ _ _ E) in E'. injection E' as <-. rewrite E. cbn [bind]. unfold construct in *.
    assert (G : forall g : option val -> arg, combine (c_attrs c) (map g vs) = map (fun x => (fst x, g (snd x))) (combine (c_attrs c) vs)).
    { clear. intros g. generalize (c_attrs c). induction vs as [|v vs IH]; intros [|a l]; cbn [map combine fst snd]; try reflexivity. now rewrite IH. }
    rewrite map_map, (G (fun v => to_arg (option_map small v))) in H. rewrite G. refine (init_up _ (attrs_conv _ _ _ _ E) _ [] r H).
    apply forallb_forall. intros [a v] I. apply in_combine_l in I. unfold evenc in K. rewrite forallb_forall in K. exact (K a I).
  Qed.
  Lemma card_up c s : evenc c = true -> allc not_E s -> up (card_from_mcnp ext fam c s) (card_from_mcnp ext fam c (slower s)).
  Proof.
    intros K N r H. unfold card_from_mcnp in *. rewrite card_preprocess_low in H. pose proof (card_preprocess_E s N) as NP. destruct (card_preprocess s) as [t cm]. cbn [fst snd] in *.
    rewrite (re_match_low _ t (caseless_compile _)) in H. destruct (re_match (compile true (c_pat c)) t) as [m|] eqn:M; [|discriminate H]. cbn [option_map] in H.
    destruct (read_cls ext fam c (low_mobj m)) as [o| |] eqn:E; cbn [bind] in H; try discriminate H.
    destruct (read_cls_up c m K (fun i u => group_allc not_E _ _ _ _ i u M NP) o E) as [q ->]. cbn [bind]. eauto.
  Qed.
  Lemma family_up cs s : (forall c, In c cs -> evenc c = true) -> allc not_E s -> up (family_from_mcnp ext fam cs s) (family_from_mcnp ext fam cs (slower s)).
  Proof.
    intros K N r H. unfold family_from_mcnp in *. cbv zeta in *. rewrite preprocess_low, first_match_low in H. destruct (first_match cs (preprocess s)) as [[c m]|] eqn:EF; [|discriminate H]. cbn [option_map fst snd] in H.
    destruct (read_cls ext fam c (low_mobj m)) as [o| |] eqn:E; cbn [bind] in H; try discriminate H.
    assert (M : re_match (compile true (c_pat c)) (preprocess s) = Some m).
    { clear - EF. induction cs as [|d cs IH]; [discriminate EF|]. cbn [first_match] in EF. destruct (re_match (compile true (c_pat d)) (preprocess s)) as [x|] eqn:E; [|exact (IH EF)].
      destruct (seqb (mtext x) (preprocess s)); [|exact (IH EF)]. injection EF as <- <-. exact E. }
    destruct (read_cls_up c m (K c (first_match_in _ _ _ _ EF)) (fun i u => group_allc not_E _ _ _ _ i u M (preprocess_E s N)) o E) as [q ->]. cbn [bind]. eauto.
  Qed.
End Up.
Lemma ext_up fam n : (forall k c, In c (fam k) -> kept c = true) -> (forall k c, In c (fam k) -> evenc c = true) -> forall name s, allc not_E s -> up (ext_of fam n name s) (ext_of fam n name (slower s)).
Proof.
  intros K K2. induction n as [|n IH]; intros name s N v H; [discriminate H|]. cbn [ext_of] in *.
  destruct (family_from_mcnp (ext_of fam n) fam (fam name) (slower s)) as [x| |] eqn:E; cbn [bind] in H; try discriminate H.
  destruct (family_up (ext_of fam n) fam (ext_low fam n K) IH (fam name) s (K2 name) N x E) as [q ->]. cbn [bind]. eauto.
Qed.

(** ** All classes *)
Definition raw_words : list string := ["F_1"; "F_2"; "Totnu"]%string.
Lemma all_even : map c_name (filter (fun c => negb (evenc c)) classes) = raw_words.
Proof. vm_compute. reflexivity. Qed.
Lemma families_even : forallb (fun x => forallb evenc (snd x)) families = true.
Proof. vm_compute. reflexivity. Qed.
Lemma class_even c : In c classes -> ~ In (c_name c) raw_words -> evenc c = true.
Proof.
  intros I N. destruct (evenc c) eqn:E; [reflexivity|]. exfalso. apply N. rewrite <- all_even. apply in_map. apply filter_In. split; [exact I|]. now rewrite E.
Qed.
Lemma fam_even n c : In c (fam n) -> evenc c = true.
Proof.
  unfold fam. destruct (assoc n families) as [l|] eqn:E; [|intros []]. apply assoc_some in E. intros I.
  pose proof (proj1 (forallb_forall _ families) families_even (n, l) E) as Q. exact (proj1 (forallb_forall evenc l) Q c I).
Qed.
Lemma library_up name s : allc not_E s -> up (ext name s) (ext name (slower s)).
Proof. exact (ext_up fam 4 fam_kept fam_even name s). Qed.
Lemma no_E s : ~ In "E"%char s -> allc not_E s.
Proof. intros N. apply Forall_forall. intros c I. unfold not_E. destruct (Ascii.eqb_spec c "E") as [->|D]; [now elim N|]. unfold ceqb. apply Bool.negb_true_iff, Ascii.eqb_neq. exact D. Qed.
Lemma card_both c s t o cm : In c classes -> ~ In (c_name c) raw_words -> ~ In "E"%char t -> same_letters s t -> card_from_mcnp ext fam c s = Ok (o, cm) ->
  exists o' cm', card_from_mcnp ext fam c t = Ok (o', cm') /\ small_obj o = small_obj o' /\ map slower cm = map slower cm'.
Proof.
  intros I N NT E H. pose proof (card_small c s o cm I H) as Q. rewrite (E : slower s = slower t) in Q.
  destruct (card_up ext fam library_low library_up c t (class_even c I N) (no_E t NT) _ Q) as [[o' cm'] H']. exists o', cm'. split; [exact H'|]. exact (card_same c s t o cm o' cm' I E H H').
Qed.
Lemma option_both n s t c o : ~ In "E"%char t -> same_letters s t -> family_from_mcnp ext fam (fam n) s = Ok (c, o) ->
  exists o', family_from_mcnp ext fam (fam n) t = Ok (c, o') /\ small_obj o = small_obj o'.
Proof.
  intros NT E H. pose proof (option_small n s c o H) as Q. rewrite (E : slower s = slower t) in Q.
  destruct (family_up ext fam library_low library_up (fam n) t (fam_even n) (no_E t NT) _ Q) as [[c' o'] H']. destruct (option_same n s t c o c' o' E H H') as [<- EO]. exists o'. split; [exact H'|exact EO].
Qed.
Lemma not_headed s : (forall u, s <> "E"%char :: u) -> head_E s = false.
Proof. intros H. destruct s as [|c s]; [reflexivity|]. unfold head_E, ceqb. destruct (Ascii.eqb_spec c "E") as [->|D]; [now elim (H s)|reflexivity]. Qed.
Lemma numbers_both s t : (forall u, s <> "E"%char :: u) -> (forall u, t <> "E"%char :: u) -> same_letters s t -> integer_from_mcnp s = integer_from_mcnp t /\ real_from_mcnp s = real_from_mcnp t.
Proof. intros HS HT. exact (numbers_same s t (not_headed s HS) (not_headed t HT)). Qed.
Lemma small_e : integer_from_mcnp (L "e5") = Ok (IVal 100000) /\ real_from_mcnp (L "-1.5D+3") = real_from_mcnp (L "-1.5d+3") /\ real_from_mcnp (L "-1.5E+3") = Ok (RVal (Fin true 15 2)).
Proof. split; [vm_compute; reflexivity|]. split; vm_compute; reflexivity. Qed.
Lemma ring_case : In k_F_2 classes /\ (exists o, card_from_mcnp ext fam k_F_2 (L "f5x:p 1 2 3 nd") = Ok (o, [])) /\ card_from_mcnp ext fam k_F_2 (L "f5x:p 1 2 3 ND") = Lib InpError.
Proof. split; [apply find_class; vm_compute; reflexivity|]. split; [eexists|]; vm_compute; reflexivity. Qed.
Lemma both_case : exists c s t o o' cm cm', In c classes /\ ~ In (c_name c) raw_words /\ ~ In "E"%char t /\ same_letters s t /\ s <> t /\ slower t <> t /\
  card_from_mcnp ext fam c s = Ok (o, cm) /\ card_from_mcnp ext fam c t = Ok (o', cm') /\ o <> o'.
Proof.
  exists k_Sdef, (L "sdef ERG=1.25e1 par=p $ source"), (L "SDeF erg=1.25e1 PAR=P $ source"). do 4 eexists. split; [apply find_class; vm_compute; reflexivity|].
  split; [vm_compute; intros [H|[H|[H|[]]]]; discriminate H|]. split; [vm_compute; intuition discriminate|]. split; [reflexivity|]. split; [discriminate|]. split; [discriminate|].
  split; [vm_compute; reflexivity|]. split; [vm_compute; reflexivity|]. discriminate.
Qed.
