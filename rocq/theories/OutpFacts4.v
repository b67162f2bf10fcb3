(** Facts about the pages of tallies. *)

From Coq Require Import Ascii String NArith Bool Arith List Lia.
From Verif Require Import PyStr Regex RegexParse RegexFacts RegexLang Types TypesFacts3 GeometryFacts3 PtracFacts PtracFacts2 PtracFacts4 MeshtalFacts MeshtalFacts2 OutpTables Outp OutpSpec OutpFacts OutpFacts3.
Import ListNotations.
Open Scope list_scope.
Open Scope nat_scope.

(** * Writing subtallies, and several of them *)

Lemma ljust0 s : ljust 0 s = s. Proof. unfold ljust. cbn [Nat.sub srepeat]. apply app_nil_r. Qed.
Lemma slice10 c s : slice 1 0 (c :: s) = s.
Proof. unfold slice. cbn [skipn]. now rewrite Nat.sub_0_r, firstn_all. Qed.
Lemma cell_write d : subtally_to_mcnp s_Subtally_4 (sub_value d) = cell_of d.
Proof.
  destruct d as [[cell total] ls]. unfold subtally_to_mcnp, cell_of, sub_value. cbn [b_strings b_lines]. rewrite lines_write.
  unfold table_to_mcnp. cbn [t_out t_cut s_table s_Subtally_4 t_Subtally_4 map concat piece_text nth]. rewrite !ljust0. cbn [app nth].
  rewrite slice10. reflexivity.
Qed.
Lemma surface_write d : subtally_to_mcnp s_Subtally_2 (sub_value d) = surface_of d.
Proof.
  destruct d as [[cell total] ls]. unfold subtally_to_mcnp, surface_of, sub_value. cbn [b_strings b_lines]. rewrite lines_write.
  unfold table_to_mcnp. cbn [t_out t_cut s_table s_Subtally_2 t_Subtally_2 map concat piece_text nth]. rewrite !ljust0. cbn [app nth].
  rewrite slice10. reflexivity.
Qed.
Lemma cells_parts ds : Forall sub_ok ds -> parts t_Subtally_4 (concat (map cell_of ds)) = map cell_of ds.
Proof.
  intros F. unfold parts. rewrite re_sub4_inner. apply finditer_cut; [reflexivity|].
  induction F as [|[[c t] ls] ds H F IH]; [exact I|]. cbn [map cut]. split; [discriminate|]. split; [|exact IH].
  destruct H as (H1 & H2 & H3 & H4). intros p. eexists. unfold cell_of at 1 3. rewrite cell_sub. apply det_at; [reflexivity | now apply sub_det].
Qed.
Lemma surfaces_parts ds : Forall sub_ok ds -> parts t_Subtally_2 (concat (map surface_of ds)) = map surface_of ds.
Proof.
  intros F. unfold parts. rewrite re_sub2_inner. apply finditer_cut; [reflexivity|].
  induction F as [|[[c t] ls] ds H F IH]; [exact I|]. cbn [map cut]. split; [discriminate|]. split; [|exact IH].
  destruct H as (H1 & H2 & H3 & H4). intros p. eexists. unfold surface_of at 1 3. rewrite surface_sub. apply det_at; [reflexivity | now apply sub_det].
Qed.
Lemma cells_read ds : Forall sub_ok ds -> mapM (subtally_from_mcnp s_Subtally_4) (map cell_of ds) = Ok (map sub_value ds).
Proof. induction 1 as [|d ds H F IH]; [reflexivity|]. cbn [map mapM]. rewrite (cell_read d H). cbn [bind]. now rewrite IH. Qed.
Lemma surfaces_read ds : Forall sub_ok ds -> mapM (subtally_from_mcnp s_Subtally_2) (map surface_of ds) = Ok (map sub_value ds).
Proof. induction 1 as [|d ds H F IH]; [reflexivity|]. cbn [map mapM]. rewrite (surface_read d H). cbn [bind]. now rewrite IH. Qed.

(** * The patterns of the pages *)

Definition anyg i r := RCat (RGrp i r_any) (RCat nlr r).
Definition spg i r := RCat (RGrp i (RCat (RSet (cs_chr 32)) r_any)) (RCat nlr r).
Definition subs i (s r : re) := RCat (RGrp i (RRep false 1 None s)) (RCat nlr r).
Definition line s r := lits s (RCat nlr r).
Definition r_checks k r :=
  line rule (RCat nlr (lits (L "           results of 10 statistical checks for the estimated answer for the tally fluctuation chart (tfc) bin of tally ")
   (RCat (run 8) (RCat nlr (RCat nlr (line (L " tfc bin     --mean--      ---------relative error---------      ----variance of the variance----      --figure of merit--     -pdf-")
  (line (L " behavior    behavior      value   decrease   decrease rate      value   decrease   decrease rate       value     behavior     slope")
   (RCat nlr (spg k (spg (S k) (spg (S (S k)) (RCat nlr (line rule (RCat nlr (RCat nlr r))))))))))))))).
Definition r_good k :=
   line (L " this tally meets the statistical criteria used to form confidence intervals: check the tally fluctuation chart to verify.") 
   (line (L " the results in other bins associated with this tally may not meet these statistical criteria.") (RCat nlr (line (L " ----- estimated confidence intervals:  -----") (RCat nlr
   (lits (L " estimated asymmetric confidence interval(1,2,3 sigma): ") (anyg k (lits (L " estimated  symmetric confidence interval(1,2,3 sigma): ") (RCat (RGrp (S k) r_any) nlr)))))))).
Definition r_bad k := lits (L " warning.  the tally in the tally fluctuation chart bin did not pass ") (RCat (RGrp k (RCat (RSet cs_dot) (RSet cs_dot))) (lits (L " of the 10 statistical checks.") nlr)).
Definition front r := lits (L "1tally ") (RCat (cell 1 8) (lits (L "        nps = ") (RCat (cell 2 11) (RCat nlr (lits (L "           tally type ") (anyg 3 (lits (L "           particle(s): ") r))))))).
Definition r_t4 := front (anyg 4 (RCat nlr (line (L "           volumes ") (lits (L "                   cell: ") (anyg 5 (lits (L "                         ") (anyg 6 (line [sp] (subs 7 (r_sub false 8 (L " cell  ") (L "      energy   ")) (r_checks 11 (r_good 14))))))))))).
Definition r_t2 := front (anyg 4 (RCat nlr (line (L "           areas   ") (lits (L "                surface: ") (anyg 5 (lits (L "                         ") (anyg 6 (line [sp] (subs 7 (r_sub false 8 (L "      surface:  ") (L "        time   ")) (r_checks 11 (r_good 14))))))))))).
Definition opt8 i r := RCat (RRep false 0 (Some 1) (RGrp i (RCat nlr (RRep false 0 None (RSet cs_dot))))) (RCat nlr r).
Definition r_t8a := front (RCat (RGrp 4 r_any) (opt8 5 (line [sp] (subs 6 (r_sub false 7 (L " cell  ") (L "      energy   ")) (r_checks 10 (r_good 13)))))).
Definition r_t8b := front (RCat (RGrp 4 r_any) (opt8 5 (line [sp] (subs 6 (r_sub false 7 (L " cell  ") (L "      energy   ")) (r_checks 10 (r_bad 13)))))).

Lemma re_t4 : compile false (t_pat t_Tally_4) = whole r_t4. Proof. vm_compute. reflexivity. Qed.
Lemma re_t2 : compile false (t_pat t_Tally_2) = whole r_t2. Proof. vm_compute. reflexivity. Qed.
Lemma re_t8a : compile false (t_pat t_Tally_8A) = whole r_t8a. Proof. vm_compute. reflexivity. Qed.
Lemma re_t8b : compile false (t_pat t_Tally_8B) = whole r_t8b. Proof. vm_compute. reflexivity. Qed.

Lemma det_sp i b u v t d : blank_line u -> det b v t d -> det (spg i b) (u ++ nl :: v) t (d ++ [(i, u)]).
Proof.
  intros (w & -> & O) [B1 B2]. apply one_good in O as [NW AW]. split.
  - apply accc_cat; [apply (accc_grp i _ (sp :: w) []); apply (accc_cat _ _ [sp] w [] []); [now apply accc_set | now apply accc_any]|].
    pose proof (accc_cat _ _ _ _ _ _ (accc_set cs_nl nl eq_refl) B1) as A. rewrite app_nil_r in A. exact A.
  - intros u' t' c' (u1 & u2 & c1 & c2 & (c3 & (v1 & v2 & c6 & c7 & (y & -> & Y & ->) & H2 & -> & ->) & ->) & (u3 & u4 & c4 & c5 & H3 & H4 & -> & ->) & -> & ->) E.
    apply W_any in H2 as (N1 & A1 & ->). apply W_set_nl in H3 as [-> ->]. rewrite <- !app_assoc in E. cbn [app] in E. injection E as <- E.
    apply line_cut' in E as [<- E]; auto. destruct (B2 _ _ _ H4 E) as [-> ->].
    rewrite !app_nil_r. auto.
Qed.
Lemma det_line s b v t d : det b v t d -> det (line s b) (s ++ nl :: v) t d.
Proof. intros D. apply det_lits. now apply det_nl. Qed.

Definition sub_caps (j : nat) (d : sub_data) : capl := let '(w, total, ls) := d in [(S (S j), total); (S j, concat (map line_text ls)); (j, w)].
Definition text_of (w1 w2 : str) (d : sub_data) : str := let '(w, total, ls) := d in sub_text w1 w2 w total ls.
Lemma text_det j w1 w2 d t : sub_ok d -> det (r_sub false j w1 w2) (text_of w1 w2 d) t (sub_caps j d).
Proof. destruct d as [[w total] ls]. intros (H1 & H2 & H3 & H4). now apply sub_det. Qed.
Section Subs.
  Variable A : Type.
  Variable r : re.
  Variable ok : A -> Prop.
  Variable txt : A -> str.
  Variable caps : A -> capl.
  Hypothesis D : forall d t, ok d -> det r (txt d) t (caps d).
  Hypothesis H1 : forall u c, W r u c -> exists y v, u = y :: v /\ y <> nl.
  Hypothesis T1 : forall d, exists y v, txt d = y :: v /\ y <> nl.
  Lemma subs_W : forall (l : list (str * capl)) ds v t t', Forall ok ds -> Forall (fun y => W r (fst y) (snd y)) l ->
    concat (map txt ds) ++ nl :: v ++ t = concat (map fst l) ++ nl :: t' ->
    l = map (fun d => (txt d, caps d)) ds /\ v ++ t = t'.
  Proof.
    induction l as [|[u c] l IH]; intros ds v t t' F G E.
    - destruct ds as [|d ds]; [cbn in E; injection E as E; auto|]. exfalso. inversion F as [|? ? F1 F2]; subst.
      destruct (T1 d) as (y & w & X & NY). cbn [map concat] in E. rewrite X in E. cbn in E. injection E as E _. auto.
    - inversion G as [|? ? G1 G2]; subst. cbn [fst snd] in G1. destruct ds as [|d ds].
      + exfalso. apply H1 in G1 as (y & w & -> & NY). cbn [map concat app fst] in E. injection E as E _. auto.
      + inversion F as [|? ? F1 F2]; subst. cbn [map concat fst] in E. rewrite <- !app_assoc in E.
        destruct (D d (concat (map txt ds) ++ nl :: v ++ t) F1) as [_ D2].
        destruct (D2 _ _ _ G1 E) as [-> ->]. apply app_inv_head in E. destruct (IH ds v t t' F2 G2 E) as [-> ->]. auto.
  Qed.
  Lemma det_subs i b ds v t d : ds <> [] -> Forall ok ds -> det b v t d ->
    det (subs i r b) (concat (map txt ds) ++ nl :: v) t (d ++ (i, concat (map txt ds)) :: concat (rev (map caps ds))).
  Proof.
    intros ND F [B1 B2]. split.
    - apply accc_cat.
      + apply accc_grp. pose proof (accc_rep false 1 None r (map (fun d => (txt d, caps d)) ds)) as X.
        rewrite !map_map in X. cbn [fst snd] in X. apply X; [|rewrite map_length; destruct ds; [congruence | cbn; lia] | exact I].
        apply Forall_map. eapply Forall_impl; [|exact F]. intros d0 H. cbn [fst snd]. destruct (D d0 [] H) as [Y _]. split; [exact Y|].
        destruct (T1 d0) as (y & w & -> & _). discriminate.
      + pose proof (accc_cat _ _ _ _ _ _ (accc_set cs_nl nl eq_refl) B1) as X. rewrite app_nil_r in X. exact X.
    - intros u' t' c' (u1 & u2 & c1 & c2 & (c3 & (l & G & _ & _ & -> & ->) & ->) & (u3 & u4 & c4 & c5 & H3 & H4 & -> & ->) & -> & ->) E.
      apply W_set_nl in H3 as [-> ->]. rewrite <- !app_assoc in E. cbn [app] in E.
      destruct (subs_W l ds v t (u4 ++ t') F G E) as [-> E']. destruct (B2 _ _ _ H4 E') as [-> ->].
      rewrite !map_map. cbn [fst snd]. rewrite app_nil_r. auto.
  Qed.
End Subs.
Lemma wd_first ic x s r u c : x <> nl -> W (wd ic (x :: s) r) u c -> exists y v, u = y :: v /\ y <> nl.
Proof.
  intros N H. rewrite wd_cons in H. destruct H as (u1 & u2 & c1 & c2 & (y & -> & Y & ->) & _ & -> & _). exists y, u2. split; auto.
  assert (X : notnl x = true) by (unfold notnl, ceqb; destruct (Ascii.eqb_spec x nl); auto; congruence).
  intros ->. pose proof (wd_notnl ic x nl X Y) as Z. discriminate Z.
Qed.

(** * The pages *)

Lemma columns_field n s : columns n s -> field n s.
Proof.
  intros [E H]. split; auto. apply Forall_forall. intros x I. unfold notnl, ceqb. destruct (Ascii.eqb_spec x nl) as [->|]; auto.
Qed.
Lemma det_one i b u v t d : one_line u -> det b v t d -> det (anyg i b) (u ++ nl :: v) t (d ++ [(i, u)]).
Proof. intros O. apply one_good in O as [N A]. now apply det_any. Qed.
Lemma det_end i u t : one_line u -> det (RCat (RGrp i r_any) nlr) (u ++ [nl]) t [(i, u)].
Proof. intros O. apply one_good in O as [N A]. now apply det_last. Qed.
Lemma det_two i b u v t d : columns 2 u -> det b v t d -> det (RCat (RGrp i (RCat (RSet cs_dot) (RSet cs_dot))) b) (u ++ v) t (d ++ [(i, u)]).
Proof.
  intros C D. apply columns_field in C as [E A]. destruct u as [|x [|y [|z u]]]; try discriminate. inversion A as [|? ? X A']; inversion A' as [|? ? Y _]; subst.
  apply det_cat; auto. apply (det_grp i _ [x; y] _ []). apply det_cons; [now rewrite dot_notnl|]. apply det_set. now rewrite dot_notnl.
Qed.
Lemma checks_det k b d v t c : tally_ok d -> det b v t c ->
  det (r_checks k b) (tally_checks d ++ v) t (((c ++ [(S (S k), d_passed d)]) ++ [(S k, d_observed d)]) ++ [(k, d_desired d)]).
Proof.
  intros (H1 & H2 & H3 & H4 & H5 & H6 & H7 & H8 & H9 & H10 & H11 & H12) D. unfold r_checks, tally_checks.
  repeat (rewrite <- (@app_assoc ascii) || rewrite <- (@app_comm_cons ascii)).
  apply det_line. apply det_nl. apply det_lits. apply det_run'; [now apply columns_field|]. do 2 apply det_nl. do 2 apply det_line. apply det_nl.
  do 3 (apply det_sp; auto). apply det_nl. apply det_line. now do 2 apply det_nl.
Qed.
Lemma good_det k d t : tally_ok d -> det (r_good k) (tally_good d) t [(S k, d_symmetric d); (k, d_asymmetric d)].
Proof.
  intros (H1 & H2 & H3 & H4 & H5 & H6 & H7 & H8 & H9 & H10 & H11 & H12). unfold r_good, tally_good.
  do 2 apply det_line. apply det_nl. apply det_line. apply det_nl. apply det_lits. apply (det_one k _ _ _ t [(S k, d_symmetric d)]); auto. apply det_lits. now apply det_end.
Qed.
Lemma bad_det k d t : tally_ok d -> det (r_bad k) (tally_bad d) t [(k, d_missed d)].
Proof.
  intros (H1 & H2 & H3 & H4 & H5 & H6 & H7 & H8 & H9 & H10 & H11 & H12). unfold r_bad, tally_bad.
  apply det_lits. apply (det_two k _ _ _ t []); auto. apply det_lits. now apply det_set.
Qed.
Lemma front_det d b w t c : tally_ok d -> det b (d_particles d ++ w) t c ->
  det (front b) (tally_head d ++ w) t (((c ++ [(3, d_type d)]) ++ [(2, d_nps d)]) ++ [(1, d_number d)]).
Proof.
  intros (H1 & H2 & H3 & H4 & H5 & H6 & H7 & H8 & H9 & H10 & H11 & H12) D. unfold front, tally_head.
  repeat (rewrite <- (@app_assoc ascii) || rewrite <- (@app_comm_cons ascii)).
  apply det_lits. apply det_cell'; [now apply columns_field|]. apply det_lits. apply det_cell'; [now apply columns_field|]. apply det_nl. apply det_lits.
  apply det_one; auto. now apply det_lits.
Qed.
(** A line that may or may not be there. *)
Lemma det_message i j b u (ms : option str) v t d : one_line u -> (forall m, ms = Some m -> ~ In nl m /\ m <> [sp]) ->
  (exists y z w, v = y :: z :: w /\ z <> nl) -> det b v t d ->
  det (RCat (RGrp i r_any) (opt8 j (line [sp] b))) (u ++ (match ms with Some m => nl :: m | None => [] end) ++ nl :: sp :: nl :: v) t
      ((d ++ match ms with Some m => [(j, nl :: m)] | None => [] end) ++ [(i, u)]).
Proof.
  intros O HM (y & z & w & EV & NV) D. apply one_good in O as [NU AU]. split.
  - apply accc_cat; [apply (accc_grp i r_any u []); now apply accc_any|].
    assert (A : accc (RCat nlr (line [sp] b)) (nl :: sp :: nl :: v) d) by (apply (det_nl _ _ t), (det_line [sp]), D).
    destruct ms as [m|].
    + apply accc_cat; [|exact A]. apply accc_opt_some; [|discriminate].
      apply (accc_grp j _ (nl :: m) []). apply (accc_cat _ _ [nl] m [] []); [now apply accc_set|]. apply accc_rep_set; cbn; auto; [|lia].
      apply allc_dot. apply Forall_forall. intros x I. unfold notnl, ceqb. destruct (Ascii.eqb_spec x nl) as [->|]; auto. elim (proj1 (HM m eq_refl) I).
    + apply (accc_cat _ _ [] _ [] _); [apply accc_opt_none | exact A].
  - intros u' t' c' (u1 & u2 & c1 & c2 & (c3 & H1 & ->) & (u3 & u4 & c4 & c5 & H3 & H4 & -> & ->) & -> & ->) E.
    apply W_any in H1 as (N1 & A1 & ->).
    assert (HM' : match ms with Some m => allc notnl m | None => True end).
    { destruct ms as [m|]; auto. apply Forall_forall. intros x I. unfold notnl, ceqb. destruct (Ascii.eqb_spec x nl) as [->|]; auto. elim (proj1 (HM m eq_refl) I). }
    destruct H4 as (n1 & n2 & c6 & c7 & Hn & (n3 & n4 & c8 & c9 & (q & -> & Q & ->) & (n5 & n6 & c10 & c11 & Hn2 & H5 & -> & ->) & -> & ->) & -> & ->).
    apply W_set_nl in Hn as [-> ->]. apply W_set_nl in Hn2 as [-> ->].
    assert (Q' : q = sp) by (revert Q; clear; assert (A : forall q, implb (inset (cs_chr (code sp)) q) (ceqb q sp) = true) by (apply all_ascii; vm_compute; reflexivity);
      intros Q; specialize (A q); rewrite Q in A; now apply Ascii.eqb_eq).
    subst q. clear Q.
    assert (O3 : (u3 = [] /\ c4 = []) \/ exists m', allc notnl m' /\ u3 = nl :: m' /\ c4 = [(j, nl :: m')]).
    { destruct H3 as (l & F & _ & LE & -> & ->). cbn in LE. destruct l as [|[a c] [|? ?]]; [left; auto | right | cbn in LE; lia].
      inversion F as [|? ? (c12 & (a1 & a2 & c13 & c14 & X1 & X2 & X3 & ->) & X4) _]; subst. cbn [fst snd] in X3, X4. apply W_set_nl in X1 as [-> ->].
      apply W_rep_set in X2 as (X2 & _ & _ & ->). apply allc_dot in X2. exists a2. cbn [map concat fst snd rev app] in *. subst. rewrite !app_nil_r. auto. }
    repeat (rewrite <- app_assoc in E || rewrite <- app_comm_cons in E).
    assert (FX : forall m s s', allc notnl m -> nl :: m ++ nl :: s = nl :: sp :: nl :: s' -> m = [sp] /\ s = s').
    { intros m s s' AM X. injection X as X. apply (line_cut' m [sp]) in X as [-> ->]; auto. repeat constructor. }
    destruct D as [D1 D2].
    destruct ms as [m|]; destruct O3 as [[-> ->]|(m' & AM & -> & ->)]; cbn [app] in E.
    + apply line_cut' in E as [<- E]; auto. exfalso. apply (f_equal (cons nl)) in E.
      destruct (FX m _ _ HM' E) as [X _]. now apply (proj2 (HM m eq_refl)).
    + apply line_cut' in E as [<- E]; auto. apply line_cut' in E as [<- E]; auto. injection E as E. destruct (D2 _ _ _ H5 E) as [-> ->].
      rewrite !app_nil_r. auto.
    + apply line_cut' in E as [<- E]; auto. injection E as E. destruct (D2 _ _ _ H5 E) as [-> ->]. rewrite !app_nil_r. auto.
    + apply line_cut' in E as [<- E]; auto. exfalso. apply (f_equal (cons nl)) in E. symmetry in E.
      destruct (FX m' _ _ AM E) as [_ X]. rewrite EV in X. cbn [app] in X. injection X as _ X _. now apply NV.
Qed.

Lemma lookup_subs n j ds c : n < j -> lookup n (concat (rev (map (sub_caps j) ds)) ++ c) = lookup n c.
Proof.
  intros L. rewrite <- map_rev. induction (rev ds) as [|[[w total] ls] l IH]; [reflexivity|]. cbn [map concat sub_caps]. rewrite <- app_assoc. cbn [app lookup].
  replace (S (S j) =? n) with false by (symmetry; apply Nat.eqb_neq; lia). replace (S j =? n) with false by (symmetry; apply Nat.eqb_neq; lia).
  replace (j =? n) with false by (symmetry; apply Nat.eqb_neq; lia). exact IH.
Qed.
Lemma cells_text ds : map cell_of ds = map (text_of (L " cell  ") (L "      energy   ")) ds.
Proof. apply map_ext. intros [[w total] ls]. apply cell_sub. Qed.
Lemma surfaces_text ds : map surface_of ds = map (text_of (L "      surface:  ") (L "        time   ")) ds.
Proof. apply map_ext. intros [[w total] ls]. apply surface_sub. Qed.

Definition sized (d : tally_data) : list str :=
  [d_number d; d_nps d; d_type d; d_particles d; d_where d; d_size d; d_desired d; d_observed d; d_passed d; d_asymmetric d; d_symmetric d].
Definition caps_sized (d : tally_data) (txt : str) (ds : list sub_data) : capl :=
  ((((((((([(15, d_symmetric d); (14, d_asymmetric d)] ++ [(13, d_passed d)]) ++ [(12, d_observed d)]) ++ [(11, d_desired d)]) ++
       (7, txt) :: concat (rev (map (sub_caps 8) ds))) ++ [(6, d_size d)]) ++ [(5, d_where d)]) ++ [(4, d_particles d)]) ++ [(3, d_type d)]) ++ [(2, d_nps d)]) ++ [(1, d_number d)].
Lemma t4_det d ds : tally_ok d -> ds <> [] -> Forall sub_ok ds ->
  det r_t4 (tally_text (volumes d) (concat (map cell_of ds)) (tally_good d) d) [] (caps_sized d (concat (map cell_of ds)) ds).
Proof.
  intros O N F. unfold tally_text, r_t4. apply front_det; auto. unfold volumes.
  repeat (rewrite <- (@app_assoc ascii) || rewrite <- (@app_comm_cons ascii)).
  pose proof O as (H1 & H2 & H3 & H4 & H5 & H6 & H7 & H8 & H9 & H10 & H11 & H12).
  apply det_one; auto. apply det_nl. apply det_line. apply det_lits. apply det_one; auto. apply det_lits. apply det_one; auto.
  apply (det_line [sp]). rewrite cells_text. apply (det_subs sub_data _ sub_ok _ (sub_caps _)); auto using text_det; [intros ? ?; now apply wd_first | intros [[w total] ls]; do 2 eexists; split; [reflexivity | discriminate] |]. apply checks_det; auto. now apply good_det.
Qed.
Lemma t2_det d ds : tally_ok d -> ds <> [] -> Forall sub_ok ds ->
  det r_t2 (tally_text (areas d) (concat (map surface_of ds)) (tally_good d) d) [] (caps_sized d (concat (map surface_of ds)) ds).
Proof.
  intros O N F. unfold tally_text, r_t2. apply front_det; auto. unfold areas.
  repeat (rewrite <- (@app_assoc ascii) || rewrite <- (@app_comm_cons ascii)).
  pose proof O as (H1 & H2 & H3 & H4 & H5 & H6 & H7 & H8 & H9 & H10 & H11 & H12).
  apply det_one; auto. apply det_nl. apply det_line. apply det_lits. apply det_one; auto. apply det_lits. apply det_one; auto.
  apply (det_line [sp]). rewrite surfaces_text. apply (det_subs sub_data _ sub_ok _ (sub_caps _)); auto using text_det; [intros ? ?; now apply wd_first | intros [[w total] ls]; do 2 eexists; split; [reflexivity | discriminate] |]. apply checks_det; auto. now apply good_det.
Qed.
Lemma sized_groups d txt ds s : let o := {| mpre := []; mtext := s; mrest := []; mcaps := caps_sized d txt ds |} in
  mapM (fun i => match group i o with Some x => Ok x | None => Lib TypesError end) [1; 2; 3; 4; 5; 6; 11; 12; 13; 14; 15] = Ok (sized d) /\ grp 7 o = txt.
Proof.
  unfold caps_sized. cbn zeta. split; [|unfold grp, group; cbn [mcaps]; repeat (rewrite <- app_assoc || rewrite <- app_comm_cons); reflexivity].
  unfold group. cbn [mapM mcaps]. repeat (rewrite <- app_assoc || rewrite <- app_comm_cons). cbn [app lookup Nat.eqb]. rewrite !lookup_subs by lia. reflexivity.
Qed.
Definition message_caps (ms : option str) : capl := match ms with Some m => [(5, nl :: m)] | None => [] end.
Definition caps8 (e : capl) (d : tally_data) (ms : option str) (txt : str) (ds : list sub_data) : capl :=
  (((((((((e ++ [(12, d_passed d)]) ++ [(11, d_observed d)]) ++ [(10, d_desired d)]) ++
       (6, txt) :: concat (rev (map (sub_caps 7) ds))) ++ message_caps ms) ++ [(4, d_particles d)]) ++ [(3, d_type d)]) ++ [(2, d_nps d)]) ++ [(1, d_number d)]).
Lemma t8_det r e c d ms ds : tally_ok d -> message_ok ms -> ds <> [] -> Forall sub_ok ds -> det r e [] c ->
  det (front (RCat (RGrp 4 r_any) (opt8 5 (line [sp] (subs 6 (r_sub false 7 (L " cell  ") (L "      energy   ")) (r_checks 10 r)))))) (pulse_page d ms ds e) [] (caps8 c d ms (concat (map cell_of ds)) ds).
Proof.
  intros O MS N F D. unfold pulse_page. apply front_det; auto.
  pose proof O as (H1 & H2 & H3 & H4 & H5 & H6 & H7 & H8 & H9 & H10 & H11 & H12).
  apply det_message; auto.
  - destruct ds as [|[[w total] ls] ds]; [congruence|]. do 3 eexists. split; [reflexivity | discriminate].
  - rewrite cells_text. apply (det_subs sub_data _ sub_ok _ (sub_caps _)); auto using text_det; [intros ? ?; now apply wd_first | intros [[w total] ls]; do 2 eexists; split; [reflexivity | discriminate] |]. now apply checks_det.
Qed.

Lemma cells_write ds : concat (map (subtally_to_mcnp s_Subtally_4) (map sub_value ds)) = concat (map cell_of ds).
Proof. rewrite map_map. f_equal. apply map_ext. exact cell_write. Qed.
Lemma surfaces_write ds : concat (map (subtally_to_mcnp s_Subtally_2) (map sub_value ds)) = concat (map surface_of ds).
Proof. rewrite map_map. f_equal. apply map_ext. exact surface_write. Qed.
Lemma tally4_read d ds : tally_ok d -> ds <> [] -> Forall sub_ok ds ->
  tally_from_mcnp y_Tally_4 (tally_text (volumes d) (concat (map cell_of ds)) (tally_good d) d) = Ok {| w_strings := sized d; w_message := None; w_subs := map sub_value ds |}.
Proof.
  intros O N F. unfold tally_from_mcnp. cbn [y_table y_Tally_4 y_group y_sub y_message]. rewrite re_t4, (det_whole r_t4 _ _ eq_refl (t4_det d ds O N F)).
  change (t_groups t_Tally_4) with [1; 2; 3; 4; 5; 6; 11; 12; 13; 14; 15].
  destruct (sized_groups d (concat (map cell_of ds)) ds (tally_text (volumes d) (concat (map cell_of ds)) (tally_good d) d)) as [-> ->]. cbn [bind s_table s_Subtally_4].
  now rewrite cells_parts, cells_read.
Qed.
Lemma tally2_read d ds : tally_ok d -> ds <> [] -> Forall sub_ok ds ->
  tally_from_mcnp y_Tally_2 (tally_text (areas d) (concat (map surface_of ds)) (tally_good d) d) = Ok {| w_strings := sized d; w_message := None; w_subs := map sub_value ds |}.
Proof.
  intros O N F. unfold tally_from_mcnp. cbn [y_table y_Tally_2 y_group y_sub y_message]. rewrite re_t2, (det_whole r_t2 _ _ eq_refl (t2_det d ds O N F)).
  change (t_groups t_Tally_2) with [1; 2; 3; 4; 5; 6; 11; 12; 13; 14; 15].
  destruct (sized_groups d (concat (map surface_of ds)) ds (tally_text (areas d) (concat (map surface_of ds)) (tally_good d) d)) as [-> ->]. cbn [bind s_table s_Subtally_2].
  now rewrite surfaces_parts, surfaces_read.
Qed.
Lemma rule_lit : L " ===================================================================================================================================" = rule. Proof. reflexivity. Qed.
Lemma tally4_write d ds : tally_to_mcnp y_Tally_4 {| w_strings := sized d; w_message := None; w_subs := map sub_value ds |} = tally_text (volumes d) (concat (map cell_of ds)) (tally_good d) d.
Proof.
  unfold tally_to_mcnp. cbn [y_table y_Tally_4 y_message y_sub w_strings w_message w_subs]. rewrite cells_write. try unfold pulse_page. generalize (concat (map cell_of ds)). intros txt.
  unfold table_to_mcnp. cbn [t_out t_cut t_Tally_4 map]. rewrite rule_lit. change (L " ") with [sp]. cbn [piece_text sized app nth]. unfold tally_text, tally_head, volumes, tally_checks, tally_good.
  generalize rule. intros bar. repeat match goal with |- context [L ?s] => generalize (L s); intro end.
  rewrite !ljust0. cbn [concat app]. rewrite slice10.
  repeat (rewrite <- (@app_assoc ascii) || rewrite <- (@app_comm_cons ascii)). cbn [app]. reflexivity.
Qed.
Lemma tally2_write d ds : tally_to_mcnp y_Tally_2 {| w_strings := sized d; w_message := None; w_subs := map sub_value ds |} = tally_text (areas d) (concat (map surface_of ds)) (tally_good d) d.
Proof.
  unfold tally_to_mcnp. cbn [y_table y_Tally_2 y_message y_sub w_strings w_message w_subs]. rewrite surfaces_write. try unfold pulse_page. generalize (concat (map surface_of ds)). intros txt.
  unfold table_to_mcnp. cbn [t_out t_cut t_Tally_2 map]. rewrite rule_lit. change (L " ") with [sp]. cbn [piece_text sized app nth]. unfold tally_text, tally_head, areas, tally_checks, tally_good.
  generalize rule. intros bar. repeat match goal with |- context [L ?s] => generalize (L s); intro end.
  rewrite !ljust0. cbn [concat app]. rewrite slice10.
  repeat (rewrite <- (@app_assoc ascii) || rewrite <- (@app_comm_cons ascii)). cbn [app]. reflexivity.
Qed.
Definition strings8 (d : tally_data) : list str :=
  [d_number d; d_nps d; d_type d; d_particles d; d_desired d; d_observed d; d_passed d].
Definition strings8a (d : tally_data) : list str := strings8 d ++ [d_asymmetric d; d_symmetric d].
Definition strings8b (d : tally_data) : list str := strings8 d ++ [d_missed d].
Lemma groups8a d ms txt ds s : let o := {| mpre := []; mtext := s; mrest := []; mcaps := caps8 [(14, d_symmetric d); (13, d_asymmetric d)] d ms txt ds |} in
  mapM (fun i => match group i o with Some x => Ok x | None => Lib TypesError end) [1; 2; 3; 4; 10; 11; 12; 13; 14] = Ok (strings8a d) /\ grp 6 o = txt /\ group 5 o = option_map (cons nl) ms.
Proof.
  unfold caps8. cbn zeta. repeat split; unfold grp, group; cbn [mapM mcaps]; repeat (rewrite <- app_assoc || rewrite <- app_comm_cons); cbn [app lookup Nat.eqb];
    rewrite ?lookup_subs by lia; destruct ms; reflexivity.
Qed.
Lemma groups8b d ms txt ds s : let o := {| mpre := []; mtext := s; mrest := []; mcaps := caps8 [(13, d_missed d)] d ms txt ds |} in
  mapM (fun i => match group i o with Some x => Ok x | None => Lib TypesError end) [1; 2; 3; 4; 10; 11; 12; 13] = Ok (strings8b d) /\ grp 6 o = txt /\ group 5 o = option_map (cons nl) ms.
Proof.
  unfold caps8. cbn zeta. repeat split; unfold grp, group; cbn [mapM mcaps]; repeat (rewrite <- app_assoc || rewrite <- app_comm_cons); cbn [app lookup Nat.eqb];
    rewrite ?lookup_subs by lia; destruct ms; reflexivity.
Qed.
Lemma tally8a_read d ms ds : tally_ok d -> message_ok ms -> ds <> [] -> Forall sub_ok ds ->
  tally_from_mcnp y_Tally_8A (pulse_page d ms ds (tally_good d)) = Ok {| w_strings := strings8a d; w_message := option_map (cons nl) ms; w_subs := map sub_value ds |}.
Proof.
  intros O MS N F. unfold tally_from_mcnp. cbn [y_table y_Tally_8A y_group y_sub y_message].
  rewrite re_t8a, (det_whole r_t8a _ _ eq_refl (t8_det _ _ _ d ms ds O MS N F (good_det 13 d [] O))).
  change (t_groups t_Tally_8A) with [1; 2; 3; 4; 10; 11; 12; 13; 14].
  destruct (groups8a d ms (concat (map cell_of ds)) ds (pulse_page d ms ds (tally_good d))) as (-> & -> & ->). cbn [bind s_table s_Subtally_4].
  rewrite cells_parts, cells_read by exact F. cbn [bind]. destruct ms; reflexivity.
Qed.
Lemma tally8b_read d ms ds : tally_ok d -> message_ok ms -> ds <> [] -> Forall sub_ok ds ->
  tally_from_mcnp y_Tally_8B (pulse_page d ms ds (tally_bad d)) = Ok {| w_strings := strings8b d; w_message := option_map (cons nl) ms; w_subs := map sub_value ds |}.
Proof.
  intros O MS N F. unfold tally_from_mcnp. cbn [y_table y_Tally_8B y_group y_sub y_message].
  rewrite re_t8b, (det_whole r_t8b _ _ eq_refl (t8_det _ _ _ d ms ds O MS N F (bad_det 13 d [] O))).
  change (t_groups t_Tally_8B) with [1; 2; 3; 4; 10; 11; 12; 13].
  destruct (groups8b d ms (concat (map cell_of ds)) ds (pulse_page d ms ds (tally_bad d))) as (-> & -> & ->). cbn [bind s_table s_Subtally_4].
  rewrite cells_parts, cells_read by exact F. cbn [bind]. destruct ms; reflexivity.
Qed.
Lemma tally8a_write d ds : tally_to_mcnp y_Tally_8A {| w_strings := strings8a d; w_message := None; w_subs := map sub_value ds |} = pulse_page d None ds (tally_good d).
Proof.
  unfold tally_to_mcnp. cbn [y_table y_Tally_8A y_message y_sub w_strings w_message w_subs]. rewrite cells_write. try unfold pulse_page. generalize (concat (map cell_of ds)). intros txt.
  unfold table_to_mcnp. cbn [t_out t_cut t_Tally_8A map]. rewrite rule_lit. change (L " ") with [sp]. cbn [piece_text strings8a strings8 app nth]. unfold message_text, tally_head, tally_checks, tally_good.
  generalize rule. intros bar. repeat match goal with |- context [L ?s] => generalize (L s); intro end.
  rewrite !ljust0. cbn [concat app]. rewrite slice10.
  repeat (rewrite <- (@app_assoc ascii) || rewrite <- (@app_comm_cons ascii)). cbn [app]. reflexivity.
Qed.
Lemma tally8b_write d ds : tally_to_mcnp y_Tally_8B {| w_strings := strings8b d; w_message := None; w_subs := map sub_value ds |} = pulse_page d None ds (tally_bad d).
Proof.
  unfold tally_to_mcnp. cbn [y_table y_Tally_8B y_message y_sub w_strings w_message w_subs]. rewrite cells_write. try unfold pulse_page. generalize (concat (map cell_of ds)). intros txt.
  unfold table_to_mcnp. cbn [t_out t_cut t_Tally_8B map]. rewrite rule_lit. change (L " ") with [sp]. cbn [piece_text strings8b strings8 app nth]. unfold message_text, tally_head, tally_checks, tally_bad.
  generalize rule. intros bar. repeat match goal with |- context [L ?s] => generalize (L s); intro end.
  rewrite !ljust0. cbn [concat app]. rewrite slice10.
  repeat (rewrite <- (@app_assoc ascii) || rewrite <- (@app_comm_cons ascii)). cbn [app]. reflexivity.
Qed.

(** * Tallies of surfaces and angle bins *)

Definition angle_value (d : angle_data) : subtally :=
  let '(surface, from, to, total, ls) := d in {| b_strings := [surface; from; to; total]; b_lines := map line_fields ls |}.
Definition angle_cap (j : nat) (d : angle_data) : capl := let '(surface, from, to, total, ls) := d in angle_caps j surface from to total ls.
Lemma angle_det ic j d t : angle_ok d -> det (r_angle ic j) (angle_of d) t (angle_cap j d).
Proof.
  destruct d as [[[[surface from] to] total] ls]. intros (H1 & H2 & H3 & H4 & H5 & H6 & H7 & H8). apply angle_chain; auto.
  - now apply columns_field.
  - now apply columns_field.
  - rewrite <- lines_of_text. apply totals_tail_det; [destruct ls; [congruence | discriminate] | now apply lines_good | now apply one_good | apply line_not_blank].
Qed.
Lemma angle_read d : angle_ok d -> subtally_from_mcnp s_Subtally_1 (angle_of d) = Ok (angle_value d).
Proof.
  intros O. unfold subtally_from_mcnp. cbn [s_table s_group s_Subtally_1]. rewrite re_sub1, (det_whole (r_angle true 1) _ _ eq_refl (angle_det true 1 d [] O)).
  destruct d as [[[[surface from] to] total] ls]. destruct O as (H1 & H2 & H3 & H4 & H5 & H6 & H7 & H8).
  match goal with |- context [parts t_Line ?g] => change g with (concat (map line_text ls)) end. rewrite lines_parts, lines_read by exact H8. reflexivity.
Qed.
Lemma angle_write d : subtally_to_mcnp s_Subtally_1 (angle_value d) = angle_of d.
Proof.
  destruct d as [[[[surface from] to] total] ls]. unfold subtally_to_mcnp, angle_of, angle_value. cbn [b_strings b_lines]. rewrite lines_write.
  unfold table_to_mcnp. cbn [t_out t_cut s_table s_Subtally_1 t_Subtally_1 map concat piece_text nth]. rewrite !ljust0. cbn [app nth].
  rewrite slice10. reflexivity.
Qed.
Lemma angles_parts ds : Forall angle_ok ds -> parts t_Subtally_1 (concat (map angle_of ds)) = map angle_of ds.
Proof.
  intros F. unfold parts. rewrite re_sub1_inner. apply finditer_cut; [reflexivity|].
  induction F as [|d ds H F IH]; [exact I|]. cbn [map cut]. split; [destruct d as [[[[? ?] ?] ?] ?]; discriminate|]. split; [|exact IH].
  intros p. eexists. apply det_at; [reflexivity | now apply angle_det].
Qed.
Lemma angles_read ds : Forall angle_ok ds -> mapM (subtally_from_mcnp s_Subtally_1) (map angle_of ds) = Ok (map angle_value ds).
Proof. induction 1 as [|d ds H F IH]; [reflexivity|]. cbn [map mapM]. rewrite (angle_read d H). cbn [bind]. now rewrite IH. Qed.
Lemma angles_write ds : concat (map (subtally_to_mcnp s_Subtally_1) (map angle_value ds)) = concat (map angle_of ds).
Proof. rewrite map_map. f_equal. apply map_ext. exact angle_write. Qed.

Definition r_t1 r := front (anyg 4 (line [sp] (subs 5 (r_angle false 6) (r_checks 11 r)))).
Lemma re_t1a : compile false (t_pat t_Tally_1A) = whole (r_t1 (r_good 14)). Proof. vm_compute. reflexivity. Qed.
Lemma re_t1b : compile false (t_pat t_Tally_1B) = whole (r_t1 (r_bad 14)). Proof. vm_compute. reflexivity. Qed.
Definition caps1 (e : capl) (d : tally_data) (ds : list angle_data) : capl :=
  (((((((e ++ [(13, d_passed d)]) ++ [(12, d_observed d)]) ++ [(11, d_desired d)]) ++
       (5, concat (map angle_of ds)) :: concat (rev (map (angle_cap 6) ds))) ++ [(4, d_particles d)]) ++ [(3, d_type d)]) ++ [(2, d_nps d)]) ++ [(1, d_number d)].
Lemma t1_det r e c d ds : tally_ok d -> ds <> [] -> Forall angle_ok ds -> det r e [] c -> det (r_t1 r) (angle_page d ds e) [] (caps1 c d ds).
Proof.
  intros O N F D. unfold angle_page, tally_text, r_t1. apply front_det; auto.
  pose proof O as (H1 & H2 & H3 & H4 & H5 & H6 & H7 & H8 & H9 & H10 & H11 & H12).
  apply det_one; auto. apply (det_line [sp]). apply (det_subs angle_data _ angle_ok _ (angle_cap 6)); auto using angle_det.
  - intros u c0. now apply wd_first.
  - intros [[[[? ?] ?] ?] ?]. do 2 eexists. split; [reflexivity | discriminate].
  - now apply checks_det.
Qed.
Lemma lookup_angles n j ds c : n < j -> lookup n (concat (rev (map (angle_cap j) ds)) ++ c) = lookup n c.
Proof.
  intros L. rewrite <- map_rev. induction (rev ds) as [|[[[[? ?] ?] ?] ?] l IH]; [reflexivity|]. cbn [map concat]. rewrite <- app_assoc. etransitivity; [|exact IH].
  generalize (concat (map (angle_cap j) l) ++ c). intros z. unfold angle_cap, angle_caps. cbn [app lookup].
  repeat match goal with |- context [?a =? n] => replace (a =? n) with false by (symmetry; apply Nat.eqb_neq; lia) end. reflexivity.
Qed.
Definition strings1a (d : tally_data) : list str :=
  [d_number d; d_nps d; d_type d; d_particles d; d_desired d; d_observed d; d_passed d; d_asymmetric d; d_symmetric d].
Definition strings1b (d : tally_data) : list str :=
  [d_number d; d_nps d; d_type d; d_particles d; d_desired d; d_observed d; d_passed d; d_missed d].
Lemma groups1a d ds s : let o := {| mpre := []; mtext := s; mrest := []; mcaps := caps1 [(15, d_symmetric d); (14, d_asymmetric d)] d ds |} in
  mapM (fun i => match group i o with Some x => Ok x | None => Lib TypesError end) [1; 2; 3; 4; 11; 12; 13; 14; 15] = Ok (strings1a d) /\ grp 5 o = concat (map angle_of ds).
Proof.
  unfold caps1. cbn zeta. repeat split; unfold grp, group; cbn [mapM mcaps]; repeat (rewrite <- app_assoc || rewrite <- app_comm_cons); cbn [app lookup Nat.eqb];
    rewrite ?lookup_angles by lia; reflexivity.
Qed.
Lemma groups1b d ds s : let o := {| mpre := []; mtext := s; mrest := []; mcaps := caps1 [(14, d_missed d)] d ds |} in
  mapM (fun i => match group i o with Some x => Ok x | None => Lib TypesError end) [1; 2; 3; 4; 11; 12; 13; 14] = Ok (strings1b d) /\ grp 5 o = concat (map angle_of ds).
Proof.
  unfold caps1. cbn zeta. repeat split; unfold grp, group; cbn [mapM mcaps]; repeat (rewrite <- app_assoc || rewrite <- app_comm_cons); cbn [app lookup Nat.eqb];
    rewrite ?lookup_angles by lia; reflexivity.
Qed.
Lemma tally1a_read d ds : tally_ok d -> ds <> [] -> Forall angle_ok ds ->
  tally_from_mcnp y_Tally_1A (angle_page d ds (tally_good d)) = Ok {| w_strings := strings1a d; w_message := None; w_subs := map angle_value ds |}.
Proof.
  intros O N F. unfold tally_from_mcnp. cbn [y_table y_Tally_1A y_group y_sub y_message].
  rewrite re_t1a, (det_whole (r_t1 (r_good 14)) _ _ eq_refl (t1_det _ _ _ d ds O N F (good_det 14 d [] O))).
  change (t_groups t_Tally_1A) with [1; 2; 3; 4; 11; 12; 13; 14; 15].
  destruct (groups1a d ds (angle_page d ds (tally_good d))) as (-> & ->). cbn [bind s_table s_Subtally_1].
  now rewrite angles_parts, angles_read by exact F.
Qed.
Lemma tally1b_read d ds : tally_ok d -> ds <> [] -> Forall angle_ok ds ->
  tally_from_mcnp y_Tally_1B (angle_page d ds (tally_bad d)) = Ok {| w_strings := strings1b d; w_message := None; w_subs := map angle_value ds |}.
Proof.
  intros O N F. unfold tally_from_mcnp. cbn [y_table y_Tally_1B y_group y_sub y_message].
  rewrite re_t1b, (det_whole (r_t1 (r_bad 14)) _ _ eq_refl (t1_det _ _ _ d ds O N F (bad_det 14 d [] O))).
  change (t_groups t_Tally_1B) with [1; 2; 3; 4; 11; 12; 13; 14].
  destruct (groups1b d ds (angle_page d ds (tally_bad d))) as (-> & ->). cbn [bind s_table s_Subtally_1].
  now rewrite angles_parts, angles_read by exact F.
Qed.
Lemma slice11 c s x : slice 1 1 (c :: s ++ [x]) = s.
Proof.
  unfold slice. cbn [skipn]. rewrite app_length. cbn [length]. replace (length s + 1 - 1) with (length s) by lia. now rewrite firstn_app, Nat.sub_diag, firstn_all, firstn_O, app_nil_r.
Qed.
Lemma tally1a_write d ds : tally_to_mcnp y_Tally_1A {| w_strings := strings1a d; w_message := None; w_subs := map angle_value ds |} = angle_page d ds (tally_good d).
Proof.
  unfold tally_to_mcnp. cbn [y_table y_Tally_1A y_message y_sub w_strings w_message w_subs]. rewrite angles_write. unfold angle_page. generalize (concat (map angle_of ds)). intros txt.
  unfold table_to_mcnp. cbn [t_out t_cut t_Tally_1A map]. rewrite rule_lit. change (L " ") with [sp]. cbn [piece_text strings1a app nth]. unfold tally_text, tally_head, tally_checks, tally_good.
  generalize rule. intros bar. repeat match goal with |- context [L ?s] => generalize (L s); intro end.
  rewrite !ljust0. cbn [concat app].
  match goal with |- _ = ?t => etransitivity; [|apply (slice11 nl t nl)] end. f_equal. f_equal.
  repeat (rewrite <- (@app_assoc ascii) || rewrite <- (@app_comm_cons ascii)). cbn [app]. reflexivity.
Qed.
Lemma tally1b_write d ds : tally_to_mcnp y_Tally_1B {| w_strings := strings1b d; w_message := None; w_subs := map angle_value ds |} = angle_page d ds (tally_bad d).
Proof.
  unfold tally_to_mcnp. cbn [y_table y_Tally_1B y_message y_sub w_strings w_message w_subs]. rewrite angles_write. unfold angle_page. generalize (concat (map angle_of ds)). intros txt.
  unfold table_to_mcnp. cbn [t_out t_cut t_Tally_1B map]. rewrite rule_lit. change (L " ") with [sp]. cbn [piece_text strings1b app nth]. unfold tally_text, tally_head, tally_checks, tally_bad.
  generalize rule. intros bar. repeat match goal with |- context [L ?s] => generalize (L s); intro end.
  rewrite !ljust0. cbn [concat app].
  match goal with |- _ = ?t => etransitivity; [|apply (slice11 nl t nl)] end. f_equal. f_equal.
  repeat (rewrite <- (@app_assoc ascii) || rewrite <- (@app_comm_cons ascii)). cbn [app]. reflexivity.
Qed.
