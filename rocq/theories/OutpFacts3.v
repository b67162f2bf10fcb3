(** Facts about the lines and the subtallies of a tally. *)

From Coq Require Import Ascii String NArith Bool Arith List Lia.
From Verif Require Import PyStr Regex RegexParse RegexFacts RegexLang Types TypesFacts TypesFacts3 TypesFacts4 SubFacts CardsFacts2 GeometryFacts3 PtracFacts PtracFacts2 PtracFacts4 MeshtalFacts MeshtalFacts2 OutpTables Outp OutpSpec OutpFacts.
Import ListNotations.
Open Scope list_scope.
Open Scope nat_scope.

Lemma det_at r u t c p : plain r = true -> det r u t c ->
  match_at r p (u ++ t) = Some {| mpre := p; mtext := u; mrest := t; mcaps := c |}.
Proof.
  intros PL [A D]. unfold match_at.
  assert (E : m r (mkst p (u ++ t) []) Some = Some (mkst (rev u ++ p) t c)).
  { eapply m_unique with (s' := mkst (rev u ++ p) t c); auto.
    - specialize (A p t []). now rewrite app_nil_r in A.
    - intros s1 y H1 [= <-]. apply M_W in H1 as (u' & c' & HW & E1 & E2 & E3); auto. cbn [rest pre caps] in *.
      destruct (D _ _ _ HW E1) as [-> ->]. apply app_inv_head in E1. rewrite app_nil_r in E3. destruct s1; cbn in *. congruence. }
  rewrite E. cbn [rest caps]. now rewrite firstn_consumed.
Qed.
Lemma det_whole r u c : plain r = true -> det r u [] c ->
  re_match (whole r) u = Some {| mpre := []; mtext := u; mrest := []; mcaps := c |}.
Proof.
  intros PL [A D]. apply match_whole; auto. intros c' HW. destruct (D u [] c' HW) as [_ ->]; auto.
Qed.

(** A run of a set stops where a character outside it must follow. *)
Lemma det_stop i cs cs2 b u x v t d : u <> [] -> allc (inset cs) u -> inset cs2 x = true -> (forall y, inset cs2 y = true -> inset cs y = false) ->
  det b v t d -> det (RCat (RGrp i (RRep false 1 None (RSet cs))) (RCat (RSet cs2) b)) (u ++ x :: v) t (d ++ [(i, u)]).
Proof.
  intros NU HU X DJ [B1 B2]. split.
  - apply accc_cat.
    + apply (accc_grp i _ u []). apply accc_rep_set; auto. destruct u; [congruence | cbn; lia].
    + pose proof (accc_cat _ _ _ _ _ _ (accc_set cs2 x X) B1) as A. rewrite app_nil_r in A. exact A.
  - intros u' t' c' (u1 & u2 & c1 & c2 & (c3 & H1 & ->) & (u3 & u4 & c4 & c5 & (y & -> & Y & ->) & H4 & -> & ->) & -> & ->) E.
    apply W_rep_set in H1 as (A1 & _ & _ & ->). rewrite <- !app_assoc in E. cbn [app] in E.
    destruct (split_unique (inset cs) u u1 x y _ _ HU A1 (DJ x X) (DJ y Y) E) as (-> & -> & E').
    destruct (B2 _ _ _ H4 E') as [-> ->]. now rewrite app_nil_r.
Qed.

Lemma det_stop0 i cs cs2 u x t : u <> [] -> allc (inset cs) u -> inset cs2 x = true -> (forall y, inset cs2 y = true -> inset cs y = false) ->
  det (RCat (RGrp i (RRep false 1 None (RSet cs))) (RSet cs2)) (u ++ [x]) t [(i, u)].
Proof.
  intros NU HU X DJ. split.
  - apply (accc_cat _ _ u [x] [(i, u)] []); [|now apply accc_set].
    apply (accc_grp i _ u []). apply accc_rep_set; auto. destruct u; [congruence | cbn; lia].
  - intros u' t' c' (u1 & u2 & c1 & c2 & (c3 & H1 & ->) & (y & -> & Y & ->) & -> & ->) E.
    apply W_rep_set in H1 as (A1 & _ & _ & ->). rewrite <- !app_assoc in E. cbn [app] in E.
    destruct (split_unique (inset cs) u u1 x y _ _ HU A1 (DJ x X) (DJ y Y) E) as (-> & -> & E'). auto.
Qed.

(** * Lines *)

Definition cs_word : cset := cs [(0, 8); (14, 27); (33, 132); (134, 159); (161, 255)]%N.
Definition cs_sp : cset := cs [(32, 32)]%N.
Definition r_line : re :=
  cis (L "    ") (RCat (RGrp 1 (RRep false 1 None (RSet cs_word))) (RCat (RSet cs_sp) (cis (L "  ")
    (RCat (RGrp 2 (RRep false 1 None (RSet cs_word))) (RCat (RSet cs_sp)
    (RCat (RGrp 3 (RRep false 1 None (RSet cs_word))) (RSet cs_nl))))))).
Lemma inset_word c : inset cs_word c = negb (is_space c).
Proof. apply Bool.eqb_prop. revert c. apply all_ascii. vm_compute. reflexivity. Qed.
Lemma inset_sp c : inset cs_sp c = Ascii.eqb c sp.
Proof. apply Bool.eqb_prop. revert c. apply all_ascii. vm_compute. reflexivity. Qed.
Lemma word_set u : word u -> u <> [] /\ allc (inset cs_word) u.
Proof. intros [N F]. split; [exact N|]. unfold allc. eapply Forall_impl; [|exact F]. intros a E. now rewrite inset_word, E. Qed.
Lemma sp_word y : inset cs_sp y = true -> inset cs_word y = false.
Proof. rewrite inset_sp, inset_word. intros E. apply Ascii.eqb_eq in E. now subst. Qed.
Lemma nl_word y : inset cs_nl y = true -> inset cs_word y = false.
Proof. revert y. assert (G : forall y, implb (inset cs_nl y) (negb (inset cs_word y)) = true) by (apply all_ascii; vm_compute; reflexivity).
  intros y E. specialize (G y). rewrite E in G. cbn in G. now apply negb_true_iff in G. Qed.
Lemma det_eps t : det REps [] t [].
Proof. split; [intros p u cp; reflexivity|]. intros u' t' c' [-> ->] _. auto. Qed.

Lemma line_det b c e t : line_ok (b, c, e) -> det r_line (line_text (b, c, e)) t [(3, e); (2, c); (1, b)].
Proof.
  intros (WB & WC' & WE). apply word_set in WB as [NB HB], WC' as [NC' HC], WE as [NE HE]. unfold r_line, line_text.
  apply det_cis. change (L "   " ++ c ++ [sp] ++ e ++ [nl]) with (sp :: L "  " ++ c ++ sp :: e ++ [nl]).
  change [(3, e); (2, c); (1, b)] with ([(3, e); (2, c)] ++ [(1, b)]). apply det_stop; auto using sp_word.
  apply det_cis. change [(3, e); (2, c)] with ([(3, e)] ++ [(2, c)]). apply det_stop; auto using sp_word.
  apply det_stop0; auto using nl_word.
Qed.
Lemma re_line : compile true (t_pat t_Line) = whole r_line. Proof. reflexivity. Qed.
Lemma re_line_inner : compile true (slice 2 2 (t_pat t_Line)) = r_line. Proof. reflexivity. Qed.
Definition line_fields (l : str * str * str) : list str := let '(b, c, e) := l in [b; c; e].
Lemma line_read l : line_ok l -> line_from_mcnp (line_text l) = Ok (line_fields l).
Proof.
  intros H. destruct l as [[b c] e]. unfold line_from_mcnp. rewrite re_line, (det_whole r_line _ _ eq_refl (line_det b c e [] H)). reflexivity.
Qed.
Lemma line_write l : table_to_mcnp t_Line (line_fields l) = line_text l.
Proof.
  destruct l as [[b c] e]. unfold table_to_mcnp. cbn [t_out t_Line t_cut map concat piece_text line_fields nth].
  unfold ljust. cbn [Nat.sub srepeat]. unfold slice. cbn [app skipn]. rewrite Nat.sub_0_r, firstn_all, !app_nil_r. reflexivity.
Qed.
Lemma lines_parts ls : Forall line_ok ls -> parts t_Line (concat (map line_text ls)) = map line_text ls.
Proof.
  intros F. unfold parts. rewrite re_line_inner. apply finditer_cut; [reflexivity|].
  induction F as [|[[b c] e] ls H F IH]; [exact I|]. cbn [map cut]. split; [discriminate|]. split; [|exact IH].
  intros p. eexists. apply det_at; [reflexivity | now apply line_det].
Qed.
Lemma lines_read ls : Forall line_ok ls -> mapM line_from_mcnp (map line_text ls) = Ok (map line_fields ls).
Proof. induction 1 as [|l ls H F IH]; [reflexivity|]. cbn [map mapM]. rewrite (line_read l H). cbn [bind]. now rewrite IH. Qed.
Lemma lines_write ls : concat (map (table_to_mcnp t_Line) (map line_fields ls)) = concat (map line_text ls).
Proof. induction ls as [|l ls IH]; [reflexivity|]. cbn [map concat]. now rewrite line_write, IH. Qed.

(** * Subtallies *)

Definition lines_of (ls : list str) : str := concat (map (fun l => l ++ [nl]) ls).
Definition good (l : str) : Prop := l <> [] /\ allc notnl l.
Lemma lines_of_app a b : lines_of (a ++ b) = lines_of a ++ lines_of b.
Proof. unfold lines_of. now rewrite map_app, concat_app. Qed.
Lemma lines_first ls : forall ls' s s', Forall good ls -> Forall good ls' ->
  lines_of ls ++ nl :: s = lines_of ls' ++ nl :: s' -> ls = ls' /\ s = s'.
Proof.
  unfold lines_of. induction ls as [|l ls IH]; intros [|l' ls'] s s' F F' E; cbn [map concat app] in E.
  - injection E as <-. auto.
  - exfalso. inversion F' as [|? ? [N A] _]; subst. destruct l' as [|c l']; [now elim N|]. injection E as <- _. inversion A; subst. discriminate.
  - exfalso. inversion F as [|? ? [N A] _]; subst. destruct l as [|c l]; [now elim N|]. injection E as -> _. inversion A; subst. discriminate.
  - inversion F as [|? ? [N A] F1]; inversion F' as [|? ? [N' A'] F1']; subst. rewrite <- !app_assoc in E. cbn [app] in E.
    apply line_cut' in E as [<- E]; auto. destruct (IH _ _ _ F1 F1' E) as [<- <-]. auto.
Qed.
Lemma lines_all ls : forall ls', Forall (allc notnl) ls -> Forall (allc notnl) ls' -> lines_of ls = lines_of ls' -> ls = ls'.
Proof.
  unfold lines_of. induction ls as [|l ls IH]; intros [|l' ls'] F F' E; cbn [map concat] in E; auto.
  - destruct l'; discriminate.
  - destruct l; discriminate.
  - inversion F as [|? ? A F1]; inversion F' as [|? ? A' F1']; subst. rewrite <- !app_assoc in E. cbn [app] in E.
    apply line_cut' in E as [<- E]; auto. f_equal. now apply IH.
Qed.

Definition nlr : re := RSet cs_nl.
Definition rows (lz : bool) (i : nat) : re := RGrp i (RRep lz 1 None (RCat r_any nlr)).
Lemma row_accc l : good l -> accc (RCat r_any nlr) (l ++ [nl]) [].
Proof. intros [N A]. apply (accc_cat r_any nlr l [nl] [] []); [now apply accc_any | now apply accc_set]. Qed.
Lemma nil_concats (X Y : Type) (l : list X) : concat (rev (map (fun _ => @nil Y) l)) = [].
Proof. rewrite <- map_rev. induction (rev l) as [|x k IH]; [reflexivity | exact IH]. Qed.
Lemma rows_accc lz i ls : ls <> [] -> Forall good ls -> accc (rows lz i) (lines_of ls) [(i, lines_of ls)].
Proof.
  intros N F. apply (accc_grp i _ (lines_of ls) []).
  pose proof (accc_rep lz 1 None (RCat r_any nlr) (map (fun l => (l ++ [nl], [])) ls)) as A. rewrite !map_map in A. cbn [fst snd] in A.
  match type of A with _ -> _ -> _ -> accc _ _ ?x => replace x with (@nil (nat * str)) in A end.
  - apply A; [|rewrite map_length; destruct ls; [congruence | cbn; lia] | exact I].
    apply Forall_map. eapply Forall_impl; [|exact F]. intros l G. cbn [fst snd]. split; [now apply row_accc | destruct l; discriminate].
  - symmetry. apply nil_concats.
Qed.
Lemma rows_W lz i u c : W (rows lz i) u c -> exists ls, ls <> [] /\ Forall good ls /\ u = lines_of ls /\ c = [(i, u)].
Proof.
  intros (c' & (l & F & N & _ & -> & ->) & ->).
  assert (G : exists ls, length ls = length l /\ Forall good ls /\ map fst l = map (fun l => l ++ [nl]) ls /\ concat (rev (map snd l)) = []).
  { clear N. induction F as [|[u c] l H F (ls & E & G & E' & EC)]; [exists []; repeat split; constructor|].
    destruct H as (u1 & u2 & c1 & c2 & H1 & H2 & A & B). cbn [fst snd] in A, B. apply W_any in H1 as (N1 & A1 & ->).
    apply W_set_nl in H2 as [-> ->]. exists (u1 :: ls). cbn [length map fst snd rev]. rewrite E, E', A, B, concat_app, EC.
    repeat split; auto. constructor; [split; auto | exact G]. }
  destruct G as (ls & E & G & E' & EC). exists ls. split; [destruct ls; [cbn in E; lia | discriminate]|]. split; [exact G|].
  rewrite EC, E'. split; reflexivity.
Qed.

(** A text to be read as it is, with or without regard to case. *)
Fixpoint lits (s : str) (r : re) : re := match s with [] => r | c :: t => RCat (RSet (cs_chr (code c))) (lits t r) end.
Definition wd (ic : bool) (s : str) (r : re) : re := if ic then cis s r else lits s r.
Lemma chr_in x : inset (cs_chr (code x)) x = true.
Proof. revert x. apply all_ascii. vm_compute. reflexivity. Qed.
Lemma det_lits s r v t c : det r v t c -> det (lits s r) (s ++ v) t c.
Proof. intros H. induction s as [|x s IH]; auto. cbn [lits app]. apply det_cons; auto. apply chr_in. Qed.
Lemma det_wd ic s r v t c : det r v t c -> det (wd ic s r) (s ++ v) t c.
Proof. intros H. destruct ic; [now apply det_cis | now apply det_lits]. Qed.
Lemma wd_cons ic x s r : wd ic (x :: s) r = RCat (RSet (if ic then ci x else cs_chr (code x))) (wd ic s r).
Proof. now destruct ic. Qed.
Lemma wd_nil ic r : wd ic ([] : str) r = r. Proof. now destruct ic. Qed.
Lemma wd_notnl (ic : bool) x y : notnl x = true -> inset (if ic then ci x else cs_chr (code x)) y = true -> notnl y = true.
Proof.
  intros X Y. unfold notnl. unfold ceqb. destruct (Ascii.eqb_spec y nl) as [->|]; [|reflexivity]. exfalso.
  assert (G : forall x, implb (inset (if ic then ci x else cs_chr (code x)) nl) (negb (notnl x)) = true) by (apply all_ascii; destruct ic; vm_compute; reflexivity).
  specialize (G x). rewrite Y, X in G. discriminate.
Qed.
Lemma ci_notnl ic s r u c : allc notnl s -> W (wd ic s r) u c -> exists w v, u = w ++ v /\ length w = length s /\ allc notnl w /\ W r v c.
Proof.
  intros A. revert u c. induction A as [|x s X A IH]; intros u c H; [change (wd ic [] r) with (wd ic ([] : str) r) in H; rewrite wd_nil in H | rewrite wd_cons in H].
  - exists ([] : str), u. repeat split; auto. constructor.
  - destruct H as (u1 & u2 & c1 & c2 & (y & -> & Y & ->) & H2 & -> & ->). destruct (IH _ _ H2) as (w & v & -> & E & B & HW).
    exists (y :: w), v. cbn [app length]. rewrite E, app_nil_r. repeat split; auto. constructor; [|exact B].
    eapply wd_notnl; eauto.
Qed.
Lemma accc_cis ic s r v c : accc r v c -> accc (wd ic s r) (s ++ v) c.
Proof.
  intros H. induction s as [|x s IH]; [now rewrite wd_nil|]. rewrite wd_cons. cbn [app].
  assert (X : inset (if ic then ci x else cs_chr (code x)) x = true) by (destruct ic; [apply ci_in | apply chr_in]).
  pose proof (accc_cat _ _ _ _ _ _ (accc_set _ x X) IH) as A. now rewrite app_nil_r in A.
Qed.
(** Blanks written with a count. *)
Definition blanks (n : nat) : re := RRep false n (Some n) (RSet cs_sp).
Lemma W_blanks n u c : W (blanks n) u c -> u = repeat sp n /\ c = [].
Proof.
  intros H. apply W_rep_set in H as (A & L1 & L2 & ->). split; auto. rewrite Nat.max_id in L2. assert (E : length u = n) by lia. clear L1 L2. subst n.
  induction A as [|x u X A IH]; [reflexivity|]. rewrite inset_sp in X. apply Ascii.eqb_eq in X. subst. cbn [length repeat]. now f_equal.
Qed.
Lemma accc_blanks n : accc (blanks n) (repeat sp n) [].
Proof. apply accc_rep_set; rewrite ?repeat_length; auto. apply Forall_forall. intros x I. apply repeat_spec in I. now subst. Qed.
Lemma det_blanks n b v t d : det b v t d -> det (RCat (blanks n) b) (repeat sp n ++ v) t d.
Proof.
  intros D. pose proof (fun A => det_cat (blanks n) b (repeat sp n) v t [] d A D) as E. rewrite app_nil_r in E. apply E. split; [apply accc_blanks|].
  intros u' t' c' H _. apply W_blanks in H as [-> ->]. auto.
Qed.
Lemma repeat_notnl n : allc notnl (repeat sp n).
Proof. apply Forall_forall. intros x I. apply repeat_spec in I. now subst. Qed.
Definition total_word (ic lz : bool) (r : re) : re :=
  if lz then RCat (blanks 6) (wd ic (L "total") (RCat (blanks 6) r)) else wd ic (L "      total      ") r.
Lemma total_accc ic lz r v c : accc r v c -> accc (total_word ic lz r) (L "      total      " ++ v) c.
Proof.
  intros A. destruct lz; [|now apply accc_cis]. unfold total_word.
  change (L "      total      ") with (repeat sp 6 ++ L "total" ++ repeat sp 6). rewrite <- !app_assoc.
  rewrite <- (app_nil_r c). apply accc_cat; [apply accc_blanks|]. apply accc_cis. rewrite <- (app_nil_r c). apply accc_cat; [apply accc_blanks | exact A].
Qed.
Lemma total_W ic lz r u c : W (total_word ic lz r) u c -> exists w v, u = w ++ v /\ length w = 17 /\ allc notnl w /\ W r v c.
Proof.
  destruct lz; unfold total_word.
  - intros (u1 & u2 & c1 & c2 & H1 & H2 & -> & ->). apply W_blanks in H1 as [-> ->].
    apply ci_notnl in H2 as (w & v & -> & Lw & Aw & H2); [|vm_compute; repeat constructor].
    destruct H2 as (u3 & u4 & c3 & c4 & H3 & H4 & -> & ->). apply W_blanks in H3 as [-> ->].
    exists (repeat sp 6 ++ w ++ repeat sp 6), u4. rewrite <- !app_assoc, !app_nil_r. repeat split; auto.
    + rewrite !app_length, Lw. reflexivity.
    + apply Forall_app. split; [apply repeat_notnl|]. apply Forall_app. split; [exact Aw | apply repeat_notnl].
  - intros H. apply ci_notnl in H as (w & v & -> & Lw & Aw & H); [|vm_compute; repeat constructor]. exists w, v. auto.
Qed.
Definition totals (ic lz : bool) (i j : nat) (r : re) : re := RCat (rows lz i) (total_word ic lz (RCat (RGrp j r_any) (RCat nlr r))).
Definition totals_text (ls : list str) (total : str) (e : str) : str := lines_of ls ++ L "      total      " ++ total ++ nl :: e.

Lemma totals_accc ic lz i j r ls total e : ls <> [] -> Forall good ls -> good total -> accc r e [] ->
  accc (totals ic lz i j r) (totals_text ls total e) [(j, total); (i, lines_of ls)].
Proof.
  intros N F [NT AT] A. unfold totals, totals_text. apply (accc_cat _ _ _ _ [(i, lines_of ls)] [(j, total)]); [now apply rows_accc|].
  apply total_accc. apply (accc_cat _ _ total (nl :: e) [(j, total)] []); [apply (accc_grp j r_any total []); now apply accc_any|].
  apply (accc_cat _ _ [nl] e [] []); [now apply accc_set | exact A].
Qed.

Lemma totals_W ic lz i j r u c : W (totals ic lz i j r) u c -> exists ls w total e c', ls <> [] /\ Forall good ls /\ good total /\ length w = 17 /\ allc notnl w /\
  W r e c' /\ u = lines_of ls ++ w ++ total ++ nl :: e /\ c = c' ++ [(j, total); (i, lines_of ls)].
Proof.
  intros (u1 & u2 & c1 & c2 & H1 & H2 & -> & ->). apply rows_W in H1 as (ls & N & F & -> & ->).
  apply total_W in H2 as (w & v & -> & Lw & Aw & H2).
  destruct H2 as (u3 & u4 & c3 & c4 & (c5 & H3 & ->) & (u5 & u6 & c6 & c7 & H5 & H6 & -> & ->) & -> & ->).
  apply W_any in H3 as (NT & AT & ->). apply W_set_nl in H5 as [-> ->].
  exists ls, w, u3, u6, c7. repeat (split; [auto; try split; auto; fail|]). rewrite app_nil_r, <- app_assoc. auto.
Qed.
Lemma total_good w total : length w = 17 -> allc notnl w -> good total -> good (w ++ total).
Proof. intros E A [N B]. split; [destruct w; [discriminate | discriminate]|]. apply Forall_app. split; [exact A | exact B]. Qed.
Lemma same_length_app (w w' a b : str) : length w = length w' -> w ++ a = w' ++ b -> w = w' /\ a = b.
Proof. revert w'. induction w as [|x w IH]; intros [|y w'] E H; try discriminate; cbn in *; auto. injection H as <- H. apply IH in H as [<- <-]; auto. Qed.

Lemma totals_det ic lz i j ls total t : ls <> [] -> Forall good ls -> good total ->
  det (totals ic lz i j nlr) (totals_text ls total [nl]) t [(j, total); (i, lines_of ls)].
Proof.
  intros N F G. split; [apply totals_accc; auto; now apply accc_set|]. intros u' t' c' H E.
  apply totals_W in H as (ls' & w & total' & e & c'' & N' & F' & G' & Lw & Aw & He & -> & ->). apply W_set_nl in He as [-> ->].
  unfold totals_text in *.
  assert (X : lines_of (ls ++ [L "      total      " ++ total]) ++ nl :: t = lines_of (ls' ++ [w ++ total']) ++ nl :: t').
  { rewrite !lines_of_app. unfold lines_of at 2 4. cbn [map concat]. rewrite !app_nil_r. rewrite <- !app_assoc in *. cbn [app] in *. exact E. }
  apply lines_first in X as [X ->]; try (apply Forall_app; split; auto; constructor; [|constructor]; apply total_good; auto; vm_compute; repeat constructor).
  apply app_inj_tail in X as [<- X]. apply same_length_app in X as [<- <-]; auto.
Qed.
Definition r_tail : re := RCat (RRep false 0 (Some 1) (RSet cs_sp)) nlr.
Lemma tail_accc (b : bool) : accc r_tail ((if b then [sp] else []) ++ [nl]) [].
Proof.
  apply (accc_cat _ _ _ _ [] []); [|now apply accc_set]. destruct b; [apply accc_opt_some; [now apply accc_set | discriminate] | apply accc_opt_none].
Qed.
Lemma tail_W u c : W r_tail u c -> (u = [nl] \/ u = [sp; nl]) /\ c = [].
Proof.
  intros (u1 & u2 & c1 & c2 & H1 & H2 & -> & ->). apply W_set_nl in H2 as [-> ->]. apply W_opt in H1 as [[-> ->]|(x & -> & X & ->)]; auto.
  rewrite inset_sp in X. apply Ascii.eqb_eq in X. subst. auto.
Qed.
(** With an end of its own only if the text ends there. *)
Lemma totals1_W ic lz i j ls total (b : bool) c' : ls <> [] -> Forall good ls -> good total ->
  W (totals ic lz i j r_tail) (totals_text ls total ((if b then [sp] else []) ++ [nl])) c' -> c' = [(j, total); (i, lines_of ls)].
Proof.
  intros N F G H. apply totals_W in H as (ls' & w & total' & e & c'' & N' & F' & G' & Lw & Aw & He & E & ->). apply tail_W in He as [He ->].
  unfold totals_text in E.
  assert (AN : forall l, Forall good l -> Forall (allc notnl) l) by (intros l H; eapply Forall_impl; [|exact H]; intros a [_ A]; exact A).
  assert (X : exists x, allc notnl x /\ e = x ++ [nl]) by (destruct He as [->| ->]; [exists [] | exists [sp]]; repeat constructor).
  destruct X as (x & Ax & ->).
  assert (Y : lines_of (ls ++ [L "      total      " ++ total; if b then [sp] else []]) = lines_of (ls' ++ [w ++ total'; x])).
  { rewrite !lines_of_app. unfold lines_of at 2 4. cbn [map concat]. rewrite !app_nil_r. rewrite <- !app_assoc in *. cbn [app] in *. exact E. }
  destruct G as [NG AG], G' as [NG' AG'].
  apply lines_all in Y.
  - change (ls ++ [L "      total      " ++ total; if b then [sp] else []]) with (ls ++ [L "      total      " ++ total] ++ [if b then [sp] else []]) in Y.
    change (ls' ++ [w ++ total'; x]) with (ls' ++ [w ++ total'] ++ [x]) in Y. rewrite !app_assoc in Y.
    apply app_inj_tail in Y as [Y _]. apply app_inj_tail in Y as [<- Y]. apply same_length_app in Y as [<- <-]; auto.
  - apply Forall_app. split; auto. constructor; [|constructor; [|constructor]]; [apply Forall_app; split; auto; vm_compute; repeat constructor|].
    destruct b; repeat constructor.
  - apply Forall_app. split; auto. constructor; [|constructor; [|constructor]]; auto. apply Forall_app; split; auto.
Qed.

(** Subtallies with the energies of a cell or the times of a surface. *)
Definition r_sub (ic : bool) (j : nat) (w1 w2 : str) : re :=
  wd ic w1 (RCat (RGrp j r_any) (RCat nlr (wd ic w2 (RCat nlr (totals ic false (S j) (S (S j)) nlr))))).
Definition sub_text (w1 w2 cell total : str) (ls : list (str * str * str)) : str :=
  w1 ++ cell ++ nl :: w2 ++ nl :: totals_text (map (fun l => removelast (line_text l)) ls) total [nl].
Lemma line_last l : line_text l = removelast (line_text l) ++ [nl].
Proof.
  destruct l as [[b c] e]. unfold line_text. rewrite !app_assoc. rewrite removelast_app by discriminate. cbn [removelast]. now rewrite app_nil_r.
Qed.
Lemma lines_of_text ls : lines_of (map (fun l => removelast (line_text l)) ls) = concat (map line_text ls).
Proof. unfold lines_of. rewrite map_map. f_equal. apply map_ext. intros l. symmetry. apply line_last. Qed.
Lemma one_good s : one_line s -> good s.
Proof.
  intros [N H]. split; auto. apply Forall_forall. intros x I. unfold notnl, ceqb. destruct (Ascii.eqb_spec x nl) as [->|]; auto.
Qed.
Lemma word_notnl u : word u -> allc notnl u.
Proof.
  intros [_ F]. eapply Forall_impl; [|exact F]. intros c H. cbn beta in H. unfold notnl, ceqb. destruct (Ascii.eqb_spec c nl) as [->|]; [discriminate H | reflexivity].
Qed.
Lemma line_good l : line_ok l -> good (removelast (line_text l)).
Proof.
  destruct l as [[b c] e]. intros (B & C & E). unfold line_text. rewrite !app_assoc. rewrite removelast_app by discriminate. cbn [removelast]. rewrite app_nil_r.
  split; [discriminate|]. repeat (apply Forall_app; split); try (now apply word_notnl); vm_compute; repeat constructor.
Qed.
Lemma lines_good ls : Forall line_ok ls -> Forall good (map (fun l => removelast (line_text l)) ls).
Proof. intros F. apply Forall_map. eapply Forall_impl; [|exact F]. exact line_good. Qed.
Lemma sub_det ic j w1 w2 cell total ls t : one_line cell -> one_line total -> ls <> [] -> Forall line_ok ls ->
  det (r_sub ic j w1 w2) (sub_text w1 w2 cell total ls) t [(S (S j), total); (S j, concat (map line_text ls)); (j, cell)].
Proof.
  intros C T N F. apply one_good in C as [NC AC]. apply one_good in T. unfold r_sub, sub_text. apply det_wd.
  apply (det_any j _ cell _ t [(S (S j), total); (S j, concat (map line_text ls))]); auto. apply det_wd. apply det_nl. rewrite <- lines_of_text.
  apply totals_det; auto; [destruct ls; [congruence | discriminate] | now apply lines_good].
Qed.
Lemma cell_sub cell total ls : cell_text cell total ls = sub_text (L " cell  ") (L "      energy   ") cell total ls.
Proof. unfold cell_text, sub_text, totals_text. rewrite lines_of_text. reflexivity. Qed.
Lemma surface_sub cell total ls : surface_text cell total ls = sub_text (L "      surface:  ") (L "        time   ") cell total ls.
Proof. unfold surface_text, sub_text, totals_text. rewrite lines_of_text. reflexivity. Qed.
Definition r_sub4 : re := r_sub true 1 (L " cell  ") (L "      energy   ").
Definition r_sub2 : re := r_sub true 1 (L "      surface:  ") (L "        time   ").
Lemma re_sub4 : compile true (t_pat t_Subtally_4) = whole r_sub4. Proof. reflexivity. Qed.
Lemma re_sub2 : compile true (t_pat t_Subtally_2) = whole r_sub2. Proof. reflexivity. Qed.
Lemma re_sub4_inner : compile true (slice 2 2 (t_pat t_Subtally_4)) = r_sub4. Proof. reflexivity. Qed.
Lemma re_sub2_inner : compile true (slice 2 2 (t_pat t_Subtally_2)) = r_sub2. Proof. reflexivity. Qed.

Definition sub_value (d : sub_data) : subtally := let '(cell, total, ls) := d in {| b_strings := [cell; total]; b_lines := map line_fields ls |}.
Lemma cell_read d : sub_ok d -> subtally_from_mcnp s_Subtally_4 (cell_of d) = Ok (sub_value d).
Proof.
  destruct d as [[cell total] ls]. intros (C & T & N & F). unfold subtally_from_mcnp, cell_of. cbn [s_table s_group s_Subtally_4].
  rewrite re_sub4, cell_sub. rewrite (det_whole r_sub4 _ _ eq_refl (sub_det true 1 _ _ cell total ls [] C T N F)).
  match goal with |- context [parts t_Line ?g] => change g with (concat (map line_text ls)) end. rewrite lines_parts, lines_read by exact F. reflexivity.
Qed.
Lemma surface_read d : sub_ok d -> subtally_from_mcnp s_Subtally_2 (surface_of d) = Ok (sub_value d).
Proof.
  destruct d as [[cell total] ls]. intros (C & T & N & F). unfold subtally_from_mcnp, surface_of. cbn [s_table s_group s_Subtally_2].
  rewrite re_sub2, surface_sub. rewrite (det_whole r_sub2 _ _ eq_refl (sub_det true 1 _ _ cell total ls [] C T N F)).
  match goal with |- context [parts t_Line ?g] => change g with (concat (map line_text ls)) end. rewrite lines_parts, lines_read by exact F. reflexivity.
Qed.

(** Subtallies of a surface and an angle bin. *)
Definition r_angle (ic : bool) (j : nat) : re :=
  wd ic (L " surface") (RCat (blanks 2) (RCat (RGrp j r_any) (RCat nlr (wd ic (L " angle") (RCat (blanks 2) (wd ic (L "bin:") (RCat (blanks 2)
   (RCat (cell (S j) 12) (wd ic (L " to") (RCat (blanks 2) (RCat (cell (S (S j)) 11) (wd ic (L " degrees") (RCat (blanks 85) (RCat nlr
   (RCat (blanks 6) (wd ic (L "energy") (RCat (blanks 3) (RCat nlr (totals ic true (3 + j) (4 + j) r_tail))))))))))))))))))).
Lemma re_sub1 : compile true (t_pat t_Subtally_1) = whole (r_angle true 1). Proof. reflexivity. Qed.
Lemma re_sub1_inner : compile true (slice 2 2 (t_pat t_Subtally_1)) = r_angle true 1. Proof. reflexivity. Qed.

Lemma lines_prefix b : forall a s s', Forall good a -> Forall good b -> lines_of a ++ nl :: s = lines_of b ++ s' -> exists c, a = b ++ c.
Proof.
  induction b as [|x b IH]; intros a s s' A B E; [now exists a|]. inversion B as [|? ? [X1 X2] B']; subst.
  unfold lines_of in E. cbn [map concat] in E. fold (lines_of b) in E. rewrite <- !app_assoc in E. cbn [app] in E.
  destruct a as [|y a]; cbn [map concat app] in E.
  - destruct x as [|z x]; [congruence|]. injection E as E _. inversion X2 as [|? ? Z _]. rewrite <- E in Z. discriminate Z.
  - inversion A as [|? ? [Y1 Y2] A']; subst. fold (lines_of a) in E. rewrite <- !app_assoc in E. cbn [app] in E.
    apply line_cut' in E as [-> E]; auto. destruct (IH _ _ _ A' B' E) as [c ->]. now exists c.
Qed.
Lemma totals_tail_det ic lz i j ls total t : ls <> [] -> Forall good ls -> good total -> ~ In [sp] ls ->
  det (totals ic lz i j r_tail) (totals_text ls total [nl]) t [(j, total); (i, lines_of ls)].
Proof.
  intros N F G NB. split; [apply totals_accc; auto; exact (tail_accc false)|]. intros u' t' c' H E.
  apply totals_W in H as (ls' & w & total' & e & c'' & N' & F' & G' & Lw & Aw & He & -> & ->). apply tail_W in He as [[-> | ->] ->]; unfold totals_text in *.
  - assert (X : lines_of (ls ++ [L "      total      " ++ total]) ++ nl :: t = lines_of (ls' ++ [w ++ total']) ++ nl :: t').
    { rewrite !lines_of_app. unfold lines_of at 2 4. cbn [map concat]. rewrite !app_nil_r. rewrite <- !app_assoc in *. cbn [app] in *. exact E. }
    apply lines_first in X as [X ->]; try (apply Forall_app; split; auto; constructor; [|constructor]; apply total_good; auto; vm_compute; repeat constructor).
    apply app_inj_tail in X as [<- X]. apply same_length_app in X as [<- <-]; auto.
  - exfalso.
    assert (X : lines_of (ls ++ [L "      total      " ++ total]) ++ nl :: t = lines_of (ls' ++ [w ++ total'; [sp]]) ++ t').
    { rewrite !lines_of_app. unfold lines_of at 2 4. cbn [map concat]. rewrite !app_nil_r. rewrite <- !app_assoc in *. cbn [app] in *. exact E. }
    apply lines_prefix in X as [c X].
    + assert (I : In [sp] (ls ++ [L "      total      " ++ total])) by (rewrite X; rewrite !in_app_iff; cbn; auto).
      apply in_app_iff in I as [I|[I|[]]]; [now apply NB|]. cbn in I. discriminate I.
    + apply Forall_app; split; auto; constructor; [|constructor]; apply total_good; auto; vm_compute; repeat constructor.
    + apply Forall_app; split; auto; constructor; [now apply total_good|]. constructor; [|constructor]. split; [discriminate | repeat constructor].
Qed.
Lemma line_not_blank ls : ~ In [sp] (map (fun l => removelast (line_text l)) ls).
Proof.
  intros I. apply in_map_iff in I as ([[b c] e] & E & _). unfold line_text in E. rewrite !app_assoc in E. rewrite removelast_app in E by discriminate. discriminate E.
Qed.
Definition angle_caps (j : nat) (surface from to total : str) (ls : list (str * str * str)) : capl :=
  [(4 + j, total); (3 + j, concat (map line_text ls)); (S (S j), to); (S j, from); (j, surface)].
Lemma angle_chain ic j surface from to total ls b t :
  one_line surface -> field 12 from -> field 11 to ->
  det (totals ic true (3 + j) (4 + j) r_tail) (totals_text (map (fun l => removelast (line_text l)) ls) total ((if b : bool then [sp] else []) ++ [nl])) t [(4 + j, total); (3 + j, concat (map line_text ls))] ->
  det (r_angle ic j) (angle_text surface from to total ls b) t (angle_caps j surface from to total ls).
Proof.
  intros S1 S2 S3 D. apply one_good in S1 as [N1 A1]. unfold angle_text, r_angle.
  change (L " surface  ") with (L " surface" ++ repeat sp 2). change (L " angle  bin:  ") with (L " angle" ++ repeat sp 2 ++ L "bin:" ++ repeat sp 2).
  change (L " to  ") with (L " to" ++ repeat sp 2). change (srepeat 85 [sp]) with (repeat sp 85). change (L "      energy   ") with (repeat sp 6 ++ L "energy" ++ repeat sp 3).
  rewrite <- !app_assoc. apply det_wd. apply det_blanks.
  apply (det_any j _ surface _ t [(4 + j, total); (3 + j, concat (map line_text ls)); (S (S j), to); (S j, from)]); auto. cbn [app]. apply det_wd, det_blanks, det_wd, det_blanks.
  apply (det_cell' (S j) 12 _ from _ t [(4 + j, total); (3 + j, concat (map line_text ls)); (S (S j), to)]); auto. apply det_wd, det_blanks.
  apply (det_cell' (S (S j)) 11 _ to _ t [(4 + j, total); (3 + j, concat (map line_text ls))]); auto. apply det_wd, det_blanks, det_nl, det_blanks, det_wd, det_blanks, det_nl.
  unfold totals_text in D. rewrite lines_of_text in D. exact D.
Qed.
