(** Facts about the tables of OUTP files and about whole files. *)

From Coq Require Import Ascii String NArith Bool Arith List Lia.
From Verif Require Import PyStr Regex RegexParse RegexFacts RegexLang Types CardsFacts2 PtracFacts PtracFacts2 OutpTables Outp OutpSpec OutpFacts OutpFacts2.
Import ListNotations.
Open Scope list_scope.
Open Scope nat_scope.

(** * Tables that are written back as they are *)

Definition exact_tables : list table := [t_Mcnp; t_NeutronActivity; t_PhotonActivity; t_ProblemSummary].
Lemma exact_plans t : In t exact_tables -> exists pl, plan [] t = Some pl /\ kept pl = true.
Proof.
  cbn [In exact_tables]. intros H. repeat (destruct H as [<-|H]; [eexists; split; vm_compute; reflexivity|]). destruct H.
Qed.
Lemma table_exact t s v : In t exact_tables -> table_from_mcnp t s = Ok v -> table_to_mcnp t v = s.
Proof.
  intros I R. destruct (exact_plans t I) as (pl & P & K).
  assert (C : compile false (t_pat t) = whole (body t)) by (apply compiled; revert I; cbn [In exact_tables]; tauto).
  destruct (table_alike [] t pl s v C P R) as (g & A & _). symmetry. exact (alike_exact g pl _ _ K A).
Qed.

(** * Tables with one place that is not kept *)

Definition chars (k : str) : list (node * list wnode) := map (fun c => (NC c, [WC c])) k.
Lemma alike_chars g k : forall s o, alike g (chars k) s o -> s = k /\ o = k.
Proof.
  induction k as [|c k IH]; intros s o A; inversion A as [|? ? ? ? ? ? N E A'|]; subst; auto.
  destruct (IH _ _ A') as [-> ->]. auto.
Qed.
Lemma table_one hints t pl n k r w tl s v : compile false (t_pat t) = whole (body t) -> plan hints t = Some pl ->
  skipn n (fst (cut_free pl)) = chars k -> snd (cut_free pl) = (NX r, w) :: tl -> kept tl = true -> table_from_mcnp t s = Ok v ->
  exists g a x b, s = a ++ k ++ x ++ b /\ table_to_mcnp t v = a ++ k ++ emit g w ++ b /\ (exists c, W r x c) /\
    (n = 0 -> a = []) /\ (forall f i, nth_error (t_groups t) f = Some i -> nth f v ([] : str) = g i).
Proof.
  intros C P E1 E2 K R. destruct (table_alike hints t pl s v C P R) as (g & A & V). exists g.
  rewrite (cut_free_app pl), <- (firstn_skipn n (fst (cut_free pl))), E1, E2 in A. rewrite <- app_assoc in A.
  apply alike_app in A as (a & b & a' & b' & -> & -> & A1 & A2).
  assert (K1 : kept (firstn n (fst (cut_free pl))) = true).
  { pose proof (cut_free_kept pl) as X. unfold kept in *. rewrite <- (firstn_skipn n (fst (cut_free pl))), forallb_app in X. now apply andb_prop in X. }
  apply alike_app in A2 as (a2 & b2 & a2' & b2' & -> & -> & A3 & A4). apply alike_chars in A3 as [-> ->].
  inversion A4 as [|? ? ? ? ? ? N _ _|? ? ? x ? ? X A5]; subst; [exfalso; now apply (N r)|].
  pose proof (alike_exact g _ _ _ K1 A1) as <-. pose proof (alike_exact g _ _ _ K A5) as <-.
  exists a, x, s. repeat split; auto. intros ->. cbn [firstn] in A1. now inversion A1.
Qed.

Lemma W_dots n x c : W (RRep false n (Some n) (RSet {| cneg := true; cranges := [(10, 10)%N] |})) x c -> length x = n.
Proof. intros H. apply W_rep_set in H as (_ & A & B & _). rewrite Nat.max_id in B. lia. Qed.

Lemma unnormed_one s v : table_from_mcnp t_UnnormedTallyDensity s = Ok v ->
  exists a x b, length x = 3 /\ s = a ++ L "(d=decade,slope= " ++ x ++ b /\ table_to_mcnp t_UnnormedTallyDensity v = a ++ L "(d=decade,slope= " ++ L "0.0" ++ b.
Proof.
  intros R. destruct (plan [3] t_UnnormedTallyDensity) as [pl|] eqn:P; [|vm_compute in P; discriminate].
  assert (E : exists tl, snd (cut_free pl) = (NX (RRep false 3 (Some 3) (RSet {| cneg := true; cranges := [(10, 10)%N] |})), [WC "0"%char; WC "."%char; WC "0"%char]) :: tl /\ kept tl = true
     /\ skipn (length (fst (cut_free pl)) - 17) (fst (cut_free pl)) = chars (L "(d=decade,slope= ")).
  { vm_compute in P. injection P as <-. eexists. repeat split; vm_compute; reflexivity. }
  destruct E as (tl & E2 & K & E1).
  assert (C : compile false (t_pat t_UnnormedTallyDensity) = whole (body t_UnnormedTallyDensity)) by (apply compiled; cbn [In]; tauto).
  destruct (table_one [3] t_UnnormedTallyDensity pl _ _ _ _ tl s v C P E1 E2 K R) as (g & a & x & b & -> & -> & (c & X) & _ & _). apply W_dots in X. exists a, x, b. auto.
Qed.
Lemma analysis_one s v : table_from_mcnp t_AnalysisTallyFluctuation s = Ok v ->
  exists a x b, length x = 9 /\ s = a ++ L ")**2 = (" ++ x ++ b /\ table_to_mcnp t_AnalysisTallyFluctuation v = a ++ L ")**2 = (" ++ nth 32 v ([] : str) ++ b.
Proof.
  intros R. destruct (plan [1] t_AnalysisTallyFluctuation) as [pl|] eqn:P; [|vm_compute in P; discriminate].
  assert (E : exists tl, snd (cut_free pl) = (NX (RRep false 9 (Some 9) (RSet {| cneg := true; cranges := [(10, 10)%N] |})), [WG 33]) :: tl /\ kept tl = true
     /\ skipn (length (fst (cut_free pl)) - 8) (fst (cut_free pl)) = chars (L ")**2 = (")).
  { vm_compute in P. injection P as <-. eexists. repeat split; vm_compute; reflexivity. }
  destruct E as (tl & E2 & K & E1).
  assert (C : compile false (t_pat t_AnalysisTallyFluctuation) = whole (body t_AnalysisTallyFluctuation)) by (apply compiled; cbn [In]; tauto).
  destruct (table_one [1] t_AnalysisTallyFluctuation pl _ _ _ _ tl s v C P E1 E2 K R) as (g & a & x & b & -> & -> & (c & X) & _ & V). apply W_dots in X. exists a, x, b. repeat split; auto.
  rewrite (V 32 33 eq_refl). unfold emit. cbn [map concat emit1]. now rewrite app_nil_r.
Qed.
Lemma starting_one s v : table_from_mcnp t_StartingMcrun s = Ok v ->
  exists x b, s = L "1starting mcrun" ++ x :: b /\ table_to_mcnp t_StartingMcrun v = L "1starting mcrun" ++ "."%char :: b.
Proof.
  intros R. destruct (plan [1] t_StartingMcrun) as [pl|] eqn:P; [|vm_compute in P; discriminate].
  assert (E : exists tl, snd (cut_free pl) = (NX (RSet {| cneg := true; cranges := [(10, 10)%N] |}), [WC "."%char]) :: tl /\ kept tl = true
     /\ skipn 0 (fst (cut_free pl)) = chars (L "1starting mcrun")).
  { vm_compute in P. injection P as <-. eexists. repeat split; vm_compute; reflexivity. }
  destruct E as (tl & E2 & K & E1).
  assert (C : compile false (t_pat t_StartingMcrun) = whole (body t_StartingMcrun)) by (apply compiled; cbn [In]; tauto).
  destruct (table_one [1] t_StartingMcrun pl _ _ _ _ tl s v C P E1 E2 K R) as (g & a & x & b & -> & -> & (c & (y & -> & _)) & A & _). rewrite (A eq_refl). exists y, b. auto.
Qed.
Lemma header_one s v : table_from_mcnp t_Header s = Ok v ->
  exists x b, x <> [] /\ Forall (fun c => is_space c = true) x /\ s = x ++ L "Code Name & Version" ++ b /\ table_to_mcnp t_Header v = srepeat 10 [sp] ++ L "Code Name & Version" ++ b.
Proof.
  intros R. destruct (plan [10] t_Header) as [pl|] eqn:P; [|vm_compute in P; discriminate].
  assert (C : compile false (t_pat t_Header) = whole (body t_Header)) by (apply compiled; cbn [In]; tauto).
  destruct (table_alike [10] t_Header pl s v C P R) as (g & A & _).
  assert (E : exists r tl, pl = (NX (RRep false 1 None (RSet {| cneg := false; cranges := [(9%N, 13%N); (28%N, 32%N); (133%N, 133%N); (160%N, 160%N)] |})), r) :: chars (L "Code Name & Version") ++ tl
     /\ kept tl = true /\ forall g, emit g r = srepeat 10 [sp]).
  { vm_compute in P. injection P as <-. do 2 eexists. split; [reflexivity|]. split; reflexivity. }
  destruct E as (r & tl & -> & K & EM). inversion A as [|? ? ? ? ? ? N _ _|? ? ? x ? ? (c & X) A5]; subst; [exfalso; now eapply N|].
  change (alike g (chars (L "Code Name & Version") ++ tl) s0 o) in A5.
  apply alike_app in A5 as (a2 & b2 & a2' & b2' & -> & -> & A3 & A4). apply alike_chars in A3 as [-> ->]. apply (alike_exact g _ _ _ K) in A4 as <-.
  apply W_rep_set in X as (X1 & X2 & _). exists x, b2. rewrite EM. repeat split; auto; [destruct x; [cbn in X2; lia | discriminate]|].
  eapply Forall_impl; [|exact X1]. intros y Y.
  assert (Q : forall y, implb (inset {| cneg := false; cranges := [(9%N, 13%N); (28%N, 32%N); (133%N, 133%N); (160%N, 160%N)] |} y) (is_space y) = true) by (apply all_ascii; vm_compute; reflexivity).
  specialize (Q y). cbn beta in Y. rewrite Y in Q. exact Q.
Qed.

(** * Whole files *)

Lemma first_all (ps : list str) (bs : list block) :
  Forall2 (fun p b => p <> [] /\ first_reader block all_readers ("1"%char :: p) = Some b /\ block_to_mcnp b = "1"%char :: p) ps bs ->
  blocks_of block all_readers ps = bs /\ (ps <> [] -> nl :: join [nl] (map block_to_mcnp bs) = concat (map page ps)).
Proof.
  intros F. induction F as [|p b ps bs (N & R & T) F IH]; [|destruct IH as [IH1 IH2]]; [split; [reflexivity | intros X; now elim X]|]. split.
  - cbn [blocks_of]. unfold recognise. destruct p as [|c p]; [congruence|]. rewrite R. now f_equal.
  - intros _. cbn [map concat]. clear IH1. inversion F as [|p' b' ps' bs' X F']; subst.
    + cbn [map join concat]. rewrite T, app_nil_r. reflexivity.
    + rewrite <- IH2 by discriminate. cbn [map join]. rewrite T. unfold page. cbn [app]. reflexivity.
Qed.
Lemma no_page_nil : no_page []. Proof. intros [|? ?] b E; discriminate. Qed.
Lemma file_kept h hd ps bs : no_digit_line h -> ps <> [] -> Forall no_page ps ->
  table_from_mcnp t_Header (h ++ [nl]) = Ok hd -> (exists t, h = srepeat 10 [sp] ++ "C"%char :: t) ->
  Forall2 (fun p b => p <> [] /\ first_reader block all_readers ("1"%char :: p) = Some b /\ block_to_mcnp b = "1"%char :: p) ps bs ->
  read_outp (h ++ concat (map page ps)) = Ok {| o_header := hd; o_blocks := bs |} /\
  write_outp {| o_header := hd; o_blocks := bs |} = h ++ concat (map page ps).
Proof.
  intros NH NP FP RH (t & EH) F. destruct (first_all ps bs F) as [B1 B2]. split.
  - unfold read_outp. change (h ++ concat (map page ps)) with (h ++ [] ++ concat (map page ps)). rewrite (outp_pages (list str) block (table_from_mcnp t_Header) all_readers h [] ps NH no_page_nil FP).
    + rewrite RH. cbn [bind blocks_of]. now rewrite B1.
    + destruct ps as [|p ps]; [congruence|]. exists "1"%char, (p ++ concat (map page ps)). split; [reflexivity|]. vm_compute. tauto.
  - unfold write_outp, outp_to_mcnp. cbn [o_header o_blocks]. rewrite <- B2 by exact NP.
    assert (E : table_to_mcnp t_Header hd = h ++ [nl]).
    { destruct (header_one _ _ RH) as (x & b & NX & AX & E1 & ->). rewrite E1. f_equal. rewrite EH in E1. rewrite <- app_assoc in E1. cbn [app] in E1.
      revert NX AX E1. clear. generalize (t ++ [nl]). intros t' NX AX E1.
      assert (G : forall n x, Forall (fun c => is_space c = true) x -> repeat sp n ++ "C"%char :: t' = x ++ L "Code Name & Version" ++ b -> x = repeat sp n).
      { clear. induction n as [|n IH]; intros x A E.
        - destruct x as [|y x]; auto. cbn in E. injection E as <- _. inversion A as [|? ? Y _]. discriminate Y.
        - destruct x as [|y x]; [discriminate E|]. cbn [repeat app] in E. injection E as <- E. inversion A; subst. cbn [repeat]. f_equal. now apply IH. }
      symmetry. apply (G 10 x AX). exact E1. }
    rewrite E, <- app_assoc. reflexivity.
Qed.

(** * The frames *)

Section Frames.
  Variable H B : Type.
  Variable number : B -> option str.
  Let seqb_true := seqb_eq.
  Lemma frame_set_in d k b k' b' : NoDup (map fst d) ->
    (In (k', b') (frame_set B d k b) <-> (k' = k /\ b' = b) \/ (k' <> k /\ In (k', b') d)) /\ NoDup (map fst (frame_set B d k b)) /\
    (forall x, In x (map fst (frame_set B d k b)) <-> x = k \/ In x (map fst d)).
  Proof.
    induction d as [|[k0 b0] d IH]; intros ND; cbn [frame_set map fst].
    - cbn [map fst In]. split; [|split; [repeat constructor; auto | intros x; split; intuition]].
      split; [intros [E|[]]; injection E as -> ->; auto | intros [[-> ->]|[_ []]]; auto].
    - cbn [map fst] in ND. inversion ND as [|? ? N1 N2]; subst. destruct (IH N2) as (I1 & I2 & I3). clear IH.
      destruct (seqb k0 k) eqn:E.
      + apply seqb_true in E. subst k0. cbn [map fst In]. split; [|split; [exact ND | intros x; intuition]]. split.
        * intros [X|X]; [injection X as -> ->; auto|]. right. split; [|auto]. intros ->. apply N1. now apply (in_map fst) in X.
        * intros [[-> ->]|[NK [X|X]]]; auto. injection X as -> _. congruence.
      + assert (NK : k0 <> k) by (intros ->; rewrite (proj2 (seqb_true k k) eq_refl) in E; discriminate).
        cbn [map fst In]. split; [|split].
        * rewrite I1. split; [intros [X|[X|[X Y]]]; auto; [injection X as -> ->; auto] | intros [X|[X [Y|Y]]]; auto].
        * constructor; auto. rewrite I3. intros [X|X]; auto.
        * intros x. rewrite I3. intuition.
  Qed.
  Lemma frames_in (l : list B) : forall d, NoDup (map fst d) ->
    let e := fold_left (fun d b => match number b with Some k => frame_set B d k b | None => d end) l d in
    NoDup (map fst e) /\
    forall k b, In (k, b) e <->
      (exists l1 l2, l = l1 ++ b :: l2 /\ number b = Some k /\ Forall (fun c => number c <> Some k) l2) \/
      (In (k, b) d /\ Forall (fun c => number c <> Some k) l).
  Proof.
    induction l as [|a l IH]; intros d ND; cbn zeta; cbn [fold_left].
    - split; auto. intros k b. split; [auto|]. intros [(l1 & l2 & E & _)|[X _]]; auto. destruct l1; discriminate.
    - assert (ND' : NoDup (map fst (match number a with Some k => frame_set B d k a | None => d end))).
      { destruct (number a) as [k|]; auto. now apply (frame_set_in d k a k a). }
      destruct (IH _ ND') as [J1 J2]. split; [exact J1|]. intros k b. rewrite J2. clear J1 J2 IH ND'. split.
      + intros [(l1 & l2 & -> & E & F)|[X F]]; [left; exists (a :: l1), l2; auto|].
        destruct (number a) as [ka|] eqn:NA.
        * apply (frame_set_in d ka a k b ND) in X as [[-> ->]|[NK X]]; [left; exists [], l; auto | right; split; auto; constructor; auto; congruence].
        * right. split; auto. constructor; auto. congruence.
      + intros [(l1 & l2 & E & NB & F)|[X F]].
        * destruct l1 as [|a' l1]; injection E as -> ->; [|left; eauto].
          right. split; auto. rewrite NB. apply (frame_set_in d k b k b ND). auto.
        * inversion F as [|? ? NA F']; subst. right. split; auto. destruct (number a) as [ka|]; auto. apply (frame_set_in d ka a k b ND). right. split; auto. congruence.
  Qed.
  Lemma dataframe_last (x : outp H B) k b : In (k, b) (dataframe H B number x) <->
    exists l1 l2, o_blocks x = l1 ++ b :: l2 /\ number b = Some k /\ Forall (fun c => number c <> Some k) l2.
  Proof.
    unfold dataframe. destruct (frames_in (o_blocks x) [] (NoDup_nil _)) as [_ J]. rewrite J. split; [intros [X|[[] _]]; exact X | auto].
  Qed.
End Frames.
