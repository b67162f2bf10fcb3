(** Lemmas about preparing a text that has been prepared already. *)

From Coq Require Import Ascii String NArith ZArith Bool Arith List Lia.
From Verif Require Import PyStr Regex RegexFacts PyNum Types TypesSpec CardText Cards Tables CardTextSpec CardTextFacts3 CardTextFacts5 PiecesSpec CaseSpec CaseFacts3.
From Verif Require CardsFacts2 CardTextFacts6.
Import ListNotations.

Definition settled (w : str) : Prop := clean w /\ forall k n, ~ counted k n w.
Lemma name_short k : is_short k (short_name k) = true.
Proof. destruct k; reflexivity. Qed.
Lemma name_small k : slower (short_name k) = short_name k.
Proof. destruct k; reflexivity. Qed.
Lemma name_clean k : clean (short_name k).
Proof. destruct k; repeat split; try discriminate; try (intros HI; simpl in HI; repeat destruct HI as [HI|HI]; auto; discriminate); repeat constructor. Qed.
Lemma name_settled k : settled (short_name k).
Proof. split; [apply name_clean|]. intros k' n. exact (short_uncounted k k' n _ (name_short k)). Qed.
Lemma reads_small w u : reads_as w u -> slower u = slower w.
Proof. intros [->|(k & S & ->)]; [reflexivity|]. apply CardsFacts2.seqb_eq in S. now rewrite S, name_small. Qed.
Lemma reads_settled w u : settled w -> reads_as w u -> settled u.
Proof. intros H [->|(k & _ & ->)]; [exact H|apply name_settled]. Qed.
Lemma stands_settled w vs : clean w -> stands_for w vs -> Forall settled vs.
Proof.
  intros C H. revert C. destruct H as [k n v _|v N]; intros C; [|constructor; [split; assumption|constructor]]. apply Forall_forall. intros u I. apply repeat_spec in I as ->. apply name_settled.
Qed.
Lemma all_settled ws vss : Forall clean ws -> Forall2 stands_for ws vss -> Forall settled (concat vss).
Proof. intros C F. induction F as [|w vs ws vss H F IH]; [constructor|]. inversion C. subst. cbn [concat]. apply Forall_app. split; [eapply stands_settled; eassumption|auto]. Qed.
Lemma settled_reads vs us : Forall settled vs -> Forall2 reads_as vs us -> Forall settled us.
Proof. intros S F. induction F as [|v u vs us H F IH]; [constructor|]. inversion S. subst. constructor; [eapply reads_settled; eassumption|auto]. Qed.
Lemma again w us : clean w -> Forall settled us -> exists us', Forall2 reads_as us us' /\ preprocess (join [sp] (w :: us)) = join [sp] (w :: us').
Proof.
  intros C S. rewrite Forall_forall in S. destruct (expansion w us (map (fun u => [u]) us) C) as (us' & F & E).
  - apply Forall_forall. intros u I. exact (proj1 (S u I)).
  - assert (G : forall l, (forall u, In u l -> settled u) -> Forall2 stands_for l (map (fun u => [u]) l)); [|exact (G us S)].
    induction l as [|u l IH]; intros HS; [constructor|]. cbn [map]. constructor; [|apply IH; intros v I; apply HS; right; exact I]. apply SF_word. exact (proj2 (HS u (or_introl eq_refl))).
  - intros v k I. exact (proj2 (S v I) k 0%N).
  - intros k _ (u & v & (a & b & ->) & _ & _ & [[n H]|[n H]]); [apply (proj2 (S u ltac:(apply in_or_app; right; left; reflexivity)) k n H)|].
    exact (proj2 (S v ltac:(apply in_or_app; right; right; left; reflexivity)) k n H).
  - exists us'. split; [|exact E]. replace (concat (map (fun u => [u]) us)) with us in F; [exact F|]. clear. induction us as [|u us IH]; [reflexivity|]. cbn [map concat app]. now rewrite <- IH.
Qed.
Lemma reads_join w us us' : Forall2 reads_as us us' -> same_letters (join [sp] (w :: us')) (join [sp] (w :: us)).
Proof.
  intros F. unfold same_letters. rewrite !join_low. f_equal. cbn [map]. f_equal. induction F as [|u v us us' H F IH]; [reflexivity|]. cbn [map]. now rewrite (reads_small u v H), IH.
Qed.
Lemma twice_letters w ws vss : clean w -> Forall clean ws -> Forall2 stands_for ws vss ->
  (forall v k, In v ws -> ~ counted k 0 v) -> (forall k, k <> Sj -> ~ crowded k ws) ->
  same_letters (preprocess (preprocess (join [sp] (w :: ws)))) (preprocess (join [sp] (w :: ws))).
Proof.
  intros C CS F Z K. destruct (expansion w ws vss C CS F Z K) as (us & R & ->). destruct (again w us C (settled_reads _ _ (all_settled _ _ CS F) R)) as (us' & R' & ->). exact (reads_join w us us' R').
Qed.
Definition lowly (w : str) : Prop := forall k, is_short k w = true -> w = short_name k.
Lemma kind_unique k k' w : is_short k w = true -> is_short k' w = true -> k = k'.
Proof. unfold is_short. rewrite !CardsFacts2.seqb_eq. intros ->. destruct k, k'; intros H; try reflexivity; discriminate H. Qed.
Lemma name_lowly k : lowly (short_name k).
Proof. intros k' H. now rewrite (kind_unique _ _ _ H (name_short k)). Qed.
Lemma reads_lowly us us' : Forall lowly us -> Forall2 reads_as us us' -> us' = us.
Proof.
  intros H F. induction F as [|u v us us' R F IH]; [reflexivity|]. inversion H. subst. rewrite IH by assumption. destruct R as [->|(k & S & ->)]; [reflexivity|]. match goal with X : lowly u |- _ => now rewrite <- (X k S) end.
Qed.
Lemma stands_lowly ws vss : Forall lowly ws -> Forall2 stands_for ws vss -> Forall lowly (concat vss).
Proof.
  intros H F. induction F as [|w vs ws vss R F IH]; [constructor|]. inversion H. subst. cbn [concat]. apply Forall_app. split; [|auto]. match goal with X : lowly w |- _ => revert X end. destruct R as [k n v _|v _]; intros X; [|constructor; [exact X|constructor]].
  apply Forall_forall. intros u I. apply repeat_spec in I as ->. apply name_lowly.
Qed.
Lemma twice_exact w ws vss : clean w -> Forall clean ws -> Forall2 stands_for ws vss ->
  (forall v k, In v ws -> ~ counted k 0 v) -> (forall k, k <> Sj -> ~ crowded k ws) -> (forall v k, In v ws -> is_short k v = true -> v = short_name k) ->
  preprocess (preprocess (join [sp] (w :: ws))) = preprocess (join [sp] (w :: ws)).
Proof.
  intros C CS F Z K LW. destruct (expansion w ws vss C CS F Z K) as (us & R & ->). assert (HL : Forall lowly ws) by (apply Forall_forall; intros v I k; exact (LW v k I)).
  pose proof (reads_lowly _ _ (stands_lowly _ _ HL F) R) as ->. destruct (again w (concat vss) C (all_settled _ _ CS F)) as (us' & R' & ->). now rewrite (reads_lowly _ _ (stands_lowly _ _ HL F) R').
Qed.
Lemma option_prepared n s : preprocess (preprocess s) = preprocess s -> family_from_mcnp ext fam (fam n) (preprocess s) = family_from_mcnp ext fam (fam n) s.
Proof. intros E. unfold family_from_mcnp. cbv zeta. now rewrite E. Qed.
Lemma twice_option n w ws vss : clean w -> Forall clean ws -> Forall2 stands_for ws vss ->
  (forall v k, In v ws -> ~ counted k 0 v) -> (forall k, k <> Sj -> ~ crowded k ws) -> (forall v k, In v ws -> is_short k v = true -> v = short_name k) ->
  family_from_mcnp ext fam (fam n) (preprocess (join [sp] (w :: ws))) = family_from_mcnp ext fam (fam n) (join [sp] (w :: ws)).
Proof. intros C CS F Z K LW. exact (option_prepared n _ (twice_exact w ws vss C CS F Z K LW)). Qed.
Lemma twice_texts : forall x, In x [(L "imp:n 1r 2r 3r", L "imp:n r 2r r r r", L "imp:n r r r 3r"); (L "x J 2j", L "x J j j", L "x j j j"); (L "x = = 3", L "x  3", L "x 3")] ->
  preprocess (fst (fst x)) = snd (fst x) /\ preprocess (snd (fst x)) = snd x /\ snd (fst x) <> snd x.
Proof. intros x [<-|[<-|[<-|[]]]]; (split; [vm_compute; reflexivity|]); (split; [vm_compute; reflexivity|]); discriminate. Qed.
Lemma twice_read : family_from_mcnp ext fam (fam "cell_CellOption") (L "imp:n = = 1") = Lib InpError /\
  exists c o, family_from_mcnp ext fam (fam "cell_CellOption") (preprocess (L "imp:n = = 1")) = Ok (c, o).
Proof. split; [vm_compute; reflexivity|]. eexists. eexists. vm_compute. reflexivity. Qed.
Lemma twice_case : exists w ws vss, clean w /\ Forall clean ws /\ Forall2 stands_for ws vss /\
  (forall v k, In v ws -> ~ counted k 0 v) /\ (forall k, k <> Sj -> ~ crowded k ws) /\ (forall v k, In v ws -> is_short k v = true -> v = short_name k) /\
  preprocess (join [sp] (w :: ws)) <> join [sp] (w :: ws).
Proof.
  assert (C2 : counted Sr 2 (L "2r")).
  { exists (L "2"), (L "r"). split; [reflexivity|]. split; [discriminate|]. split; [repeat constructor|]. split; reflexivity. }
  assert (CL : forall v, In v [L "imp:n"; L "5"; L "2r"] -> clean v).
  { intros v [<-|[<-|[<-|[]]]]; repeat split; try discriminate; try (intros HI; simpl in HI; repeat destruct HI as [HI|HI]; auto; discriminate); repeat constructor. }
  assert (N5 : forall k n, ~ counted k n (L "5")).
  { intros k n (ds & t & E & ND & _ & _ & S). destruct ds as [|d ds]; [now elim ND|]. injection E as _ E. destruct ds; [|discriminate E]. cbn [app] in E. rewrite <- E in S. destruct k; discriminate S. }
  assert (S5 : forall k, is_short k (L "5") = false) by (intros k; destruct k; reflexivity).
  exists (L "imp:n"), [L "5"; L "2r"], [[L "5"]; repeat (L "r") 2]. split; [apply CL; simpl; auto|]. split; [constructor; [apply CL; simpl; auto|constructor; [apply CL; simpl; auto|constructor]]|].
  split; [constructor; [exact (SF_word _ N5)|constructor; [exact (SF_count Sr 2 _ C2)|constructor]]|].
  split; [intros v k [<-|[<-|[]]] H; [exact (N5 _ _ H)|destruct (counted_unique _ _ _ _ _ C2 H) as [_ E]; discriminate E]|].
  split.
  - intros k _ (u & v & (a & b & E) & SU & SV & _). destruct a as [|x a]; [|destruct a as [|y a]; [discriminate E|destruct a; discriminate E]]. injection E as <- _ _. destruct SU as [SU|[n SU]]; [rewrite S5 in SU; discriminate SU|exact (N5 _ _ SU)].
  - split; [|vm_compute; discriminate]. intros v k [<-|[<-|[]]] H; [rewrite S5 in H; discriminate H|destruct k; discriminate H].
Qed.
Lemma clean_text w ws : clean w -> Forall clean ws -> ~ In "$"%char (join [sp] (w :: ws)).
Proof.
  revert w. induction ws as [|v ws IH]; intros w C F I; cbn [join] in I; [exact (proj1 (proj2 (proj2 (proj2 C))) I)|]. inversion F. subst.
  apply in_app_or in I as [I|I]; [exact (proj1 (proj2 (proj2 (proj2 C))) I)|]. apply in_app_or in I as [[I|[]]|I]; [discriminate I|]. refine (IH v _ _ I); assumption.
Qed.
Lemma card_prepared c s : ~ In "$"%char s -> ~ In "$"%char (preprocess s) -> preprocess (preprocess s) = preprocess s -> card_from_mcnp ext fam c (preprocess s) = card_from_mcnp ext fam c s.
Proof. intros N N' E. unfold card_from_mcnp. rewrite (CardTextFacts6.card_nocomment s N), (CardTextFacts6.card_nocomment _ N'). now rewrite E. Qed.
Lemma twice_card c w ws vss : clean w -> Forall clean ws -> Forall2 stands_for ws vss ->
  (forall v k, In v ws -> ~ counted k 0 v) -> (forall k, k <> Sj -> ~ crowded k ws) -> (forall v k, In v ws -> is_short k v = true -> v = short_name k) ->
  card_from_mcnp ext fam c (preprocess (join [sp] (w :: ws))) = card_from_mcnp ext fam c (join [sp] (w :: ws)).
Proof.
  intros C CS F Z K LW. apply card_prepared; [exact (clean_text w ws C CS)| |exact (twice_exact w ws vss C CS F Z K LW)].
  destruct (expansion w ws vss C CS F Z K) as (us & R & ->). apply clean_text; [exact C|]. eapply Forall_impl; [|exact (settled_reads _ _ (all_settled _ _ CS F) R)]. intros u [H _]. exact H.
Qed.
