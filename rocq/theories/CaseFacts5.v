(** Lemmas about reading in small letters: all classes. *)

From Coq Require Import Ascii String NArith ZArith Bool Arith List Lia.
From Verif Require Import PyStr Regex RegexParse PyNum Types CardText Cards Tables PiecesSpec CaseSpec CaseFacts CaseFacts2 CaseFacts3 CaseFacts4.
Import ListNotations.

Lemma all_kept : forallb kept classes = true.
Proof. vm_compute. reflexivity. Qed.
Lemma families_kept : forallb (fun x => forallb kept (snd x)) families = true.
Proof. vm_compute. reflexivity. Qed.
Lemma class_kept c : In c classes -> kept c = true.
Proof. exact (proj1 (forallb_forall kept classes) all_kept c). Qed.
Lemma assoc_some {A} n (l : list (string * A)) v : assoc n l = Some v -> In (n, v) l.
Proof.
  induction l as [|[x w] l IH]; [discriminate|]. cbn [assoc]. destruct (String.eqb_spec x n) as [->|_]; [intros [= <-]; left; reflexivity|right; auto].
Qed.
Lemma fam_kept n c : In c (fam n) -> kept c = true.
Proof.
  unfold fam. destruct (assoc n families) as [l|] eqn:E; [|intros []]. apply assoc_some in E. intros I.
  pose proof (proj1 (forallb_forall _ families) families_kept (n, l) E) as Q. exact (proj1 (forallb_forall kept l) Q c I).
Qed.
Lemma library_low name s : down small (ext name s) (ext name (slower s)).
Proof. exact (ext_low fam 4 fam_kept name s). Qed.

Lemma card_small c s o cm : In c classes -> card_from_mcnp ext fam c s = Ok (o, cm) -> card_from_mcnp ext fam c (slower s) = Ok (small_obj o, map slower cm).
Proof. intros I H. exact (card_low ext fam library_low c s (class_kept c I) _ H). Qed.
Lemma card_same c s t o cm o' cm' : In c classes -> same_letters s t -> card_from_mcnp ext fam c s = Ok (o, cm) -> card_from_mcnp ext fam c t = Ok (o', cm') ->
  small_obj o = small_obj o' /\ map slower cm = map slower cm'.
Proof.
  intros I E H H'. pose proof (card_small c s o cm I H) as Q. pose proof (card_small c t o' cm' I H') as Q'. rewrite (E : slower s = slower t) in Q. rewrite Q in Q'. injection Q' as -> ->. split; reflexivity.
Qed.
Lemma option_small n s c o : family_from_mcnp ext fam (fam n) s = Ok (c, o) -> family_from_mcnp ext fam (fam n) (slower s) = Ok (c, small_obj o).
Proof. intros H. exact (family_low ext fam library_low (fam n) s (fam_kept n) _ H). Qed.
Lemma option_same n s t c o c' o' : same_letters s t -> family_from_mcnp ext fam (fam n) s = Ok (c, o) -> family_from_mcnp ext fam (fam n) t = Ok (c', o') ->
  c = c' /\ small_obj o = small_obj o'.
Proof.
  intros E H H'. pose proof (option_small n s c o H) as Q. pose proof (option_small n t c' o' H') as Q'. rewrite (E : slower s = slower t) in Q. rewrite Q in Q'. injection Q' as -> ->. split; reflexivity.
Qed.

Lemma pattern_same p s t : same_letters s t -> (re_match (compile true p) s = None <-> re_match (compile true p) t = None).
Proof.
  intros E. pose proof (re_match_low (compile true p) s (caseless_compile p)) as A. pose proof (re_match_low (compile true p) t (caseless_compile p)) as B.
  rewrite (E : slower s = slower t), B in A. destruct (re_match (compile true p) s), (re_match (compile true p) t); try discriminate A; split; congruence.
Qed.
Lemma preprocess_same s t : same_letters s t -> same_letters (preprocess s) (preprocess t).
Proof. unfold same_letters. intros E. now rewrite <- !preprocess_low, E. Qed.
Definition named (n : string) (c : cls) : bool := String.eqb n (c_name c).
Lemma number_case : exists o, same_letters (L "nps e5") (L "nps E5") /\
  card_from_mcnp ext fam k_Nps (L "nps e5") = Ok (o, []) /\ card_from_mcnp ext fam k_Nps (L "nps E5") = Lib TypesError.
Proof. eexists. split; [reflexivity|]. split; vm_compute; reflexivity. Qed.
Lemma find_class c l : find (named (c_name c)) l = Some c -> In c l.
Proof. intros H. exact (proj1 (find_some _ _ H)). Qed.
Lemma word_case : forall x, In x [(k_Totnu, L "totnu no", L "totnu NO"); (k_F_1, L "f5:p 1 2 3 4 nd", L "f5:p 1 2 3 4 ND")] ->
  In (fst (fst x)) classes /\ same_letters (snd (fst x)) (snd x) /\
  (exists o, card_from_mcnp ext fam (fst (fst x)) (snd (fst x)) = Ok (o, [])) /\ card_from_mcnp ext fam (fst (fst x)) (snd x) = Lib InpError.
Proof.
  intros x [<-|[<-|[]]]; cbn [fst snd].
  - split; [apply find_class; vm_compute; reflexivity|]. split; [reflexivity|]. split; [eexists|]; vm_compute; reflexivity.
  - split; [apply find_class; vm_compute; reflexivity|]. split; [reflexivity|]. split; [eexists|]; vm_compute; reflexivity.
Qed.
Lemma sdef_case : exists c s o cm, In c classes /\ slower s <> s /\ card_from_mcnp ext fam c s = Ok (o, cm) /\ small_obj o <> o /\ cm <> [].
Proof.
  exists k_Sdef, (L "SDEF ERG=1.25 PAR=P $ A Photon"). eexists. eexists. split; [apply find_class; vm_compute; reflexivity|]. split; [discriminate|].
  split; [vm_compute; reflexivity|]. split; [vm_compute|]; discriminate.
Qed.
Lemma nps_case : exists o, card_from_mcnp ext fam k_Nps (L "NPS 1E5") = Ok (o, []) /\ card_from_mcnp ext fam k_Nps (L "nps 1e5") = Ok (o, []).
Proof. eexists. split; vm_compute; reflexivity. Qed.
