(** Facts about OUTP files: their pages and what becomes of them. *)

From Coq Require Import Ascii String NArith Bool Arith List Lia.
From Verif Require Import PyStr Regex RegexParse RegexFacts RegexLang Types OutpTables Outp OutpSpec OutpFacts.
Import ListNotations.
Open Scope list_scope.
Open Scope nat_scope.

(** * One place where the text is not kept *)

Lemma alike_app g l1 l2 : forall s o, alike g (l1 ++ l2) s o ->
  exists a b a' b', s = a ++ b /\ o = a' ++ b' /\ alike g l1 a a' /\ alike g l2 b b'.
Proof.
  induction l1 as [|[n w] l1 IH]; intros s o A.
  - exists [], s, [], o. repeat split; auto. constructor.
  - cbn [app] in A. inversion A as [|? ? ? ? ? ? N E A'|? ? ? ? ? ? X A']; subst;
      destruct (IH _ _ A') as (a & b & a' & b' & -> & -> & A1 & A2).
    + exists (emit g w ++ a), b, (emit g w ++ a'), b'. rewrite !app_assoc. repeat split; auto. now constructor.
    + exists (t ++ a), b, (emit g w ++ a'), b'. rewrite !app_assoc. repeat split; auto. now constructor.
Qed.
Definition kept (l : list (node * list wnode)) : bool := forallb (fun x => match fst x with NX _ => false | _ => true end) l.
Fixpoint cut_free (l : list (node * list wnode)) : list (node * list wnode) * list (node * list wnode) :=
  match l with
  | [] => ([], [])
  | (NX r, w) :: t => ([], (NX r, w) :: t)
  | x :: t => let (a, b) := cut_free t in (x :: a, b)
  end.
Lemma cut_free_app l : l = fst (cut_free l) ++ snd (cut_free l).
Proof. induction l as [|[[c|i r|r] w] l IH]; cbn [cut_free]; auto; destruct (cut_free l); cbn [fst snd app] in *; now rewrite IH. Qed.
Lemma cut_free_kept l : kept (fst (cut_free l)) = true.
Proof. unfold kept. induction l as [|[[c|i r|r] w] l IH]; cbn [cut_free]; auto; destruct (cut_free l); cbn [fst forallb] in *; auto. Qed.

Definition one_free (pl : list (node * list wnode)) (r : re) (w : list wnode) : bool :=
  match snd (cut_free pl) with (NX _, _) :: t => kept t | _ => false end.
Lemma alike_one g pl r w t s o : snd (cut_free pl) = (NX r, w) :: t -> kept t = true -> alike g pl s o ->
  exists a x b, s = a ++ x ++ b /\ o = a ++ emit g w ++ b /\ (exists c, W r x c).
Proof.
  intros E K A. rewrite (cut_free_app pl) in A. apply alike_app in A as (a & b & a' & b' & -> & -> & A1 & A2).
  apply (alike_exact _ _ _ _ (cut_free_kept pl)) in A1. subst a'. rewrite E in A2.
  inversion A2 as [|? ? ? ? ? ? N _ _|? ? ? x ? ? X A3]; subst; [exfalso; now apply (N r)|].
  apply (alike_exact _ _ _ _ K) in A3. subst. eauto 10.
Qed.

(** * Pages *)

Definition is_one (s : str) : bool := match s with c :: d :: _ => Ascii.eqb c nl && Ascii.eqb d "1" | _ => false end.
Definition is_dig (s : str) : bool := match s with c :: d :: _ => Ascii.eqb c nl && existsb (Ascii.eqb d) (L "0123456789") | _ => false end.

Definition r_one : re := RCat (RSet {| cneg := false; cranges := [(10%N, 10%N)] |}) (RSet {| cneg := false; cranges := [(49%N, 49%N)] |}).
Lemma re_one : compile false (L "\n1") = r_one. Proof. reflexivity. Qed.
Definition r_dig : re := RGrp 1 (RCat (RSet {| cneg := false; cranges := [(10%N, 10%N)] |}) (RSet {| cneg := false; cranges := [(48%N, 57%N)] |})).
Lemma re_dig : compile false (L "(\n\d)") = r_dig. Proof. reflexivity. Qed.
Lemma inset_nl c : inset {| cneg := false; cranges := [(10%N, 10%N)] |} c = Ascii.eqb c nl.
Proof. apply Bool.eqb_prop. revert c. apply all_ascii. vm_compute. reflexivity. Qed.
Lemma inset_one c : inset {| cneg := false; cranges := [(49%N, 49%N)] |} c = Ascii.eqb c "1".
Proof. apply Bool.eqb_prop. revert c. apply all_ascii. vm_compute. reflexivity. Qed.
Lemma inset_dig c : inset {| cneg := false; cranges := [(48%N, 57%N)] |} c = existsb (Ascii.eqb c) (L "0123456789").
Proof. apply Bool.eqb_prop. revert c. apply all_ascii. vm_compute. reflexivity. Qed.

Lemma at_one p s : match_at r_one p s =
  if is_one s then match s with c :: d :: t => Some {| mpre := p; mtext := [c; d]; mrest := t; mcaps := [] |} | _ => None end else None.
Proof.
  unfold match_at, r_one. destruct s as [|c [|d t]]; cbn [m rest is_one]; rewrite ?inset_nl; [reflexivity| |].
  - destruct (Ascii.eqb c nl); reflexivity.
  - destruct (Ascii.eqb c nl); cbn [andb rest]; [|reflexivity]. rewrite inset_one. destruct (Ascii.eqb d "1"); [|reflexivity].
    cbn [rest length pre caps]. replace (S (S (length t)) - length t) with 2 by lia. reflexivity.
Qed.
Lemma at_dig p s : match_at r_dig p s =
  if is_dig s then match s with c :: d :: t => Some {| mpre := p; mtext := [c; d]; mrest := t; mcaps := [(1, [c; d])] |} | _ => None end else None.
Proof.
  unfold match_at, r_dig. destruct s as [|c [|d t]]; cbn [m rest is_dig]; rewrite ?inset_nl; [reflexivity| |].
  - destruct (Ascii.eqb c nl); reflexivity.
  - destruct (Ascii.eqb c nl); cbn [andb rest]; [|reflexivity]. rewrite inset_dig. destruct (existsb _ _); [|reflexivity].
    unfold addcap. cbn [rest length pre caps]. replace (S (S (length t)) - length t) with 2 by lia. reflexivity.
Qed.

Lemma is_one_page s : is_one s = true <-> exists b, s = page b.
Proof.
  unfold page. split.
  - destruct s as [|c [|d t]]; try discriminate. cbn [is_one]. intros H. apply andb_prop in H as [H1 H2].
    apply Ascii.eqb_eq in H1, H2. subst. eauto.
  - intros [b ->]. reflexivity.
Qed.
Lemma no_page_cons c s : no_page (c :: s) -> is_one (c :: s) = false /\ no_page s.
Proof.
  intros H. split.
  - destruct (is_one (c :: s)) eqn:E; [|reflexivity]. apply is_one_page in E as [b E]. exfalso. exact (H [] b E).
  - intros a b ->. exact (H (c :: a) b eq_refl).
Qed.
Lemma is_one_app q t : q <> [] -> is_one q = false -> (t = [] \/ exists b, t = page b) -> is_one (q ++ t) = false.
Proof.
  intros N H [->|[b ->]]; [now rewrite app_nil_r|]. destruct q as [|c [|d q]]; [now elim N| |exact H].
  cbn [app is_one page]. now rewrite andb_false_r.
Qed.

Lemma split_run q : forall fuel p cur t, no_page q -> (t = [] \/ exists b, t = page b) -> length (q ++ t) < fuel ->
  exists fuel' p', length t < fuel' /\ resplit_f fuel r_one p (q ++ t) cur = resplit_f fuel' r_one p' t (rev q ++ cur).
Proof.
  induction q as [|c q IH]; intros fuel p cur t NP T F.
  - exists fuel, p. split; [exact F | reflexivity].
  - destruct (no_page_cons _ _ NP) as [O NP']. destruct fuel as [|f]; [cbn in F; lia|].
    assert (E : is_one ((c :: q) ++ t) = false) by (apply is_one_app; [discriminate | exact O | exact T]).
    cbn [resplit_f]. rewrite at_one, E. cbn [app] in *. destruct (IH f (c :: p) (c :: cur) t NP' T) as (f' & p' & L' & R); [cbn in F; lia|].
    exists f', p'. split; [exact L'|]. rewrite R. cbn [rev]. now rewrite <- app_assoc.
Qed.
Lemma concat_page ps : concat (map page ps) = [] \/ exists b, concat (map page ps) = page b.
Proof. destruct ps as [|p ps]; [now left|]. right. cbn [map concat]. exists (p ++ concat (map page ps)). reflexivity. Qed.
Lemma split_pages q ps : no_page q -> Forall no_page ps -> resplit r_one (q ++ concat (map page ps)) = q :: ps.
Proof.
  intros NQ F. unfold resplit.
  assert (G : forall fuel p cur, length (q ++ concat (map page ps)) < fuel ->
    resplit_f fuel r_one p (q ++ concat (map page ps)) cur = (rev cur ++ q) :: ps).
  { revert q NQ. induction F as [|a ps A F IH]; intros q NQ fuel p cur LF.
    - cbn [map concat] in *. destruct (split_run q fuel p cur [] NQ) as (f & p' & L' & ->); [now left | exact LF|].
      destruct f as [|f]; [lia|]. cbn [resplit_f]. rewrite at_one. cbn [is_one]. now rewrite rev_app_distr, rev_involutive.
    - cbn [map concat] in *. destruct (split_run q fuel p cur (page a ++ concat (map page ps)) NQ) as (f & p' & L' & ->);
        [right; eexists; reflexivity | exact LF|].
      destruct f as [|f]; [lia|]. unfold page at 1. cbn [app resplit_f]. rewrite at_one.
      change (is_one (nl :: "1"%char :: a ++ concat (map page ps))) with true. cbn [mtext mrest].
      rewrite rev_app_distr, rev_involutive. f_equal. rewrite IH; [reflexivity | exact A|].
      unfold page in L' at 1. cbn [app length] in L'. lia. }
  now rewrite G by lia.
Qed.

Lemma digit_dec d : existsb (Ascii.eqb d) (L "0123456789") = true <-> digit d.
Proof.
  unfold digit. rewrite existsb_exists. split.
  - intros (x & I & E). apply Ascii.eqb_eq in E. now subst.
  - intros I. exists d. split; [exact I | apply Ascii.eqb_refl].
Qed.
Lemma is_dig_line s : is_dig s = true <-> exists d b, s = nl :: d :: b /\ digit d.
Proof.
  split.
  - destruct s as [|c [|d t]]; try discriminate. cbn [is_dig]. intros H. apply andb_prop in H as [H1 H2].
    apply Ascii.eqb_eq in H1. apply digit_dec in H2. subst. eauto.
  - intros (d & b & -> & D). cbn [is_dig]. apply digit_dec in D. now rewrite D.
Qed.
Lemma no_digit_cons c s : no_digit_line (c :: s) -> is_dig (c :: s) = false /\ no_digit_line s.
Proof.
  intros H. split.
  - destruct (is_dig (c :: s)) eqn:E; [|reflexivity]. apply is_dig_line in E as (d & b & E & D). exfalso. exact (H [] d b E D).
  - intros a d b ->. exact (H (c :: a) d b eq_refl).
Qed.
Lemma nl_no_digit : ~ digit nl. Proof. unfold digit. cbn. intuition discriminate. Qed.

Lemma search_none s : no_digit_line s -> forall p, search r_dig p s = None.
Proof.
  induction s as [|c s IH]; intros H p; cbn [search]; rewrite at_dig; [reflexivity|].
  destruct (no_digit_cons _ _ H) as [-> H']. now apply IH.
Qed.
Lemma search_first h d t : no_digit_line h -> digit d -> forall p,
  search r_dig p (h ++ nl :: d :: t) = Some {| mpre := rev h ++ p; mtext := [nl; d]; mrest := t; mcaps := [(1, [nl; d])] |}.
Proof.
  intros H D. induction h as [|c h IH]; intros p.
  - cbn [app]. assert (E : is_dig (nl :: d :: t) = true) by (apply is_dig_line; eauto). cbn [search]. now rewrite at_dig, E.
  - destruct (no_digit_cons _ _ H) as [O H']. cbn [search app].
    assert (E : is_dig (c :: h ++ nl :: d :: t) = false).
    { destruct h as [|x h]; [|exact O]. cbn [app is_dig]. destruct (Ascii.eqb c nl); reflexivity. }
    rewrite at_dig, E, IH; [|exact H']. cbn [rev]. now rewrite <- app_assoc.
Qed.

(** Every text has such a form. *)
Lemma first_digit s : no_digit_line s \/ exists h d t, s = h ++ nl :: d :: t /\ no_digit_line h /\ digit d.
Proof.
  induction s as [|c s IH].
  - left. intros [|? ?] d b E; discriminate.
  - destruct (is_dig (c :: s)) eqn:E.
    + apply is_dig_line in E as (d & b & -> & D). right. exists [], d, b. repeat split; auto. intros [|? ?] ? ? E; discriminate.
    + assert (G : forall h, no_digit_line h -> (exists t, c :: s = c :: h ++ t) -> no_digit_line (c :: h)).
      { intros h H [t X] a d b Y D. destruct a as [|y a]; [|injection Y as -> ->; exact (H a d b eq_refl D)].
        cbn [app] in Y. injection Y as -> ->. injection X as ->. assert (Z : is_dig (nl :: (d :: b) ++ t) = true) by (apply is_dig_line; cbn [app]; eauto).
        cbn [app] in *; congruence. }
      destruct IH as [H|(h & d & t & -> & H & D)].
      * left. apply G; [exact H | exists []; now rewrite app_nil_r].
      * right. exists (c :: h), d, t. repeat split; auto. apply G; [exact H | eauto].
Qed.
Lemma cut_pages s : exists q ps, s = q ++ concat (map page ps) /\ no_page q /\ Forall no_page ps.
Proof.
  assert (E : forall n s, length s <= n -> exists q ps, s = q ++ concat (map page ps) /\ no_page q /\ Forall no_page ps).
  { clear s. induction n as [|n IH]; intros s LN.
    - destruct s; [|cbn in LN; lia]. exists [], []. repeat split; auto. intros [|? ?] b E; discriminate.
    - destruct s as [|c s]; [exists [], []; repeat split; auto; intros [|? ?] b E; discriminate|].
      destruct (is_one (c :: s)) eqn:O.
      + apply is_one_page in O as [b E]. rewrite E in *. clear E c s. destruct (IH b) as (q & ps & -> & NQ & F); [cbn in LN; lia|].
        exists [], (q :: ps). repeat split; [intros [|? ?] ? E; discriminate | now constructor].
      + destruct (IH s) as (q & ps & -> & NQ & F); [cbn in LN; lia|]. exists (c :: q), ps. repeat split; auto.
        intros a b E. destruct a as [|x a]; [|injection E as -> ->; exact (NQ a b eq_refl)].
        assert (X : is_one (c :: q ++ concat (map page ps)) = true).
        { apply is_one_page. exists (b ++ concat (map page ps)). change (c :: q ++ concat (map page ps)) with ((c :: q) ++ concat (map page ps)). now rewrite E. }
        congruence. }
  exact (E _ s (le_n _)).
Qed.

Section File.
  Variable H B : Type.
  Variable header : str -> result H.
  Variable readers : list (str -> option B).

  Lemma first_reader_some l s b : first_reader B l s = Some b <->
    exists l1 r l2, l = l1 ++ r :: l2 /\ Forall (fun r => r s = None) l1 /\ r s = Some b.
  Proof.
    split.
    - induction l as [|r l IH]; [discriminate|]. cbn [first_reader]. destruct (r s) as [x|] eqn:E.
      + intros [= ->]. exists [], r, l. auto.
      + intros X. destruct (IH X) as (l1 & r' & l2 & -> & F & E'). exists (r :: l1), r', l2. auto.
    - intros (l1 & r & l2 & -> & F & E). induction F as [|a l1 A F IH]; cbn [app first_reader]; [now rewrite E | now rewrite A].
  Qed.
  Lemma first_reader_none l s : first_reader B l s = None <-> Forall (fun r => r s = None) l.
  Proof.
    split.
    - induction l as [|r l IH]; [constructor|]. cbn [first_reader]. destruct (r s) eqn:E; [discriminate|]. auto.
    - induction 1 as [|r l E F IH]; [reflexivity|]. cbn [first_reader]. now rewrite E.
  Qed.
  Lemma blocks_keeps ps : keeps readers ps (blocks_of B readers ps).
  Proof.
    induction ps as [|p ps IH]; [constructor|]. cbn [blocks_of]. destruct p as [|c p]; [now constructor|].
    destruct (recognise B readers ("1"%char :: c :: p)) as [b|] eqn:E; unfold recognise in E.
    - apply first_reader_some in E as (l1 & r & l2 & E & F & R). eapply keeps_block; eauto. discriminate.
    - apply first_reader_none in E. apply keeps_none; auto. discriminate.
  Qed.

  Lemma outp_pages h q ps : no_digit_line h -> no_page q -> Forall no_page ps ->
    (exists d t, q ++ concat (map page ps) = nl :: d :: t /\ digit d) ->
    outp_from_mcnp H B header readers (h ++ q ++ concat (map page ps)) =
    bind (header (h ++ [nl])) (fun hd => Ok {| o_header := hd; o_blocks := blocks_of B readers (q :: ps) |}).
  Proof.
    intros NH NQ F (d & t & E & D). unfold outp_from_mcnp, split_header. rewrite re_dig, re_one. rewrite E at 1.
    rewrite (search_first h d t NH D). cbn [mpre mtext mrest]. rewrite app_nil_r, rev_involutive. cbn [app]. rewrite <- E.
    rewrite split_pages; auto.
  Qed.
  Lemma outp_plain s : no_digit_line s ->
    outp_from_mcnp H B header readers s = bind (header s) (fun hd => Ok {| o_header := hd; o_blocks := [] |}).
  Proof. intros N. unfold outp_from_mcnp, split_header. rewrite re_dig, re_one, (search_none s N). reflexivity. Qed.

  (** The whole of it, for every text. *)
  Theorem outp_every s :
    (no_digit_line s /\ outp_from_mcnp H B header readers s = bind (header s) (fun hd => Ok {| o_header := hd; o_blocks := [] |})) \/
    exists h q ps d t bs, s = h ++ q ++ concat (map page ps) /\ no_digit_line h /\ digit d /\ q ++ concat (map page ps) = nl :: d :: t /\
      no_page q /\ Forall no_page ps /\ keeps readers (q :: ps) bs /\
      outp_from_mcnp H B header readers s = bind (header (h ++ [nl])) (fun hd => Ok {| o_header := hd; o_blocks := bs |}).
  Proof.
    destruct (first_digit s) as [N|(h & d & t & E & N & D)]; [left; split; [exact N | now apply outp_plain]|]. right.
    destruct (cut_pages (nl :: d :: t)) as (q & ps & E' & NQ & F).
    exists h, q, ps, d, t, (blocks_of B readers (q :: ps)). rewrite E, E'. repeat (split; [auto; fail|]).
    split; [apply blocks_keeps|]. apply outp_pages; auto. rewrite <- E'. eauto.
  Qed.
  Lemma keeps_unique ps bs : keeps readers ps bs -> bs = blocks_of B readers ps.
  Proof.
    induction 1 as [|ps bs K IH|p l1 r l2 b ps bs N E F R K IH|p ps bs N F K IH]; cbn [blocks_of]; auto.
    - assert (X : recognise B readers ("1"%char :: p) = Some b) by (apply first_reader_some; eauto 10).
      destruct p; [now elim N|]. rewrite X. now f_equal.
    - assert (X : recognise B readers ("1"%char :: p) = None) by (now apply first_reader_none).
      destruct p; [now elim N|]. now rewrite X.
  Qed.
End File.
