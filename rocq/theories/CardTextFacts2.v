(** Facts about shorthand runs ([compress], [expand]): what they do to the
    words of a text. *)

From Coq Require Import Ascii String NArith ZArith Bool Arith Lia List.
From Verif Require Import PyStr Regex RegexParse RegexFacts RegexLang PyNum PyNumFacts Types TypesSpec TypesFacts TypesFacts3 TypesFacts4 SubFacts CardText CardTextSpec CardTextFacts.
Import ListNotations.
Open Scope char_scope.

(** * Fixed sequences of character sets *)

Fixpoint rcats (css : list cset) (r : re) : re :=
  match css with [] => r | c :: l => RCat (RSet c) (rcats l r) end.

(** What is left of [s] after one character of each set. *)
Fixpoint eats (css : list cset) (s : str) : option str :=
  match css, s with
  | [], _ => Some s
  | c :: l, x :: t => if inset c x then eats l t else None
  | _ :: _, [] => None
  end.

Lemma eats_split css s t : eats css s = Some t -> exists u, s = u ++ t /\ length u = length css.
Proof.
  revert s. induction css as [|c l IH]; intros s H; simpl in H.
  - injection H as <-. now exists [].
  - destruct s as [|x s]; [discriminate|]. destruct (inset c x); [|discriminate].
    destruct (IH _ H) as (u & -> & E). exists (x :: u). simpl. auto.
Qed.

Lemma m_rcats A css r p s cp (k : st -> option A) :
  m (rcats css r) (mkst p s cp) k =
  match eats css s with
  | Some t => m r (mkst (rev (firstn (length css) s) ++ p) t cp) k
  | None => None
  end.
Proof.
  revert p s. induction css as [|c l IH]; intros p s; cbn [rcats eats length firstn rev app]; auto.
  destruct s as [|x s]; auto. cbn [m rest pre caps]. destruct (inset c x); auto. rewrite IH.
  cbn [firstn rev]. now rewrite <- app_assoc.
Qed.

Definition nosps (css : list cset) : bool := forallb (fun c => negb (inset c sp)) css.

Lemma eats_word css w t : nosps css = true -> bnd t ->
  eats css (w ++ t) = match eats css w with Some u => Some (u ++ t) | None => None end.
Proof.
  revert w. induction css as [|c l IH]; intros w HN HT; cbn [eats]; auto.
  simpl in HN. apply andb_prop in HN as [HC HL]. destruct w as [|x w]; cbn [app].
  - destruct HT as [->|(t' & ->)]; auto. apply negb_true_iff in HC. now rewrite HC.
  - destruct (inset c x); auto.
Qed.

Lemma firstn_app_eq (u t : str) n : length u = n -> firstn n (u ++ t) = u.
Proof. intros <-. rewrite firstn_app, Nat.sub_diag, firstn_all. apply app_nil_r. Qed.

(** * The end of a shorthand word: [(\s|\Z|\n)] *)

Lemma inset_space c : inset (cs space_ranges) c = is_space c.
Proof. destruct c as [[] [] [] [] [] [] [] []]; vm_compute; reflexivity. Qed.

Definition r_end : re := RGrp 2 (RAlt (RSet (cs space_ranges)) (RAlt REnd (c1 nl))).

Lemma m_end_nil A p cp (k : st -> option A) : m r_end (mkst p [] cp) k = k (mkst p [] ((2, []) :: cp)).
Proof. unfold r_end. rewrite m_grp. cbn [m rest c1]. unfold addcap. cbn [rest pre caps length Nat.sub firstn]. now destruct (k _). Qed.

Lemma m_end_sp A p t cp (k : st -> option A) :
  m r_end (mkst p (sp :: t) cp) k = k (mkst (sp :: p) t ((2, [sp]) :: cp)).
Proof.
  unfold r_end. rewrite m_grp. cbn [m rest pre caps c1].
  change (inset (cs space_ranges) sp) with true. change (inset (cs_chr (code nl)) sp) with false. cbv iota. unfold addcap. cbn [rest pre caps].
  change (sp :: t) with ([sp] ++ t). rewrite firstn_text. now destruct (k _).
Qed.

Lemma m_end_out A p c t cp (k : st -> option A) : is_space c = false -> m r_end (mkst p (c :: t) cp) k = None.
Proof.
  intros HC. unfold r_end. rewrite m_grp. cbn [m rest pre caps c1].
  now rewrite inset_space, HC, inset_chr_ceqb, nonspace_nl.
Qed.

(** * Runs *)

Fixpoint rseq (c : cset) (css : list cset) : re :=
  match css with [] => RSet c | d :: l => RCat (RSet c) (rseq d l) end.

Lemma m_rseq A css : forall c p s cp (k : st -> option A),
  m (rseq c css) (mkst p s cp) k =
  match eats (c :: css) s with
  | Some t => k (mkst (rev (firstn (S (length css)) s) ++ p) t cp)
  | None => None
  end.
Proof.
  induction css as [|d l IH]; intros c p s cp k.
  - cbn [rseq m rest eats length]. destruct s as [|x s]; auto. now destruct (inset c x).
  - cbn [rseq]. rewrite m_catE. destruct s as [|x s]; [reflexivity|]. cbn [m rest pre caps eats length].
    destruct (inset c x); auto. rewrite IH. cbn [eats]. destruct s as [|y s]; auto. destruct (inset d y); auto.
    destruct (eats l s); auto. cbn [firstn rev]. rewrite <- !app_assoc. reflexivity.
Qed.

Section Kind.
  Variables (d : cset) (css : list cset).
  Hypothesis HNS : nosps (d :: css) = true.

  Definition isK (w : str) : bool := match eats (d :: css) w with Some [] => true | _ => false end.
  Definition rB : re := rseq (cs_chr (code sp)) (d :: css).

  Fixpoint krun (ws : list str) : nat :=
    match ws with w :: t => if isK w then S (krun t) else 0 | [] => 0 end.

  Lemma m_rB A w t p cp (k : st -> option A) : bnd t ->
    m rB (mkst p (sp :: w ++ t) cp) k =
    match eats (d :: css) w with
    | Some u => k (mkst (rev (sp :: firstn (S (length css)) w) ++ p) (u ++ t) cp)
    | None => None
    end.
  Proof.
    intros HT. unfold rB. rewrite m_rseq.
    replace (eats (cs_chr (code sp) :: d :: css) (sp :: w ++ t)) with (eats (d :: css) (w ++ t)) by reflexivity.
    rewrite eats_word; auto. destruct (eats (d :: css) w) as [u|] eqn:E; auto. f_equal.
    apply eats_split in E as (v & -> & EL). cbn [length] in *.
    rewrite <- app_assoc. change (firstn (S (S (length css))) (sp :: v ++ u ++ t)) with (sp :: firstn (S (length css)) (v ++ u ++ t)).
    now rewrite !(firstn_app_eq v).
  Qed.

  Lemma isK_eats w : isK w = true -> eats (d :: css) w = Some [] /\ firstn (S (length css)) w = w.
  Proof.
    unfold isK. destruct (eats (d :: css) w) as [[|]|] eqn:E; try discriminate. intros _. split; auto.
    apply eats_split in E as (v & -> & EL). rewrite app_nil_r. rewrite <- (firstn_all v) at 2. simpl in EL. now rewrite EL.
  Qed.

  (** [k] accepts exactly at the end of a word. *)
  Definition at_word_end {A} (k : st -> option A) : Prop :=
    (forall p c t cp, is_space c = false -> k (mkst p (c :: t) cp) = None) /\
    (forall p ws cp, k (mkst p (spaced ws) cp) <> None).

  Lemma m_rB_out A x t p cp (k : st -> option A) : is_space x = false -> m rB (mkst p (x :: t) cp) k = None.
  Proof.
    intros H. unfold rB. rewrite m_rseq. cbn [eats]. rewrite inset_chr_ceqb, nonspace_sp; auto.
  Qed.
  Lemma m_rB_nil A p cp (k : st -> option A) : m rB (mkst p [] cp) k = None.
  Proof. unfold rB. now rewrite m_rseq. Qed.

  Lemma eats_rest w x u : nospace w -> eats (d :: css) w = Some (x :: u) -> is_space x = false.
  Proof. intros HW HE. apply eats_split in HE as (v & -> & _). eapply nospace_char; eauto. Qed.

  Lemma loopg_run_words A (k : st -> option A) ws : at_word_end k -> Forall nospace ws ->
    forall fuel p cp, length (spaced ws) < fuel ->
    loopg (fun s k => m rB s k) k fuel None (mkst p (spaced ws) cp)
    = k (mkst (rev (spaced (firstn (krun ws) ws)) ++ p) (spaced (skipn (krun ws) ws)) cp).
  Proof.
    intros [K1 K2]. induction 1 as [|w ws HW HF IH]; intros fuel p cp HL; (destruct fuel as [|f]; [lia|]).
    - cbn [spaced map concat loopg czero krun firstn skipn rev app]. now rewrite m_rB_nil.
    - cbn [loopg czero]. change (spaced (w :: ws)) with (sp :: w ++ spaced ws) in *.
      rewrite m_rB by apply bnd_spaced. cbn [krun].
      destruct (isK w) eqn:EK.
      + apply isK_eats in EK as [E1 E2]. rewrite E1, E2. cbn [app].
        assert (PR : progress (mkst p (sp :: w ++ spaced ws) cp) (mkst (rev (sp :: w) ++ p) (spaced ws) cp) = true).
        { change (sp :: w ++ spaced ws) with ((sp :: w) ++ spaced ws). apply progress_app. discriminate. }
        rewrite PR, IH.
        * cbn [firstn skipn]. change (spaced (w :: firstn (krun ws) ws)) with ((sp :: w) ++ spaced (firstn (krun ws) ws)).
          rewrite rev_app_distr, <- app_assoc.
          destruct (k _) eqn:EK; auto. exfalso. revert EK. apply K2.
        * simpl in HL. rewrite app_length in HL. lia.
      + cbn [firstn skipn]. unfold isK in EK. destruct (eats (d :: css) w) as [[|x u]|] eqn:E1; try discriminate; auto.
        pose proof (eats_rest _ _ _ HW E1) as HX.
        match goal with |- (match ?X with Some _ => _ | None => _ end) = _ => assert (HN : X = None); [|now rewrite HN] end.
        cbn [app]. destruct (progress _ _); [|now apply K1].
        destruct f as [|f]; cbn [loopg czero cdec]; [now apply K1|]. rewrite m_rB_out; auto.
  Qed.

  Lemma m_run_words A (k : st -> option A) ws p cp : at_word_end k -> Forall nospace ws ->
    m (RRep false 2 None rB) (mkst p (spaced ws) cp) k =
    if Nat.leb 2 (krun ws)
    then k (mkst (rev (spaced (firstn (krun ws) ws)) ++ p) (spaced (skipn (krun ws) ws)) cp)
    else None.
  Proof.
    intros HK HF. cbn [m need maxleft].
    destruct ws as [|w ws]; [cbn [spaced map concat]; now rewrite m_rB_nil|].
    change (spaced (w :: ws)) with (sp :: w ++ spaced ws). rewrite m_rB by apply bnd_spaced.
    inversion HF as [|? ? HW HF']; subst. cbn [krun]. destruct (isK w) eqn:EK.
    - apply isK_eats in EK as [E1 E2]. rewrite E1, E2. cbn [app].
      destruct ws as [|v ws]; [cbn [spaced map concat]; now rewrite m_rB_nil|].
      change (spaced (v :: ws)) with (sp :: v ++ spaced ws). rewrite m_rB by apply bnd_spaced.
      inversion HF' as [|? ? HV HF'']; subst. cbn [krun]. destruct (isK v) eqn:EV.
      + apply isK_eats in EV as [E3 E4]. rewrite E3, E4. cbn [app Nat.leb rest].
        rewrite loopg_run_words; auto. cbn [firstn skipn].
        change (spaced (w :: v :: firstn (krun ws) ws)) with ((sp :: w) ++ (sp :: v) ++ spaced (firstn (krun ws) ws)).
        now rewrite !rev_app_distr, <- !app_assoc.
      + cbn [Nat.leb]. unfold isK in EV. destruct (eats (d :: css) v) as [[|x u]|] eqn:E3; try discriminate; auto.
        pose proof (eats_rest _ _ _ HV E3) as HX. cbn [rest].
        destruct HK as [K1 _]. cbn [app]. cbn [loopg czero]. rewrite m_rB_out; auto.
    - cbn [Nat.leb]. unfold isK in EK. destruct (eats (d :: css) w) as [[|x u]|] eqn:E3; try discriminate; auto.
      pose proof (eats_rest _ _ _ HW E3) as HX. cbn [app]. now rewrite m_rB_out.
  Qed.

  Definition r_run : re := RCat (RGrp 1 (RRep false 2 None rB)) r_end.

  Definition ending (ws : list str) : str := match ws with [] => [] | _ => [sp] end.
  Definition after (ws : list str) : str := match ws with [] => [] | w :: t => w ++ spaced t end.

  Lemma ending_after ws : spaced ws = ending ws ++ after ws.
  Proof. now destruct ws. Qed.

  Lemma match_run p ws : Forall nospace ws ->
    match_at r_run p (spaced ws) =
    if Nat.leb 2 (krun ws)
    then Some {| mpre := p; mtext := spaced (firstn (krun ws) ws) ++ ending (skipn (krun ws) ws);
                 mrest := after (skipn (krun ws) ws);
                 mcaps := [(2, ending (skipn (krun ws) ws)); (1, spaced (firstn (krun ws) ws))] |}
    else None.
  Proof.
    intros HF. set (n := krun ws). set (k := fun s => m r_end s (@Some st)).
    assert (HM : m r_run (mkst p (spaced ws) []) Some =
      if Nat.leb 2 n then Some (mkst (rev (spaced (firstn n ws) ++ ending (skipn n ws)) ++ p) (after (skipn n ws))
           [(2, ending (skipn n ws)); (1, spaced (firstn n ws))]) else None).
    { unfold r_run. rewrite m_catE, m_grp, m_run_words; auto.
      - fold n. destruct (Nat.leb 2 n); auto.
        assert (ES : spaced ws = spaced (firstn n ws) ++ spaced (skipn n ws)).
        { unfold spaced. now rewrite <- concat_app, <- map_app, firstn_skipn. }
        unfold addcap. cbn [rest pre caps]. rewrite ES at 1 2. rewrite firstn_text.
        destruct (skipn n ws) as [|v t] eqn:EV.
        + cbn [spaced map concat ending after]. rewrite m_end_nil. now rewrite app_nil_r.
        + change (spaced (v :: t)) with (sp :: v ++ spaced t). rewrite m_end_sp. cbn [ending after].
          rewrite rev_app_distr. reflexivity.
      - split.
        + intros q c t cp HC. unfold addcap. cbn [rest pre caps]. now apply m_end_out.
        + intros q vs cp. unfold addcap. cbn [rest pre caps]. destruct vs as [|v vs].
          * cbn [spaced map concat]. rewrite m_end_nil. discriminate.
          * change (spaced (v :: vs)) with (sp :: v ++ spaced vs). rewrite m_end_sp. discriminate. }
    destruct (Nat.leb 2 n); [|now apply match_at_miss].
    assert (ES : spaced ws = (spaced (firstn n ws) ++ ending (skipn n ws)) ++ after (skipn n ws)).
    { rewrite <- app_assoc, <- ending_after. unfold spaced. now rewrite <- concat_app, <- map_app, firstn_skipn. }
    rewrite ES at 1. apply match_at_hit. rewrite <- ES. exact HM.
  Qed.

  Lemma run_miss p c t : is_space c = false -> match_at r_run p (c :: t) = None.
  Proof.
    intros H. apply match_at_miss. unfold r_run. rewrite m_catE, m_grp. cbn [m need]. now rewrite m_rB_out.
  Qed.

  (** What the substitution does to the words. *)
  Variable name : str.
  Definition num (n : nat) : str := str_of_N (N.of_nat n) ++ name.
  Fixpoint cwd (k : nat) (ws : list str) : list str :=
    match ws with
    | [] => []
    | w :: t =>
        match k with
        | S k' => cwd k' t
        | O => if isK w then match krun t with
                             | O => w :: cwd 0 t
                             | S r => num (S (S r)) :: cwd (S r) t
                             end
               else w :: cwd 0 t
        end
    end.

  Lemma cwd_skip k ws : cwd k ws = cwd 0 (skipn k ws).
  Proof. revert k. induction ws as [|w t IH]; intros [|k]; auto. cbn [cwd skipn]. apply IH. Qed.

  Lemma words_aux_word w t cur : nospace w -> words_aux (w ++ t) cur = words_aux t (rev w ++ cur).
  Proof.
    intros H. revert cur. induction H as [|c w HC HW IH]; intros cur; auto. cbn [app words_aux].
    apply negb_true_iff in HC. rewrite HC, IH. cbn [rev]. now rewrite <- app_assoc.
  Qed.

  Lemma words_aux_spaced ws : Forall (fun w => nospace w /\ w <> []) ws -> forall cur,
    words_aux (spaced ws) cur = (match cur with [] => [] | _ => [rev cur] end) ++ ws.
  Proof.
    induction 1 as [|w ws [HW HN] HF IH]; intros cur.
    - cbn. now rewrite app_nil_r.
    - change (spaced (w :: ws)) with (sp :: w ++ spaced ws). cbn [words_aux]. change (is_space sp) with true. cbv iota.
      rewrite words_aux_word by auto. rewrite IH, app_nil_r.
      assert (HR : rev w <> []) by (intros E; apply HN; rewrite <- (rev_involutive w), E; reflexivity).
      destruct (rev w) as [|a b] eqn:ER; [congruence|]. rewrite <- ER, rev_involutive. now destruct cur.
  Qed.

  Lemma words_spaced ws : Forall (fun w => nospace w /\ w <> []) ws -> words (spaced ws) = ws.
  Proof. intros H. unfold words. now rewrite words_aux_spaced. Qed.

  Lemma words_strip ws : Forall (fun w => nospace w /\ w <> []) ws -> words (strip (spaced ws)) = ws.
  Proof.
    intros HF. destruct ws as [|w ws]; [reflexivity|].
    change (spaced (w :: ws)) with (sp :: w ++ spaced ws). unfold strip.
    replace (lstrip (sp :: w ++ spaced ws)) with (lstrip (w ++ spaced ws)) by reflexivity.
    inversion HF as [|? ? [HW HN] HF']; subst.
    assert (E1 : lstrip (w ++ spaced ws) = w ++ spaced ws).
    { destruct w as [|c w]; [congruence|]. cbn [app]. eapply lstrip_first; eauto. inversion HW; subst. now apply negb_true_iff. }
    rewrite E1. unfold rstrip.
    assert (EL : exists c t, rev (w ++ spaced ws) = c :: t /\ is_space c = false).
    { clear E1 HF. revert w HN HW. induction HF' as [|v ws [CV CN] HF IH]; intros w HN HS.
      - unfold spaced. cbn [map concat]. rewrite app_nil_r. destruct (rev w) as [|c t] eqn:ER.
        + exfalso. apply HN. rewrite <- (rev_involutive w), ER. reflexivity.
        + exists c, t. split; auto. apply allc_rev in HS. rewrite ER in HS. inversion HS; subst. now apply negb_true_iff.
      - change (spaced (v :: ws)) with (sp :: v ++ spaced ws). rewrite rev_app_distr. cbn [rev].
        destruct (IH v CN CV) as (c & t & -> & HC). exists c. eexists. split; [reflexivity|auto]. }
    destruct EL as (c & t & EL & HC). rewrite (lstrip_first _ _ _ EL HC), rev_involutive.
    unfold words. rewrite words_aux_word by auto. rewrite words_aux_spaced by auto. rewrite app_nil_r.
    assert (HR : rev w <> []) by (intros E; apply HN; rewrite <- (rev_involutive w), E; reflexivity).
    destruct (rev w) as [|a b] eqn:ER; [congruence|]. rewrite <- ER, rev_involutive. reflexivity.
  Qed.

  Definition run_repl (o : mobj) : str :=
    [sp] ++ str_of_N (N.of_nat (length (words (strip (grp 1 o))))) ++ name ++ grp 2 o.

  Lemma krun_le ws : krun ws <= length ws.
  Proof. induction ws as [|w t IH]; simpl; auto. destruct (isK w); simpl; lia. Qed.

  Lemma spaced_app a b : spaced (a ++ b) = spaced a ++ spaced b.
  Proof. unfold spaced. now rewrite map_app, concat_app. Qed.

  Lemma run_word w t o : nospace w -> reps r_run run_repl t o -> reps r_run run_repl (w ++ t) (w ++ o).
  Proof.
    intros HW. apply reps_word. intros c w1 w2 p E. apply run_miss. eapply nospace_char; eauto.
  Qed.

  Lemma krun_words ws : Forall nospace ws -> Forall (fun w => nospace w /\ w <> []) (firstn (krun ws) ws).
  Proof.
    induction 1 as [|w ws HW HF IH]; cbn [krun firstn]; [constructor|]. destruct (isK w) eqn:E; cbn [firstn]; constructor; auto.
    split; auto. intros ->. discriminate.
  Qed.

  Lemma reps_run n : forall ws, length ws <= n -> Forall nospace ws ->
    reps r_run run_repl (spaced ws) (spaced (cwd 0 ws)).
  Proof.
    induction n as [|n IH]; intros ws HL HF.
    { destruct ws; [|simpl in HL; lia]. apply reps_nil. reflexivity. }
    pose proof HF as HF1. destruct (Nat.leb 2 (krun ws)) eqn:E.
    - set (k := krun ws) in *. 
      assert (EW : ws = firstn k ws ++ skipn k ws) by (symmetry; apply firstn_skipn).
      assert (HFs : Forall (fun w => nospace w /\ w <> []) (firstn k ws) /\ Forall nospace (skipn k ws)).
      { split; [now apply krun_words|]. rewrite EW in HF. now apply Forall_app in HF. }
      assert (EC : cwd 0 ws = num k :: cwd 0 (skipn k ws)).
      { unfold k in *. destruct ws as [|w t]; [discriminate|]. cbn [krun] in *. cbn [cwd].
        destruct (isK w); [|discriminate]. destruct (krun t) as [|r] eqn:ER; [discriminate|].
        rewrite (cwd_skip (S r)). reflexivity. }
      rewrite EC. change (spaced (num k :: cwd 0 (skipn k ws))) with ((sp :: num k) ++ spaced (cwd 0 (skipn k ws))).
      assert (EK : length (firstn k ws) = k) by (apply firstn_length_le, krun_le).
      assert (ET : spaced ws = (spaced (firstn k ws) ++ ending (skipn k ws)) ++ after (skipn k ws)).
      { rewrite <- app_assoc, <- ending_after, <- spaced_app. now rewrite <- EW. }
      assert (HO : exists o, reps r_run run_repl (after (skipn k ws)) o /\ spaced (cwd 0 (skipn k ws)) = ending (skipn k ws) ++ o).
      { destruct (skipn k ws) as [|v t] eqn:ES.
        - exists []. split; [apply reps_nil; reflexivity|reflexivity].
        - destruct HFs as [_ HF2]. inversion HF2 as [|? ? HV1 HF3]; subst.
          assert (HLT : length t <= n).
          { apply (f_equal (@length str)) in ES. rewrite skipn_length in ES. simpl in ES. apply Nat.leb_le in E. lia. }
          assert (HNK : isK v = false).
          { clear -ES. unfold k in ES. clear k. revert v t ES. induction ws as [|w ws IH]; intros v t ES; [discriminate|].
            cbn [krun] in ES. destruct (isK w) eqn:EW; [now apply (IH v t)|]. cbn [skipn] in ES. injection ES as <- <-. auto. }
          exists (v ++ spaced (cwd 0 t)). split.
          + cbn [after]. apply run_word; auto.
          + cbn [cwd]. rewrite HNK. reflexivity. }
      destruct HO as (o & HO & EO). rewrite EO.
      replace ((sp :: num k) ++ ending (skipn k ws) ++ o) with (((sp :: num k) ++ ending (skipn k ws)) ++ o) by now rewrite app_assoc.
      rewrite ET. apply reps_hit with (c := [(2, ending (skipn k ws)); (1, spaced (firstn k ws))]); auto.
      + apply Nat.leb_le in E. destruct ws; [unfold k in E; simpl in E; lia|]. destruct k; [lia|]. discriminate.
      + intros p. rewrite <- ET. rewrite match_run by auto. fold k. now rewrite E.
      + intros p. unfold run_repl, grp. cbn [group mcaps lookup Nat.eqb].
        rewrite words_strip by tauto. rewrite EK. unfold num. cbn [app]. now rewrite <- app_assoc.
    - destruct ws as [|w t].
      { apply reps_nil. reflexivity. }
      inversion HF as [|? ? HW HF']; subst.
      assert (EC : cwd 0 (w :: t) = w :: cwd 0 t).
      { cbn [cwd krun] in *. destruct (isK w); auto. now destruct (krun t). }
      rewrite EC. change (spaced (w :: t)) with (sp :: w ++ spaced t). change (spaced (w :: cwd 0 t)) with (sp :: w ++ spaced (cwd 0 t)).
      apply reps_copy.
      + intros p. change (sp :: w ++ spaced t) with (spaced (w :: t)). rewrite match_run by auto. now rewrite E.
      + apply run_word; auto. apply IH; auto. simpl in HL. lia.
  Qed.
End Kind.
