(** Preparing the text of an INP file. *)

From Coq Require Import Ascii String NArith ZArith Bool Arith Lia List.
From Verif Require Import PyStr Regex RegexParse RegexFacts RegexLang PyNum PyNumFacts Types TypesSpec TypesFacts TypesFacts3 TypesFacts4 SubFacts CardText CardTextSpec CardTextFacts CardTextFacts5 CardTextFacts2 CardTextFacts6 PtracFacts2 PtracFacts InpFile InpSpec.
From Verif Require MeshtalFacts2.
Import ListNotations.
Open Scope char_scope.

Lemma re_emptied_eq : re_emptied = RCat (c1 nl) (RCat (RRep false 1 None (c1 sp)) (c1 nl)).
Proof. vm_compute. reflexivity. Qed.
Lemma re_amp_eq : re_amp = RCat (c1 "&") (RCat (RRep false 0 None (c1 sp)) (RCat (c1 nl) (RRep false 0 None (c1 sp)))).
Proof. vm_compute. reflexivity. Qed.

(** ** Rows with a given kind of separator and of tail *)

Definition rowS (S T : str -> Prop) (r : row) : Prop :=
  clean (r_first r) /\ hd " " (r_first r) <> "#" /\
  Forall (fun x => S (fst x) /\ clean (snd x)) (r_more r) /\ T (r_tail r).
Definition lineS (S T : str -> Prop) (x : option row) : Prop := match x with Some r => rowS S T r | None => True end.

Definition shape (r : row) : list str * bool := (row_words r, match r_tail r with [] => true | _ => false end).
Definition lwords (x : option row) : option (list str * bool) := option_map shape x.
Lemma shape_eq w l l' t t' : map snd l' = map snd l -> (t' = [] <-> t = []) -> shape (mkrow w l' t') = shape (mkrow w l t).
Proof.
  intros E H. unfold shape, row_words. cbn [r_first r_more r_tail]. rewrite E. f_equal. destruct t, t'; auto.
  - destruct H as [_ H]. now specialize (H eq_refl).
  - destruct H as [H _]. now specialize (H eq_refl).
Qed.

(** What follows the end of a line. *)
Definition ends (t : str) : Prop := t = [] \/ exists t', t = nl :: t'.
Definition starts (t : str) : Prop := ends t \/ exists w t', clean w /\ hd " " w <> "#" /\ t = w ++ t'.

Section Pass.
  Variables (r : re) (f : mobj -> str) (S S' T T' : str -> Prop).
  Hypothesis Hnil : forall p, match_at r p [] = None.
  Hypothesis Hw : forall w t o, clean w -> reps r f t o -> reps r f (w ++ t) (w ++ o).
  Hypothesis Hs : forall s, S s -> exists s', S' s' /\ forall w t o, clean w -> reps r f (w ++ t) o -> reps r f (s ++ w ++ t) (s' ++ o).
  Hypothesis Ht : forall s, T s -> exists s', T' s' /\ (s' = [] <-> s = []) /\ forall t o, ends t -> reps r f t o -> reps r f (s ++ t) (s' ++ o).
  Hypothesis Hn : forall t o, starts t -> reps r f t o -> reps r f (nl :: t) (nl :: o).

  Lemma pass_row w l tl : rowS S T (mkrow w l tl) -> exists l' tl', rowS S' T' (mkrow w l' tl') /\ shape (mkrow w l' tl') = shape (mkrow w l tl) /\
    forall t o, ends t -> reps r f t o -> reps r f (laid_out w l ++ tl ++ t) (laid_out w l' ++ tl' ++ o).
  Proof.
    intros (CW & CH & CL & CT). cbn [r_first r_more r_tail] in *. destruct (Ht tl CT) as (tl' & HT' & ET & RT).
    assert (exists l', Forall (fun x => S' (fst x) /\ clean (snd x)) l' /\ map snd l' = map snd l /\
      forall t o, ends t -> reps r f t o -> reps r f (laid_out w l ++ tl ++ t) (laid_out w l' ++ tl' ++ o)) as (l' & A & B & C).
    { clear CH. revert w CW. induction CL as [|[s v] l [HS HV] CL IH]; intros w CW.
      - exists []. split; [constructor|split; [reflexivity|]]. intros t o E R. cbn [laid_out]. apply Hw; auto.
      - cbn [fst snd] in *. destruct (IH v HV) as (l' & A & B & C). destruct (Hs s HS) as (s' & HS' & RS).
        exists ((s', v) :: l'). split; [constructor; auto|]. split; [cbn; now rewrite B|].
        intros t o E R. cbn [laid_out]. rewrite <- !app_assoc. apply Hw; auto.
        specialize (C t o E R).
        assert (X : exists y, laid_out v l ++ tl ++ t = v ++ y) by (destruct l as [|[a b] l]; cbn [laid_out]; rewrite <- ?app_assoc; eauto).
        destruct X as (y & EY). rewrite EY in *. now apply RS. }
    exists l', tl'. split; [|split; [now apply shape_eq|exact C]]. split; auto.
  Qed.

  Definition tailt (l : rows) : str := match l with [] => [] | _ => nl :: rows_text l end.
  Lemma rows_text_cons x l : rows_text (x :: l) = line_text x ++ tailt l.
  Proof. unfold rows_text, tailt. cbn [map join]. destruct l; cbn [map]; [now rewrite app_nil_r|]. cbn [map join]. reflexivity. Qed.

  Lemma starts_rows l : Forall (lineS S T) l -> starts (rows_text l).
  Proof.
    intros [|x l' HX HL]; [left; now left|]. rewrite rows_text_cons. destruct x as [[w m tl]|].
    - right. destruct HX as (A & B & _). cbn [r_first] in *. unfold line_text, row_text. cbn [r_first r_more r_tail].
      exists w. destruct m as [|[a b] m]; cbn [laid_out]; rewrite <- ?app_assoc; eauto.
    - left. cbn [line_text app]. unfold tailt. destruct l'; [now left|right; eauto].
  Qed.
  Lemma ends_tailt l : ends (tailt l).
  Proof. unfold tailt. destruct l; [now left|right; eauto]. Qed.

  Lemma pass_rows l : Forall (lineS S T) l -> exists l', Forall (lineS S' T') l' /\ map lwords l' = map lwords l /\
    sub r f (rows_text l) = rows_text l'.
  Proof.
    intros H. assert (exists l', Forall (lineS S' T') l' /\ map lwords l' = map lwords l /\
      reps r f (rows_text l) (rows_text l') /\ reps r f (tailt l) (tailt l')) as (l' & A & B & C & _).
    { induction H as [|x l HX HL (l' & A & B & C & D)].
      - exists []. split; [constructor|]. split; [reflexivity|]. split; apply reps_nil; auto.
      - destruct x as [[w m tl]|].
        + destruct (pass_row w m tl HX) as (m' & tl' & A' & B' & C').
          exists (Some (mkrow w m' tl') :: l').
          assert (R : reps r f (rows_text (Some (mkrow w m tl) :: l)) (rows_text (Some (mkrow w m' tl') :: l'))).
          { rewrite !rows_text_cons. unfold line_text, row_text. cbn [r_first r_more r_tail]. rewrite <- !app_assoc. apply C'; auto. apply ends_tailt. }
          split; [constructor; auto|]. split; [cbn [map lwords option_map]; now rewrite B, B'|]. split; auto.
          cbn [tailt]. apply Hn; auto. apply starts_rows. constructor; auto.
        + exists (None :: l').
          assert (R : reps r f (rows_text (None :: l)) (rows_text (None :: l'))).
          { rewrite !rows_text_cons. cbn [line_text app]. exact D. }
          split; [constructor; auto|]. split; [cbn; now rewrite B|]. split; auto.
          cbn [tailt]. apply Hn; auto. apply starts_rows. constructor; auto. }
    exists l'. split; auto. split; auto. now apply reps_sub.
  Qed.
End Pass.

Lemma clean_chars (P : ascii -> Prop) w : (forall c, is_space c = false -> P c) -> clean w -> forall c w1 w2, w = w1 ++ c :: w2 -> P c.
Proof. intros HP (_ & HS & _) c w1 w2 E. apply HP. eauto using nospace_char. Qed.

(** Words hold none of the characters a pattern begins with. *)
Lemma word_miss r f w t o : (forall c t p, is_space c = false -> match_at r p (c :: t) = None) -> clean w ->
  reps r f t o -> reps r f (w ++ t) (w ++ o).
Proof. intros H (_ & HS & _). apply reps_word. intros c w1 w2 p E. apply H. eauto using nospace_char. Qed.

Lemma blank_miss r f b t o : (forall t p, match_at r p (sp :: t) = None) -> blank b -> reps r f t o -> reps r f (b ++ t) (b ++ o).
Proof.
  intros H HB. apply reps_word. intros c w1 w2 p E. subst b. unfold blank in HB. apply Forall_app in HB as [_ HB].
  inversion HB; subst. apply H.
Qed.

Lemma starts_nb t : starts t -> nb t.
Proof.
  intros [[->|(t' & ->)]|(w & t' & CW & _ & ->)]; [now left| |now apply clean_nb].
  right. exists nl, t'. split; reflexivity.
Qed.
Lemma ends_nb t : ends t -> nb t.
Proof. intros H. apply starts_nb. now left. Qed.

(** ** Lines of blanks *)

Lemma emptied_miss c t p : ceqb c nl = false -> match_at re_emptied p (c :: t) = None.
Proof. intros H. apply match_at_miss. rewrite re_emptied_eq, m_catE. unfold c1 at 1. now rewrite m_chr, H. Qed.
Lemma emptied_nl b t p : blank b -> b <> [] -> (t = [] \/ exists c t', t = c :: t' /\ ceqb c sp = false /\ ceqb c nl = false) ->
  match_at re_emptied p (nl :: b ++ t) = None.
Proof.
  intros HB HN HT. apply match_at_miss. destruct (m re_emptied _ Some) as [z0|] eqn:E; auto. exfalso.
  apply m_sound in E as (s' & HM & _). apply M_W in HM as (u & cp & HW & C & _); [|rewrite re_emptied_eq; reflexivity]. cbn [rest] in C.
  rewrite re_emptied_eq in HW.
  destruct HW as (u1 & u2 & c1' & c2' & (x & -> & IX & _) & (u3 & u4 & c3 & c4 & H3 & (y & -> & IY & _) & -> & _) & -> & _).
  apply W_rep_set in H3 as (IZ & _ & _ & _).
  rewrite inset_chr_ceqb in IY. apply ceqb_eq in IY. subst y.
  cbn [app] in C. injection C as _ C. clear - C HB HT IZ. rewrite <- app_assoc in C.
  revert u3 IZ C. induction HB as [|a b -> HB IH]; intros u3 IZ C; cbn [app] in C.
  - destruct HT as [->|(c & t' & -> & H1 & H2)]; [now destruct u3|]. destruct IZ as [|z u3 HZ IZ]; cbn [app] in C; injection C as -> C.
    + discriminate.
    + rewrite inset_chr_ceqb in HZ. congruence.
  - destruct IZ as [|z u3 HZ IZ]; cbn [app] in C; injection C as C1 C; [discriminate C1|eauto].
Qed.

Lemma emptied_nl0 t p : nb t -> match_at re_emptied p (nl :: t) = None.
Proof.
  intros HT. apply match_at_miss. rewrite re_emptied_eq, m_catE. unfold c1 at 1. rewrite m_chr, ceqb_refl, m_catE.
  destruct HT as [->|(c & t' & -> & H)]; [reflexivity|]. cbn [m need c1 rest]. now rewrite inset_chr_ceqb, H.
Qed.

Lemma clean_head w t : clean w -> exists c t', w ++ t = c :: t' /\ ceqb c sp = false /\ ceqb c nl = false.
Proof.
  intros (HN & HS & _). destruct w as [|c w]; [congruence|]. inversion HS; subst. exists c, (w ++ t). repeat split.
  - now apply nonspace_sp, negb_true_iff.
  - now apply nonspace_nl, negb_true_iff.
Qed.

Lemma emptied_blank f b t o : blank b -> reps re_emptied f t o -> reps re_emptied f (b ++ t) (b ++ o).
Proof. apply blank_miss. intros. now apply emptied_miss. Qed.

Lemma emptied_fold f s w t o : fold s -> clean w -> reps re_emptied f (w ++ t) o -> reps re_emptied f (s ++ w ++ t) (s ++ o).
Proof.
  intros HS CW HR. destruct HS as [b HB HN|a c b HA HC HB HN|a b HA HB HN].
  - now apply emptied_blank.
  - rewrite <- !app_assoc. apply emptied_blank; auto. cbn [app]. apply reps_copy; [intros; now apply emptied_miss|].
    rewrite <- !app_assoc. apply emptied_blank; auto. cbn [app]. apply reps_copy.
    + intros p. apply emptied_nl; auto. right. now apply clean_head.
    + now apply emptied_blank.
  - rewrite <- !app_assoc. apply emptied_blank; auto. cbn [app]. apply reps_copy.
    + intros p. apply emptied_nl; auto. right. now apply clean_head.
    + now apply emptied_blank.
Qed.

Lemma passA f l : Forall (lineS fold blank) l -> exists l', Forall (lineS fold blank) l' /\ map lwords l' = map lwords l /\
  sub re_emptied f (rows_text l) = rows_text l'.
Proof.
  apply pass_rows.
  - reflexivity.
  - intros w t o. apply word_miss. intros c t' p H. now apply emptied_miss, nonspace_nl.
  - intros s HS. exists s. split; auto. intros. now apply emptied_fold.
  - intros s HS. exists s. split; auto. split; [reflexivity|]. intros. now apply emptied_blank.
  - intros t o HT HR. apply reps_copy; auto. intros p. apply emptied_nl0. now apply starts_nb.
Qed.

(** ** No vertical format *)

Fixpoint noh (s : str) : bool :=
  match s with
  | c :: t => negb (ceqb c nl && match t with x :: _ => ceqb x "#" | [] => false end) && noh t
  | [] => true
  end.

Lemma split_keep_none r s cur : (forall p b, (exists a, s = a ++ b) -> match_at r p b = None) ->
  forall n p, length s < n -> split_keep_f n r p s cur = [rev cur ++ s].
Proof.
  revert cur. induction s as [|c s IH]; intros cur H n p HN; destruct n as [|n]; cbn [length] in HN; try lia; cbn [split_keep_f].
  - rewrite (H p []); [now rewrite app_nil_r|]. now exists [].
  - rewrite (H p (c :: s)); [|now exists []]. rewrite IH; [|intros p' b (a & ->); apply H; exists (c :: a); reflexivity|lia].
    cbn [rev]. now rewrite <- app_assoc.
Qed.

Lemma noh_tail a b : noh (a ++ b) = true -> noh b = true.
Proof. induction a as [|c a IH]; auto. cbn [app noh]. intros H. apply andb_prop in H as [_ H]. auto. Qed.

Lemma vertical_none p s : noh s = true -> match_at re_vertical p s = None.
Proof.
  intros H. apply match_at_miss. replace re_vertical with (RCat (c1 nl) (RGrp 1 (RCat (c1 "#") (match re_vertical with RCat _ (RGrp _ (RCat _ r)) => r | _ => REps end)))) by (vm_compute; reflexivity).
  generalize (match re_vertical with RCat _ (RGrp _ (RCat _ r)) => r | _ => REps end). intros r.
  destruct s as [|c s]; [reflexivity|]. cbn [noh] in H. apply andb_prop in H as [H _].
  rewrite m_catE. unfold c1 at 1. rewrite m_chr. destruct (ceqb c nl); [|reflexivity]. cbn [m rest c1].
  destruct s as [|x s]; [reflexivity|]. rewrite inset_chr_ceqb. cbn [andb] in H. apply negb_true_iff in H. now rewrite H.
Qed.

Lemma table_none s : hd " " s <> "#" -> re_match re_table s = None.
Proof.
  intros H. apply match_at_miss. replace re_table with (RCat (c1 "#") (match re_table with RCat _ r => r | _ => REps end)) by (vm_compute; reflexivity).
  generalize (match re_table with RCat _ r => r | _ => REps end). intros r. rewrite m_catE.
  destruct s as [|c s]; [reflexivity|]. unfold c1. rewrite m_chr. cbn [hd] in H. apply ceqb_neq in H. now rewrite H.
Qed.

Lemma noh_app w t : ~ In nl w -> noh t = true -> noh (w ++ t) = true.
Proof.
  intros HW HT. induction w as [|c w IH]; auto. cbn [app noh]. rewrite IH by (intros X; apply HW; now right).
  replace (ceqb c nl) with false by (symmetry; apply ceqb_neq; intros ->; apply HW; now left). reflexivity.
Qed.
Lemma noh_nl t : hd " " t <> "#" -> noh t = true -> noh (nl :: t) = true.
Proof. intros H HT. cbn [noh]. rewrite HT. destruct t as [|x t]; [reflexivity|]. cbn [hd] in H. apply ceqb_neq in H. rewrite H. now rewrite andb_false_r. Qed.

Lemma blank_nonl b : blank b -> ~ In nl b.
Proof. intros H HI. unfold blank in H. rewrite Forall_forall in H. specialize (H _ HI). discriminate. Qed.
Lemma nospace_nonl w : nospace w -> ~ In nl w.
Proof. intros H HI. unfold nospace, allc in H. rewrite Forall_forall in H. specialize (H nl HI). discriminate. Qed.
Lemma clean_nonl w : clean w -> ~ In nl w.
Proof. intros (_ & H & _). now apply nospace_nonl. Qed.

Lemma noh_blank_nl b t : blank b -> b <> [] -> noh t = true -> noh (nl :: b ++ t) = true.
Proof.
  intros HB HN HT. apply noh_nl.
  - destruct HB as [|x b -> HB]; [congruence|discriminate].
  - apply noh_app; auto using blank_nonl.
Qed.

Lemma noh_fold s t : fold s -> noh t = true -> noh (s ++ t) = true.
Proof.
  intros HS HT. destruct HS as [b HB HN|a c b HA HC HB HN|a b HA HB HN].
  - apply noh_app; auto using blank_nonl.
  - rewrite <- !app_assoc. apply noh_app; auto using blank_nonl. cbn [app]. rewrite <- app_assoc.
    change ("&" :: c ++ (nl :: b) ++ t) with (["&"] ++ c ++ (nl :: b) ++ t). apply noh_app; [intros [X|[]]; discriminate|].
    apply noh_app; auto using blank_nonl. now apply noh_blank_nl.
  - rewrite <- !app_assoc. apply noh_app; auto using blank_nonl. now apply noh_blank_nl.
Qed.

Lemma noh_laid w l t : clean w -> Forall (fun x => fold (fst x) /\ clean (snd x)) l -> noh t = true -> noh (laid_out w l ++ t) = true.
Proof.
  intros CW CL HT. revert w CW. induction CL as [|[s v] l [HS HV] CL IH]; intros w CW; cbn [laid_out].
  - apply noh_app; auto using clean_nonl.
  - cbn [fst snd] in *. rewrite <- !app_assoc. apply noh_app; auto using clean_nonl. apply noh_fold; auto.
Qed.

Lemma rows_hd l : Forall (lineS fold blank) l -> hd " " (rows_text l) <> "#".
Proof.
  intros H. apply starts_rows in H. destruct H as [[->|(t & ->)]|(w & t & CW & HH & ->)]; try discriminate.
  rewrite hd_app_clean; auto. apply CW.
Qed.

Lemma noh_rows l : Forall (lineS fold blank) l -> noh (rows_text l) = true.
Proof.
  induction 1 as [|x l HX HL IH]; [reflexivity|]. rewrite rows_text_cons.
  assert (HT : noh (tailt l) = true). { unfold tailt. destruct l; auto. apply noh_nl; auto. apply rows_hd; auto. }
  destruct x as [[w m tl]|]; [|exact HT]. destruct HX as (CW & _ & CL & CT). cbn [r_first r_more r_tail] in *.
  unfold line_text, row_text. cbn [r_first r_more r_tail]. rewrite <- app_assoc. apply noh_laid; auto. apply noh_app; auto using blank_nonl.
Qed.

Lemma passB l : Forall (lineS fold blank) l -> concat (map untable (split_keep re_vertical (rows_text l))) = rows_text l.
Proof.
  intros H. unfold split_keep. rewrite split_keep_none; [| |lia].
  - cbn [rev app map concat]. unfold untable. rewrite table_none by now apply rows_hd. now rewrite app_nil_r.
  - intros p b (a & E). apply vertical_none. apply (noh_tail a). rewrite <- E. now apply noh_rows.
Qed.

(** ** [&] at the end of a line *)

Inductive foldi : str -> Prop :=
| FI_blanks b : blank b -> b <> [] -> foldi b
| FI_indent a b : blank a -> blank b -> b <> [] -> foldi (a ++ nl :: b).

Lemma amp_miss c t p : (c = "&" -> exists x t', t = x :: t' /\ is_space x = false) -> match_at re_amp p (c :: t) = None.
Proof.
  intros H2. apply match_at_miss. rewrite re_amp_eq, m_catE. unfold c1 at 1. rewrite m_chr. destruct (ceqb c "&") eqn:E; auto.
  apply ceqb_eq in E. destruct (H2 E) as (x & t' & -> & HX).
  rewrite m_catE, m_star_skip, m_catE.
  - unfold c1 at 1. rewrite m_chr. destruct (ceqb x nl) eqn:EN; auto. apply ceqb_eq in EN. now subst x.
  - apply ceqb_neq. intros ->. discriminate.
Qed.
Lemma amp_word f w t o : clean w -> reps re_amp f t o -> reps re_amp f (w ++ t) (w ++ o).
Proof.
  intros (HN & HW & _ & _ & HL & _). apply reps_word. intros c w1 w2 p E. apply amp_miss.
  intros ->. destruct w2 as [|x w2].
  - exfalso. apply HL. rewrite E. apply last_cons_app.
  - exists x, (w2 ++ t). split; auto. pose proof (nospace_tail _ _ _ _ HW E) as HX.
    inversion HX; subst. now apply negb_true_iff.
Qed.
Lemma amp_blank f b t o : blank b -> reps re_amp f t o -> reps re_amp f (b ++ t) (b ++ o).
Proof. apply blank_miss. intros. apply amp_miss. discriminate. Qed.
Lemma amp_hit c b t o x : blank c -> blank b -> nb t -> reps re_amp (fun _ => x) t o ->
  reps re_amp (fun _ => x) (("&" :: c ++ nl :: b) ++ t) (x ++ o).
Proof.
  intros HC HB HT HR. apply reps_hit with (c := []); auto; [discriminate|]. intros p. apply match_at_hit.
  rewrite re_amp_eq, m_catE. unfold c1 at 1. cbn [app]. rewrite m_chr, ceqb_refl. rewrite <- app_assoc. cbn [app].
  rewrite m_catE. erewrite m_star_blank; eauto.
  - right. exists nl, (b ++ t). split; reflexivity.
  - rewrite m_catE. unfold c1 at 1. rewrite m_chr, ceqb_refl.
    erewrite m_star_blank; eauto. cbn [rev]. rewrite rev_app_distr. cbn [rev]. rewrite <- !app_assoc. reflexivity.
Qed.

Lemma passC l : Forall (lineS fold blank) l -> exists l', Forall (lineS foldi blank) l' /\ map lwords l' = map lwords l /\
  sub re_amp (fun _ => nl :: srepeat 4 [sp]) (rows_text l) = rows_text l'.
Proof.
  apply pass_rows.
  - reflexivity.
  - intros. now apply amp_word.
  - intros s [b HB HN|a c b HA HC HB HN|a b HA HB HN].
    + exists b. split; [now constructor|]. intros. now apply amp_blank.
    + exists (a ++ nl :: srepeat 4 [sp]). split; [apply FI_indent; auto; [repeat constructor|discriminate]|].
      intros w t o CW HR. rewrite <- !app_assoc. apply amp_blank; auto. apply amp_hit; auto using clean_nb.
    + exists (a ++ nl :: b). split; [now constructor|]. intros w t o CW HR. rewrite <- !app_assoc. apply amp_blank; auto.
      cbn [app]. apply reps_copy; [intros; now apply amp_miss|]. now apply amp_blank.
  - intros s HS. exists s. split; auto. split; [reflexivity|]. intros. now apply amp_blank.
  - intros t o HT HR. apply reps_copy; [intros p; now apply amp_miss|exact HR].
Qed.

(** ** Joining lines *)

Definition gapb (s : str) : Prop := blank s /\ s <> [].
Definition contd (t : str) : Prop := ~ In nl t /\ ~ In "$" t /\ exists b w y, t = b ++ w ++ y /\ blank b /\ b <> [] /\ clean w.

Lemma notin_app {A} (x : A) a b : ~ In x a -> ~ In x b -> ~ In x (a ++ b).
Proof. intros HA HB H. apply in_app_or in H as [H|H]; auto. Qed.
Lemma blank_nodol b : blank b -> ~ In "$" b.
Proof. intros H HI. unfold blank in H. rewrite Forall_forall in H. specialize (H _ HI). discriminate. Qed.

Lemma row_lines w l tl : rowS foldi blank (mkrow w l tl) -> exists h ts l', ~ In nl h /\ ~ In "$" h /\ (exists y, h = w ++ y) /\ Forall contd ts /\
  rowS gapb blank (mkrow w l' tl) /\ map snd l' = map snd l /\ laid_out w l ++ tl = join [nl] (h :: ts) /\ h ++ concat ts = laid_out w l' ++ tl.
Proof.
  intros (CW & CH & CL & CT). cbn [r_first r_more r_tail] in *.
  assert (exists h ts l', ~ In nl h /\ ~ In "$" h /\ (exists y, h = w ++ y) /\ Forall contd ts /\
    Forall (fun x => gapb (fst x) /\ clean (snd x)) l' /\ map snd l' = map snd l /\ laid_out w l ++ tl = join [nl] (h :: ts) /\ h ++ concat ts = laid_out w l' ++ tl)
    as (h & ts & l' & A).
  { clear CH. revert w CW. induction CL as [|[s v] l [HS HV] CL IH]; intros w CW.
    - exists (w ++ tl), [], [].
      split; [apply notin_app; auto using clean_nonl, blank_nonl|].
      split; [apply notin_app; [apply CW|auto using blank_nodol]|].
      split; [eauto|]. split; [constructor|]. split; [constructor|]. split; [reflexivity|]. split; [reflexivity|].
      cbn. now rewrite app_nil_r.
    - cbn [fst snd] in *. destruct (IH v HV) as (h & ts & l' & H1 & H2 & (y & H3) & H4 & H5 & H6 & H7 & H8).
      destruct HS as [b HB HN|a b HA HB HN].
      + exists (w ++ b ++ h), ts, ((b, v) :: l'). repeat apply conj; auto.
        * apply notin_app; [auto using clean_nonl|]. apply notin_app; auto using blank_nonl.
        * apply notin_app; [apply CW|]. apply notin_app; auto using blank_nodol.
        * eauto.
        * constructor; auto. split; auto. split; auto.
        * cbn. now rewrite H6.
        * cbn [laid_out]. rewrite <- !app_assoc, H7. destruct ts; cbn [join]; now rewrite <- ?app_assoc.
        * cbn [laid_out]. rewrite <- !app_assoc. now rewrite H8.
      + exists (w ++ a), ((b ++ h) :: ts), ((a ++ b, v) :: l'). repeat apply conj; auto.
        * apply notin_app; auto using clean_nonl, blank_nonl.
        * apply notin_app; [apply CW|auto using blank_nodol].
        * eauto.
        * constructor; auto. split; [apply notin_app; auto using blank_nonl|]. split; [apply notin_app; auto using blank_nodol|].
          exists b, v, y. subst h. auto.
        * constructor; auto. split; auto. split; [apply Forall_app; auto|]. destruct a; [auto|discriminate].
        * cbn. now rewrite H6.
        * cbn [laid_out]. rewrite <- !app_assoc, H7. cbn [app]. rewrite <- ?app_assoc. destruct ts; cbn [join]; rewrite <- ?app_assoc; reflexivity.
        * cbn [laid_out concat]. rewrite <- !app_assoc. now rewrite H8. }
  exists h, ts, l'. destruct A as (A1 & A2 & A3 & A4 & A5 & A6 & A7 & A8).
  assert (rowS gapb blank (mkrow w l' tl)) by (split; auto). repeat apply conj; auto; apply H.
Qed.

Definition r_indented : re := RCat (RRep false 1 None (RSet (cs space_ranges))) (RRep false 1 None (RSet cs_dot)).

Lemma re_indented_eq : re_indented = r_indented.
Proof. vm_compute. reflexivity. Qed.

Lemma indented_none s : s = [] \/ (exists w t, clean w /\ s = w ++ t) -> re_match re_indented s = None.
Proof.
  rewrite re_indented_eq. intros [->|(w & t & (HN & HS & _) & ->)]; [reflexivity|].
  apply match_at_miss. destruct w as [|c w]; [congruence|]. inversion HS; subst. unfold r_indented. rewrite m_catE. cbn [app m need rest].
  rewrite inset_space. apply negb_true_iff in H1. now rewrite H1.
Qed.

Lemma indented_some s : contd s -> exists o, re_match re_indented s = Some o.
Proof.
  intros (HL & _ & b & w & y & -> & HB & HN & (WN & WS & _)). rewrite re_indented_eq.
  destruct w as [|c w]; [congruence|]. inversion WS; subst. apply negb_true_iff in H1.
  unfold re_match, match_at. destruct (m r_indented _ Some) as [s'|] eqn:E; [eauto|]. exfalso. revert E.
  cut (m r_indented (mkst [] (b ++ (c :: w) ++ y) []) Some = Some (mkst (rev ((c :: w) ++ y) ++ rev b ++ []) [] [])); [congruence|].
  unfold r_indented. rewrite m_catE. apply MeshtalFacts2.m_plus_all; auto.
  - apply Forall_forall. intros x I. unfold blank in HB. rewrite Forall_forall in HB. now rewrite (HB x I).
  - right. exists c, (w ++ y). split; auto. now rewrite inset_space.
  - rewrite <- (app_nil_r ((c :: w) ++ y)) at 1. apply MeshtalFacts2.m_plus_all; [discriminate| |now left|reflexivity].
    apply allc_dot. apply Forall_forall. intros x I. unfold notnl. apply negb_true_iff, ceqb_neq. intros ->. apply HL. apply in_app_iff. now right.
Qed.

Lemma gather_contd ts rest : Forall contd ts -> match rest with [] => True | x :: _ => re_match re_indented x = None end ->
  gather (ts ++ rest) = (concat ts, [], rest).
Proof.
  intros HT HR. induction HT as [|t ts HX HT IH]; cbn [app concat].
  - destruct rest as [|x rest]; cbn [gather]; auto. now rewrite HR.
  - cbn [gather]. destruct (indented_some t HX) as (o & ->). destruct HX as (_ & HD & _). rewrite (split1_none "$" t HD), IH. reflexivity.
Qed.

Lemma passD l : Forall (lineS foldi blank) l -> l <> [] -> exists l', Forall (lineS gapb blank) l' /\ map lwords l' = map lwords l /\
  join_lines (length (split_on nl (rows_text l))) (split_on nl (rows_text l)) = rows_text (l' ++ [None]).
Proof.
  intros H HN.
  assert (K : exists l' , Forall (lineS gapb blank) l' /\ map lwords l' = map lwords l /\
    match split_on nl (rows_text l) with [] => True | x :: _ => re_match re_indented x = None end /\
    forall n, length (split_on nl (rows_text l)) <= n -> join_lines n (split_on nl (rows_text l)) = rows_text (l' ++ [None])).
  { induction H as [|x l HX HL IH].
    - congruence.
    -
      assert (E : exists h ts x', ~ In "$" h /\ Forall contd ts /\ re_match re_indented h = None /\ lineS gapb blank x' /\ lwords x' = lwords x /\
        split_on nl (line_text x) = h :: ts /\ h ++ concat ts = line_text x').
      { destruct x as [[w m tl]|].
        - destruct (row_lines w m tl HX) as (h & ts & m' & H1 & H2 & (y & H3) & H4 & H5 & H6 & H7 & H8).
          exists h, ts, (Some (mkrow w m' tl)). split; [exact H2|]. split; [exact H4|]. split; [|split; [exact H5|split; [|split; [|exact H8]]]].
          + apply indented_none. right. exists w, y. split; auto. apply HX.
          + cbn [lwords option_map]. f_equal. now apply shape_eq.
          + unfold line_text, row_text. cbn [r_first r_more r_tail]. rewrite H7. apply split_join; [discriminate|]. constructor; auto.
            eapply Forall_impl; [|exact H4]. now intros t [Ht _].
        - exists [], [], None. repeat apply conj; auto. }
      destruct E as (h & ts & x' & E1 & E2 & E3 & E4 & E5 & E6 & E7).
      destruct l as [|y l].
      + exists [x']. split; [constructor; auto|]. split; [cbn [map]; now rewrite E5|].
        replace (rows_text [x]) with (line_text x) by reflexivity. rewrite E6. split; [exact E3|]. intros [|n] Hn; [cbn in Hn; lia|].
        cbn [join_lines]. rewrite (split1_none "$" h E1). rewrite <- (app_nil_r ts), gather_contd; [|auto|exact I].
        unfold rows_text. cbn [app map join line_text]. rewrite <- E7. rewrite <- app_assoc. destruct n; reflexivity.
      + destruct IH as (l' & A & B & C & D); [discriminate|].
        exists (x' :: l'). split; [constructor; auto|]. split; [cbn [map] in *; now rewrite E5, B|].
        assert (EQ : split_on nl (rows_text (x :: y :: l)) = h :: ts ++ split_on nl (rows_text (y :: l))).
        { rewrite rows_text_cons. cbn [tailt]. rewrite split_on_app, E6. reflexivity. }
        rewrite EQ. split; [exact E3|]. intros [|n] Hn; [cbn in Hn; lia|].
        cbn [join_lines]. rewrite (split1_none "$" h E1). rewrite gather_contd; [|auto|exact C].
        rewrite D by (cbn [length] in Hn; rewrite app_length in Hn; lia).
        change ((x' :: l') ++ [None]) with (x' :: (l' ++ [None])). rewrite rows_text_cons, <- E7.
        cbn [join app]. rewrite <- !app_assoc. unfold tailt. destruct (l' ++ [None]) eqn:EL; [now destruct l'|reflexivity]. }
  destruct K as (l' & A & B & _ & D). exists l'. repeat apply conj; auto.
Qed.
