(** Facts about line joining and blank squeezing ([tidy]). *)

From Coq Require Import Ascii String NArith ZArith Bool Arith Lia List.
From Verif Require Import PyStr Regex RegexParse RegexFacts RegexLang PyNum PyNumFacts Types TypesSpec TypesFacts TypesFacts3 TypesFacts4 SubFacts CardText CardTextSpec.
Import ListNotations.
Open Scope char_scope.

Definition c1 (a : ascii) : re := RSet (cs_chr (code a)).

Lemma re_cont_eq : re_cont = RAlt (RCat (c1 nl) (RRep false 1 None (c1 sp)))
  (RCat (c1 "&") (RCat (RRep false 0 None (c1 sp)) (RCat (c1 nl) (RRep false 0 None (c1 sp))))).
Proof. vm_compute. reflexivity. Qed.
Lemma re_blanks_eq : re_blanks = RRep false 1 None (c1 sp).
Proof. vm_compute. reflexivity. Qed.
Lemma re_open_eq : re_open = RCat (c1 "(") (c1 sp).
Proof. vm_compute. reflexivity. Qed.
Lemma re_close_eq : re_close = RCat (c1 sp) (c1 ")").
Proof. vm_compute. reflexivity. Qed.
Lemma re_blankline_eq : re_blankline = RCat (c1 nl) (RCat (c1 sp) (c1 nl)).
Proof. vm_compute. reflexivity. Qed.
Lemma re_equals_eq : re_equals = RAlt (RCat (c1 sp) (RCat (c1 "=") (c1 sp)))
  (RAlt (RCat (c1 sp) (c1 "=")) (RAlt (RCat (c1 "=") (c1 sp)) (c1 "="))).
Proof. vm_compute. reflexivity. Qed.
Lemma re_tab_eq : re_tab = c1 tab.
Proof. vm_compute. reflexivity. Qed.

(** A text that does not start with a blank. *)
Definition nb (t : str) : Prop := t = [] \/ exists c t', t = c :: t' /\ ceqb c sp = false.

Lemma nb_out t : nb t -> t = [] \/ exists c t', t = c :: t' /\ inset (cs_chr (code sp)) c = false.
Proof. intros [->|(c & t' & -> & H)]; [now left|right]. exists c, t'. now rewrite inset_chr_ceqb. Qed.

Lemma blank_inset b : blank b -> allc (inset (cs_chr (code sp))) b.
Proof. apply Forall_impl. intros c ->. apply inset_chr_refl. Qed.

Lemma m_plus_blank A b t p cp (k : st -> option A) x : blank b -> b <> [] -> nb t ->
  k (mkst (rev b ++ p) t cp) = Some x -> m (RRep false 1 None (c1 sp)) (mkst p (b ++ t) cp) k = Some x.
Proof.
  intros HB HN HT HK. replace (b ++ t) with (b ++ [] ++ t) by reflexivity.
  apply m_plus_run; auto; rewrite ?app_nil_r; auto using blank_inset, nb_out.
  intros v1 v2 E HV. destruct v1; [congruence|discriminate].
Qed.

Lemma m_star_blank A b t p cp (k : st -> option A) x : blank b -> nb t ->
  k (mkst (rev b ++ p) t cp) = Some x -> m (RRep false 0 None (c1 sp)) (mkst p (b ++ t) cp) k = Some x.
Proof. intros HB HT HK. apply m_star_run; auto using blank_inset, nb_out. Qed.

Lemma m_star_skip A x t p cp (k : st -> option A) : ceqb x sp = false ->
  m (RRep false 0 None (c1 sp)) (mkst p (x :: t) cp) k = k (mkst p (x :: t) cp).
Proof. intros H. cbn [m need rest maxleft length loopg czero c1 pre caps]. now rewrite inset_chr_ceqb, H. Qed.

(** ** Pass 1: continuation lines *)

Lemma cont_miss c t p : ceqb c nl = false -> (c = "&" -> exists x t', t = x :: t' /\ is_space x = false) ->
  match_at re_cont p (c :: t) = None.
Proof.
  intros H1 H2. apply match_at_miss. rewrite re_cont_eq, m_altE, m_catE. unfold c1 at 1. rewrite m_chr, H1.
  rewrite m_catE. unfold c1 at 1. rewrite m_chr. destruct (ceqb c "&") eqn:E; auto.
  apply ceqb_eq in E. destruct (H2 E) as (x & t' & -> & HX).
  rewrite m_catE, m_star_skip, m_catE.
  - unfold c1 at 1. rewrite m_chr. destruct (ceqb x nl) eqn:EN; auto. apply ceqb_eq in EN. now subst x.
  - apply ceqb_neq. intros ->. discriminate.
Qed.

Lemma nonspace_nl c : is_space c = false -> ceqb c nl = false.
Proof. intros H. apply ceqb_neq. intros ->. discriminate. Qed.
Lemma nonspace_sp c : is_space c = false -> ceqb c sp = false.
Proof. intros H. apply ceqb_neq. intros ->. discriminate. Qed.

Lemma last_cons_app (w1 : str) c d : last (w1 ++ [c]) d = c.
Proof. induction w1 as [|a w1 IH]; auto. cbn [app last]. destruct (w1 ++ [c]) eqn:E; [now destruct w1|auto]. Qed.

Lemma nospace_char w w1 c w2 : nospace w -> w = w1 ++ c :: w2 -> is_space c = false.
Proof.
  intros H ->. unfold nospace in H. apply allc_app in H as [_ H]. inversion H; subst.
  now apply negb_true_iff.
Qed.
Lemma nospace_tail w w1 c w2 : nospace w -> w = w1 ++ c :: w2 -> nospace w2.
Proof. intros H ->. unfold nospace in H. apply allc_app in H as [_ H]. now inversion H. Qed.

Lemma cont_word f w t o : nospace w -> last w " " <> "&" -> reps re_cont f t o -> reps re_cont f (w ++ t) (w ++ o).
Proof.
  intros HW HL. apply reps_word. intros c w1 w2 p E. apply cont_miss.
  - apply nonspace_nl. eauto using nospace_char.
  - intros ->. destruct w2 as [|x w2].
    + exfalso. apply HL. rewrite E. apply last_cons_app.
    + exists x, (w2 ++ t). split; auto. pose proof (nospace_tail _ _ _ _ HW E) as HX.
      inversion HX; subst. now apply negb_true_iff.
Qed.

Lemma cont_blank f b t o : blank b -> reps re_cont f t o -> reps re_cont f (b ++ t) (b ++ o).
Proof.
  intros HB. apply reps_word. intros c w1 w2 p E. subst b. unfold blank in HB. apply Forall_app in HB as [_ HB].
  inversion HB; subst. apply cont_miss; [reflexivity|discriminate].
Qed.

Lemma cont_break k t o : break k -> nb t -> reps re_cont (fun _ => [sp]) t o -> reps re_cont (fun _ => [sp]) (k ++ t) (sp :: o).
Proof.
  intros HK HT HR. change (sp :: o) with ([sp] ++ o).
  apply reps_hit with (c := []); auto; [destruct HK; discriminate|]. intros p. apply match_at_hit.
  rewrite re_cont_eq. destruct HK as [b HB HN|a b HA HB]; rewrite m_altE.
  - rewrite m_catE. unfold c1 at 1. cbn [app]. rewrite m_chr, ceqb_refl.
    erewrite m_plus_blank; eauto. cbn [rev]. now rewrite <- app_assoc.
  - rewrite m_catE. unfold c1 at 1. cbn [app]. rewrite m_chr.
    replace (ceqb "&" nl) with false by reflexivity.
    rewrite m_catE. unfold c1 at 1. rewrite m_chr, ceqb_refl. rewrite <- app_assoc. cbn [app].
    rewrite m_catE. erewrite m_star_blank; eauto.
    + right. exists nl, (b ++ t). split; reflexivity.
    + rewrite m_catE. unfold c1 at 1. rewrite m_chr, ceqb_refl.
      erewrite m_star_blank; eauto. cbn [rev]. rewrite rev_app_distr. cbn [rev].
      rewrite <- !app_assoc. reflexivity.
Qed.

Lemma nb_app_cons c t : ceqb c sp = false -> nb (c :: t).
Proof. intros H. right. eauto. Qed.

Lemma cont_gap g : gap g -> exists b, blank b /\ (g <> [] -> b <> []) /\ forall t o, nb t ->
  reps re_cont (fun _ => [sp]) t o -> reps re_cont (fun _ => [sp]) (g ++ t) (b ++ o).
Proof.
  induction 1 as [b HB|b k g HB HK HG IH HF].
  - exists b. repeat split; auto. intros t o _. now apply cont_blank.
  - destruct IH as (b' & HB' & _ & IH). exists (b ++ sp :: b'). split; [|split].
    + apply Forall_app. split; [auto|constructor; auto].
    + intros _. destruct b; discriminate.
    + intros t o HT HR. rewrite <- !app_assoc. apply cont_blank; auto. apply cont_break; auto.
      destruct g as [|x g]; auto. apply nb_app_cons, ceqb_neq. eauto.
Qed.

(** ** What stands between two words after pass 1 and after pass 2 *)

Definition sep1 (s : str) : Prop :=
  (blank s /\ s <> []) \/ exists b c, blank b /\ blank c /\ s = b ++ "=" :: c.
Definition sep2 (s : str) : Prop :=
  s = [sp] \/ s = [sp; "="; sp] \/ s = [sp; "="] \/ s = ["="; sp] \/ s = ["="].

Definition laid (S : str -> Prop) (w : str) (l : list (str * str)) : Prop :=
  clean w /\ Forall (fun x => S (fst x) /\ clean (snd x)) l.

Lemma cont_sep s : separator s -> exists s', sep1 s' /\ forall t o, nb t ->
  reps re_cont (fun _ => [sp]) t o -> reps re_cont (fun _ => [sp]) (s ++ t) (s' ++ o).
Proof.
  intros [g HG HN|g h HG HH].
  - destruct (cont_gap g HG) as (b & HB & HBN & H). exists b. split; [left; auto|auto].
  - destruct (cont_gap g HG) as (b & HB & _ & H). destruct (cont_gap h HH) as (c & HC & _ & H').
    exists (b ++ "=" :: c). split; [right; eauto|]. intros t o HT HR. rewrite <- !app_assoc. apply H.
    + now apply nb_app_cons.
    + cbn [app]. apply reps_copy; [|now apply H'].
      intros p. apply cont_miss; [reflexivity|discriminate].
Qed.

Lemma clean_nb w t : clean w -> nb (w ++ t).
Proof.
  intros (HN & HS & _). destruct w as [|c w]; [congruence|]. apply nb_app_cons.
  inversion HS; subst. apply nonspace_sp. now apply negb_true_iff.
Qed.

Lemma laid_nb w l : clean w -> nb (laid_out w l).
Proof.
  intros H. destruct l as [|[s v] l]; cbn [laid_out]; [rewrite <- (app_nil_r w)|]; now apply clean_nb.
Qed.

(** One pass over a laid-out text, given what it does to words and separators. *)
Lemma pass r f (S S' : str -> Prop) :
  (forall p, match_at r p [] = None) ->
  (forall w t o, clean w -> (t = [] \/ exists s t', S s /\ t = s ++ t') -> reps r f t o -> reps r f (w ++ t) (w ++ o)) ->
  (forall s, S s -> exists s', S' s' /\ forall w t o, clean w -> reps r f (w ++ t) o -> reps r f (s ++ w ++ t) (s' ++ o)) ->
  forall l w, laid S w l -> exists l', laid S' w l' /\ map snd l' = map snd l /\ reps r f (laid_out w l) (laid_out w l').
Proof.
  intros HN HW HS. induction l as [|[s v] l IH]; intros w [CW CL].
  - exists []. split; [split; auto|]. split; auto. cbn [laid_out].
    rewrite <- (app_nil_r w). apply HW; auto. now apply reps_nil.
  - inversion CL as [|? ? [H1 H2] HL]; subst. cbn [fst snd] in *.
    destruct (IH v) as (l' & [CV CL'] & EM & HR); [split; auto|].
    destruct (HS s H1) as (s' & HS' & HP). exists ((s', v) :: l').
    split; [split; auto|].
    split; [simpl; now rewrite EM|]. cbn [laid_out]. apply HW; auto.
    { right. eauto. }
    destruct l as [|[s1 v1] l]; cbn [laid_out] in *.
    + specialize (HP v [] (laid_out v l') CV). rewrite app_nil_r in HP. auto.
    + auto.
Qed.

Lemma pass1 w l : laid separator w l -> exists l', laid sep1 w l' /\ map snd l' = map snd l /\
  sub re_cont (fun _ => [sp]) (laid_out w l) = laid_out w l'.
Proof.
  intros H. destruct (pass re_cont (fun _ => [sp]) separator sep1) with (l := l) (w := w) as (l' & A & B & C); auto.
  - intros w' t o (_ & HS & _ & _ & HA & _) _ HR. now apply cont_word.
  - intros s HS. destruct (cont_sep s HS) as (s' & H1 & H2). exists s'. split; auto.
    intros w' t o CW HR. apply H2; auto. now apply clean_nb.
  - exists l'. split; [|split]; auto. now apply reps_sub.
Qed.

(** ** Pass 2: blanks *)

Lemma blanks_miss c t p : ceqb c sp = false -> match_at re_blanks p (c :: t) = None.
Proof.
  intros H. apply match_at_miss. rewrite re_blanks_eq. cbn [m need c1 rest]. now rewrite inset_chr_ceqb, H.
Qed.

Lemma blanks_hit b t o : blank b -> nb t -> reps re_blanks (fun _ => [sp]) t o ->
  reps re_blanks (fun _ => [sp]) (b ++ t) ((match b with [] => [] | _ => [sp] end) ++ o).
Proof.
  intros HB HT HR. destruct b as [|a b]; auto. apply reps_hit with (c := []); auto; [discriminate|].
  intros p. apply match_at_hit. rewrite re_blanks_eq. erewrite m_plus_blank; eauto. discriminate.
Qed.

Lemma pass2 w l : laid sep1 w l -> exists l', laid sep2 w l' /\ map snd l' = map snd l /\
  sub re_blanks (fun _ => [sp]) (laid_out w l) = laid_out w l'.
Proof.
  intros H. destruct (pass re_blanks (fun _ => [sp]) sep1 sep2) with (l := l) (w := w) as (l' & A & B & C); auto.
  - intros w' t o (_ & HS & _) _. apply reps_word. intros c w1 w2 p E. apply blanks_miss.
    apply nonspace_sp. eauto using nospace_char.
  - intros s [[HB HN]|(b & c & HB & HC & ->)].
    + exists [sp]. split; [now left|]. intros w' t o CW HR.
      pose proof (blanks_hit s (w' ++ t) o HB (clean_nb _ _ CW) HR) as HH. destruct s; [congruence|auto].
    + exists ((match b with [] => [] | _ => [sp] end) ++ "=" :: (match c with [] => [] | _ => [sp] end)).
      split; [unfold sep2; destruct b, c; simpl; auto|].
      intros w' t o CW HR. rewrite <- !app_assoc. apply blanks_hit; auto; [now apply nb_app_cons|].
      cbn [app]. apply reps_copy; [intros; now apply blanks_miss|].
      apply blanks_hit; auto. now apply clean_nb.
  - exists l'. split; [|split]; auto. now apply reps_sub.
Qed.

(** ** Passes 3 to 5 and 7 change nothing *)

(** Characters of a laid-out text are word characters, blanks and [=]. *)
Lemma pass_id r f (S : str -> Prop) :
  (forall p, match_at r p [] = None) ->
  (forall w t o, clean w -> (t = [] \/ exists s t', S s /\ t = s ++ t') -> reps r f t o -> reps r f (w ++ t) (w ++ o)) ->
  (forall s, S s -> forall w t o, clean w -> reps r f (w ++ t) o -> reps r f (s ++ w ++ t) (s ++ o)) ->
  forall l w, laid S w l -> sub r f (laid_out w l) = laid_out w l.
Proof.
  intros HN HW HS l w HL. apply reps_sub. revert w HL.
  induction l as [|[s v] l IH]; intros w [CW CL].
  - cbn [laid_out]. rewrite <- (app_nil_r w). apply HW; auto. now apply reps_nil.
  - inversion CL as [|? ? [H1 H2] HL]; subst. cbn [fst snd] in *. cbn [laid_out]. apply HW; auto.
    { right. eauto. }
    assert (HR : reps r f (laid_out v l) (laid_out v l)) by (apply IH; split; auto).
    destruct l as [|[s1 v1] l]; cbn [laid_out] in *.
    + specialize (HS s H1 v [] v H2). rewrite app_nil_r in HS. auto.
    + auto.
Qed.

Lemma open_miss c t p : c <> "(" \/ nb t -> match_at re_open p (c :: t) = None.
Proof.
  intros H. apply match_at_miss. rewrite re_open_eq, m_catE. unfold c1 at 1. rewrite m_chr.
  destruct (ceqb c "(") eqn:E; auto. apply ceqb_eq in E. destruct H as [H|[->|(x & t' & -> & H)]]; [congruence|reflexivity|].
  unfold c1. now rewrite m_chr, H.
Qed.

Lemma pass3 f w l : laid sep2 w l -> sub re_open f (laid_out w l) = laid_out w l.
Proof.
  apply pass_id; [reflexivity| |].
  - intros w' t o (_ & HS & _ & _ & _ & HP & _) _. apply reps_word. intros c w1 w2 p E. apply open_miss.
    destruct w2 as [|x w2].
    + left. intros ->. apply HP. rewrite E. apply last_cons_app.
    + right. apply nb_app_cons. pose proof (nospace_tail _ _ _ _ HS E) as HX.
      inversion HX; subst. now apply nonspace_sp, negb_true_iff.
  - intros s HS w' t o CW HR. destruct HS as [->|[->|[->|[->| ->]]]]; cbn [app];
      repeat (apply reps_copy; [intros p; apply open_miss; left; discriminate|]); auto.
Qed.

Lemma close_miss c t p : ceqb c sp = false \/ hd " " t <> ")" -> match_at re_close p (c :: t) = None.
Proof.
  intros H. apply match_at_miss. rewrite re_close_eq, m_catE. unfold c1 at 1. rewrite m_chr.
  destruct H as [H|H]; [now rewrite H|]. destruct (ceqb c sp); auto. destruct t as [|x t]; auto.
  unfold c1. rewrite m_chr. destruct (ceqb x ")") eqn:E; auto. apply ceqb_eq in E. now subst x.
Qed.

Lemma hd_app_clean w (t : str) : w <> [] -> hd " " (w ++ t) = hd " " w.
Proof. destruct w; [congruence|auto]. Qed.

Lemma pass4 f w l : laid sep2 w l -> sub re_close f (laid_out w l) = laid_out w l.
Proof.
  apply pass_id; [reflexivity| |].
  - intros w' t o (_ & HS & _) _. apply reps_word. intros c w1 w2 p E. apply close_miss. left.
    apply nonspace_sp. eauto using nospace_char.
  - intros s HS w' t o (HN & _ & _ & _ & _ & _ & HD) HR. destruct HS as [->|[->|[->|[->| ->]]]]; cbn [app];
      repeat (apply reps_copy; [intros p; apply close_miss;
        solve [left; reflexivity | right; cbn [hd]; rewrite ?hd_app_clean; auto; discriminate]|]); auto.
Qed.

Lemma noc_pass r f (x : ascii) w l :
  (forall p, match_at r p [] = None) -> (forall c t p, ceqb c x = false -> match_at r p (c :: t) = None) ->
  is_space x = true -> x <> sp -> laid sep2 w l -> sub r f (laid_out w l) = laid_out w l.
Proof.
  intros HN HM HX HXS. assert (HE : ceqb "=" x = false) by (apply ceqb_neq; intros <-; discriminate).
  assert (HB : ceqb sp x = false) by (apply ceqb_neq; congruence).
  apply pass_id; auto.
  - intros w' t o (_ & HS & _) _. apply reps_word. intros c w1 w2 p E. apply HM.
    apply ceqb_neq. intros ->. pose proof (nospace_char _ _ _ _ HS E). congruence.
  - intros s HS w' t o CW HR. destruct HS as [->|[->|[->|[->| ->]]]]; cbn [app];
      repeat (apply reps_copy; [intros p; apply HM; auto|]); auto.
Qed.

Lemma pass5 f w l : laid sep2 w l -> sub re_blankline f (laid_out w l) = laid_out w l.
Proof.
  apply (noc_pass _ _ nl); [reflexivity| |reflexivity|discriminate].
  intros c t p H. apply match_at_miss. rewrite re_blankline_eq, m_catE. unfold c1 at 1. now rewrite m_chr, H.
Qed.

(** ** Pass 6: equals signs *)

Lemma equals_miss c t p : c <> "=" -> (c = sp -> hd " " t <> "=") -> match_at re_equals p (c :: t) = None.
Proof.
  intros H H2. apply match_at_miss. rewrite re_equals_eq.
  assert (HC : ceqb c "=" = false) by (now apply ceqb_neq).
  assert (K : forall A (k : st -> option A), m (RCat (c1 sp) (c1 "=")) (mkst p (c :: t) []) k = None
    /\ m (RCat (c1 sp) (RCat (c1 "=") (c1 sp))) (mkst p (c :: t) []) k = None).
  { intros A k. rewrite !m_catE. unfold c1. rewrite !m_chr. destruct (ceqb c sp) eqn:E; auto.
    apply ceqb_eq in E. specialize (H2 E). destruct t as [|x t]; [split; reflexivity|]. cbn [hd] in H2.
    rewrite m_catE, !m_chr. apply ceqb_neq in H2. rewrite H2. auto. }
  rewrite m_altE, (proj2 (K _ _)), m_altE, (proj1 (K _ _)), m_altE, m_catE. unfold c1. now rewrite !m_chr, HC.
Qed.

Lemma equals_hit s t o : sep2 s -> s <> [sp] -> nb t -> hd " " t <> "=" ->
  reps re_equals (fun _ => [sp]) t o -> reps re_equals (fun _ => [sp]) (s ++ t) (sp :: o).
Proof.
  intros HS HN HT HE HR. change (sp :: o) with ([sp] ++ o).
  apply reps_hit with (c := []); auto; [destruct HS as [->|[->|[->|[->| ->]]]]; discriminate|].
  intros p. apply match_at_hit. rewrite re_equals_eq, !m_altE, !m_catE.
  assert (HT' : forall A q (k : st -> option A), m (c1 sp) (mkst q t []) k = None).
  { intros A q k. destruct HT as [->|(c & t' & -> & HC)]; [reflexivity|]. unfold c1. now rewrite m_chr, HC. }
  destruct HS as [->|[->|[->|[->| ->]]]]; [congruence| | | |]; cbn [app].
  - reflexivity.
  - unfold c1 at 1. rewrite m_chr. change (ceqb sp sp) with true. cbv iota. rewrite m_catE. unfold c1 at 1. rewrite m_chr.
    change (ceqb "=" "=") with true. cbv iota. rewrite HT'. reflexivity.
  - reflexivity.
  - unfold c1 in *. rewrite !m_chr. change (ceqb "=" sp) with false. change (ceqb "=" "=") with true. cbv iota.
    now rewrite HT'.
Qed.

Lemma clean_hd w t : clean w -> hd " " (w ++ t) <> "=".
Proof.
  intros (HN & _ & HE & _). rewrite hd_app_clean; auto. destruct w as [|c w]; [congruence|]. cbn [hd]. intros ->.
  apply HE. now left.
Qed.

Lemma pass6 w l : laid sep2 w l -> exists l', laid (fun s => s = [sp]) w l' /\ map snd l' = map snd l /\
  sub re_equals (fun _ => [sp]) (laid_out w l) = laid_out w l'.
Proof.
  intros H. destruct (pass re_equals (fun _ => [sp]) sep2 (fun s => s = [sp])) with (l := l) (w := w) as (l' & A & B & C); auto.
  - intros w' t o (_ & HS & HE & _) _. apply reps_word. intros c w1 w2 p E. apply equals_miss.
    + intros ->. apply HE. rewrite E. apply in_app_iff. right. now left.
    + intros ->. pose proof (nospace_char _ _ _ _ HS E). discriminate.
  - intros s HS. exists [sp]. split; auto. intros w' t o CW HR.
    destruct (list_eq_dec ascii_dec s [sp]) as [->|HN].
    + cbn [app]. apply reps_copy; auto. intros p. apply equals_miss; [discriminate|]. intros _. now apply clean_hd.
    + cbn [app]. apply equals_hit; auto using clean_nb, clean_hd.
  - exists l'. split; [|split]; auto. now apply reps_sub.
Qed.

Lemma laid_single w l : laid (fun s => s = [sp]) w l -> laid sep2 w l /\ laid_out w l = w ++ spaced (map snd l).
Proof.
  intros [CW CL]. split.
  - split; auto. eapply Forall_impl; [|exact CL]. intros [s v] [-> H]. split; auto. now left.
  - revert w CW. induction CL as [|[s v] l [E H] CL IH]; intros w CW.
    + cbn. now rewrite app_nil_r.
    + cbn [fst snd] in *. subst s. cbn [laid_out map snd]. rewrite IH; auto.
Qed.

Lemma pass7 f w l : laid sep2 w l -> sub re_tab f (laid_out w l) = laid_out w l.
Proof.
  apply (noc_pass _ _ tab); [reflexivity| |reflexivity|discriminate].
  intros c t p H. apply match_at_miss. rewrite re_tab_eq. unfold c1 at 1. now rewrite m_chr, H.
Qed.

(** ** strip *)

Lemma lstrip_first (s : str) c t : s = c :: t -> is_space c = false -> lstrip s = s.
Proof. intros -> H. cbn [lstrip]. now rewrite H. Qed.

Lemma strip_ends w ws : clean w -> Forall clean ws -> strip (w ++ spaced ws) = w ++ spaced ws.
Proof.
  intros (HN & HS & _) HF. unfold strip, rstrip.
  assert (E : lstrip (w ++ spaced ws) = w ++ spaced ws).
  { destruct w as [|c w]; [congruence|]. cbn [app]. eapply lstrip_first; eauto.
    inversion HS; subst. now apply negb_true_iff. }
  rewrite E. 
  assert (EL : exists c t, rev (w ++ spaced ws) = c :: t /\ is_space c = false).
  { clear E. revert w HN HS. induction HF as [|v ws CV HF IH]; intros w HN HS.
    - unfold spaced. cbn [map concat]. rewrite app_nil_r. destruct (rev w) as [|c t] eqn:ER.
      + exfalso. apply HN. rewrite <- (rev_involutive w), ER. reflexivity.
      + exists c, t. split; auto. apply allc_rev in HS. rewrite ER in HS. inversion HS; subst. now apply negb_true_iff.
    - change (spaced (v :: ws)) with (sp :: v ++ spaced ws). rewrite rev_app_distr. cbn [rev].
      destruct CV as (CN & CS & _). destruct (IH v CN CS) as (c & t & -> & HC). exists c. eexists. split; [reflexivity|auto]. }
  destruct EL as (c & t & EL & HC). rewrite (lstrip_first _ _ _ EL HC). apply rev_involutive.
Qed.

(** ** The whole of [tidy] *)

Theorem tidy_laid w l : clean w -> Forall (fun x => separator (fst x) /\ clean (snd x)) l ->
  tidy (laid_out w l) = join [sp] (w :: map snd l).
Proof.
  intros CW CL. unfold tidy.
  destruct (pass1 w l) as (l1 & L1 & M1 & ->); [split; auto|].
  destruct (pass2 w l1 L1) as (l2 & L2 & M2 & ->).
  rewrite (pass3 _ w l2 L2), (pass4 _ w l2 L2), (pass5 _ w l2 L2).
  destruct (pass6 w l2 L2) as (l3 & L3 & M3 & ->).
  destruct (laid_single w l3 L3) as [L4 E]. rewrite (pass7 _ w l3 L4), E.
  rewrite M3, M2, M1. rewrite <- spaced_join. apply strip_ends; auto.
  apply Forall_map. eapply Forall_impl; [|exact CL]. intros x []; assumption.
Qed.
