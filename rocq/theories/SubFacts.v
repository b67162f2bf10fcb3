(** Facts about [re.sub]: position-independent equations, one match at a time. *)

From Coq Require Import Ascii String NArith ZArith Bool Arith Lia List.
From Verif Require Import PyStr Regex RegexParse RegexFacts RegexLang PyNum PyNumFacts Types TypesSpec TypesFacts TypesFacts3 TypesFacts4.
Import ListNotations.
Open Scope char_scope.

Lemma m_rest_le A r p s (k : st -> option A) x :
  m r (mkst p s []) k = Some x -> exists s', k s' = Some x /\ length (rest s') <= length s.
Proof.
  intros H. apply m_sound in H as (s' & HM & HK). exists s'. split; auto.
  apply M_consumes in HM as (u & [C _] & _). simpl in C. rewrite C, app_length. lia.
Qed.

Lemma match_at_rest r p s o : match_at r p s = Some o -> mtext o <> [] -> length (mrest o) < length s.
Proof.
  unfold match_at. destruct (m r _ Some) as [s'|] eqn:E; [|discriminate].
  intros [= <-]. cbn [mtext mrest]. intros HN.
  destruct (length s - length (rest s')) eqn:D; [now destruct HN|]. lia.
Qed.

(** [sub] from the position ([p], [s]) with enough fuel. *)
Definition subF r f p s := sub_f (S (length s)) r f p s.

Lemma sub_f_fuel r f : forall n s p k, length s < n -> length s < k -> sub_f n r f p s = sub_f k r f p s.
Proof.
  induction n as [|n IH]; intros s p k Hn Hk; [lia|]. destruct k as [|k]; [lia|].
  cbn [sub_f]. destruct (match_at r p s) as [o|] eqn:E.
  - destruct (mtext o) as [|a u] eqn:ET.
    + destruct s as [|c t]; auto. f_equal. f_equal. apply IH; simpl in *; lia.
    + f_equal. assert (HN : mtext o <> []) by congruence.
      pose proof (match_at_rest _ _ _ _ E HN). apply IH; lia.
  - destruct s as [|c t]; auto. f_equal. apply IH; simpl in *; lia.
Qed.

(** [reps r f s o]: wherever [s] stands, substituting in it gives [o]. *)
Definition reps r f (s o : str) : Prop := forall p, subF r f p s = o.

Lemma reps_sub r f s o : reps r f s o -> sub r f s = o.
Proof. intros H. apply H. Qed.

Lemma reps_nil r f : (forall p, match_at r p [] = None) -> reps r f [] [].
Proof. intros H p. unfold subF. cbn [sub_f length]. now rewrite H. Qed.

Lemma reps_copy r f c t o : (forall p, match_at r p (c :: t) = None) -> reps r f t o -> reps r f (c :: t) (c :: o).
Proof.
  intros H HR p. unfold subF. cbn [sub_f length]. rewrite H. f_equal. apply (HR (c :: p)).
Qed.

Lemma reps_hit r f u t c x o : u <> [] ->
  (forall p, match_at r p (u ++ t) = Some {| mpre := p; mtext := u; mrest := t; mcaps := c |}) ->
  (forall p, f {| mpre := p; mtext := u; mrest := t; mcaps := c |} = x) ->
  reps r f t o -> reps r f (u ++ t) (x ++ o).
Proof.
  intros HU H HX HR p. unfold subF. cbn [sub_f]. rewrite H. cbn [mtext mrest]. rewrite HX.
  destruct u as [|a u]; [congruence|]. f_equal. rewrite <- (HR (rev (a :: u) ++ p)). unfold subF.
  apply sub_f_fuel; rewrite ?app_length; simpl; lia.
Qed.

Lemma reps_word r f w t o : (forall c w1 w2 p, w = w1 ++ c :: w2 -> match_at r p (c :: w2 ++ t) = None) ->
  reps r f t o -> reps r f (w ++ t) (w ++ o).
Proof.
  intros H HR. induction w as [|c w IH]; auto. cbn [app]. apply reps_copy.
  - intros p. apply (H c [] w p eq_refl).
  - apply IH. intros d w1 w2 p E. apply (H d (c :: w1) w2 p). simpl. now rewrite E.
Qed.

Lemma match_at_hit r p u t c :
  m r (mkst p (u ++ t) []) Some = Some (mkst (rev u ++ p) t c) ->
  match_at r p (u ++ t) = Some {| mpre := p; mtext := u; mrest := t; mcaps := c |}.
Proof. intros H. unfold match_at. rewrite H. cbn [rest caps]. now rewrite firstn_text. Qed.

Lemma match_at_miss r p s : m r (mkst p s []) Some = None -> match_at r p s = None.
Proof. intros H. unfold match_at. now rewrite H. Qed.

Lemma ceqb_refl a : ceqb a a = true.
Proof. apply Ascii.eqb_refl. Qed.
Lemma ceqb_eq a b : ceqb a b = true <-> a = b.
Proof. apply Ascii.eqb_eq. Qed.
Lemma ceqb_neq a b : ceqb a b = false <-> a <> b.
Proof. apply Ascii.eqb_neq. Qed.

Lemma inset_chr_ceqb a c : inset (cs_chr (code a)) c = ceqb c a.
Proof.
  destruct (ceqb c a) eqn:E.
  - apply ceqb_eq in E. subst. apply inset_chr_refl.
  - destruct (inset (cs_chr (code a)) c) eqn:I; auto. apply inset_chr_eq in I. subst.
    now rewrite ceqb_refl in E.
Qed.

Lemma m_chr A a c t p cp (k : st -> option A) :
  m (RSet (cs_chr (code a))) (mkst p (c :: t) cp) k = if ceqb c a then k (mkst (c :: p) t cp) else None.
Proof. cbn [m rest pre caps]. now rewrite inset_chr_ceqb. Qed.

Lemma m_set_nil A cs p cp (k : st -> option A) : m (RSet cs) (mkst p [] cp) k = None.
Proof. reflexivity. Qed.

Lemma m_altE A a b s (k : st -> option A) : m (RAlt a b) s k = match m a s k with Some x => Some x | None => m b s k end.
Proof. reflexivity. Qed.
