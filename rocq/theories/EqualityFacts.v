(** Lemmas about [==] and [!=]. *)

From Coq Require Import Ascii String NArith ZArith QArith Bool Arith List Lia.
From Verif Require Import PyStr PyNum PyNumFacts RegexFacts Types TypesFacts TypesFacts2 Cards ConstraintsSpec ConstraintsFacts Equality EqualitySpec.
Import ListNotations.
Open Scope list_scope.

Lemma seqb_eq' a b : seqb a b = true <-> a = b.
Proof.
  revert b. induction a as [|x a IH]; intros [|y b]; cbn [seqb]; try (split; congruence).
  rewrite andb_true_iff, IH. unfold ceqb. rewrite Ascii.eqb_eq. split; [intros [-> ->]; auto|intros [= -> ->]; auto].
Qed.

Lemma str_of_N_minus n t : str_of_N n <> "-"%char :: t.
Proof. intros H. pose proof (str_of_N_digits n) as F. rewrite H in F. inversion F. discriminate. Qed.

Lemma str_of_Z_inj x y : str_of_Z x = str_of_Z y -> x = y.
Proof.
  unfold str_of_Z. intros E.
  destruct x as [|p|p], y as [|q|q];
  first [ apply str_of_N_inj in E; cbn in E; congruence
        | exfalso; eapply str_of_N_minus; exact E
        | exfalso; eapply str_of_N_minus; symmetry; exact E
        | injection E as E; apply str_of_N_inj in E; congruence ].
Qed.

(** A shorthand's text holds a letter that no number has. *)
Lemma horiz_letter h : exists c, In c (horiz_to_mcnp h) /\ In c (L "rimjg").
Proof.
  destruct h; cbn [horiz_to_mcnp];
  [exists "r"%char|exists "i"%char|exists "m"%char|exists "j"%char|exists "g"%char];
  (split; [apply in_or_app; right; cbn; tauto|cbn; tauto]).
Qed.

Lemma numchars_not_horiz s h : allc is_numchar s -> s <> horiz_to_mcnp h.
Proof.
  intros F ->. destruct (horiz_letter h) as (c & Hc & Hl). unfold allc in F. rewrite Forall_forall in F. specialize (F c Hc).
  cbn in Hl. repeat (destruct Hl as [<-|Hl]; [discriminate|]). destruct Hl.
Qed.

Lemma inf_not_horiz n h : dec_str (Inf n) <> horiz_to_mcnp h.
Proof.
  intros E. pose proof (horiz_chars h) as F. rewrite <- E in F. unfold allc in F. rewrite Forall_forall in F.
  assert (H : In "y"%char (dec_str (Inf n))) by (destruct n; cbn; tauto). specialize (F _ H). discriminate.
Qed.

Lemma int_texts i j : integer_to_mcnp i = integer_to_mcnp j ->
  match i, j with IVal x, IVal y => x = y | IHor g, IHor h => horiz_to_mcnp g = horiz_to_mcnp h | _, _ => False end.
Proof.
  destruct i as [x|g], j as [y|h]; cbn [integer_to_mcnp]; intros E; auto.
  - now apply str_of_Z_inj.
  - eapply numchars_not_horiz; [apply str_of_Z_numchars|exact E].
  - eapply numchars_not_horiz; [apply str_of_Z_numchars|symmetry; exact E].
Qed.

Lemma hor_eq_Z_false h z : hor_eq_Z h z = false.
Proof.
  unfold hor_eq_Z. destruct (seqb _ _) eqn:E; [|now rewrite andb_false_r]. apply seqb_eq' in E.
  exfalso. eapply numchars_not_horiz; [apply str_of_Z_numchars|symmetry; exact E].
Qed.

Lemma hor_eq_dec_false h d : a_number (RVal d) -> hor_eq_dec h d = false.
Proof.
  unfold hor_eq_dec. destruct (seqb _ _) eqn:E; [|now rewrite andb_false_r]. apply seqb_eq' in E. intros Hd. exfalso.
  destruct d; [|eapply inf_not_horiz; symmetry; exact E|exact Hd].
  eapply numchars_not_horiz; [apply dec_str_numchars|symmetry; exact E].
Qed.

Theorem eq_integers s i j : exists b, py_eq s (EInt i) (EInt j) = Ok b /\ (b = true <-> same_text (EInt i) (EInt j)).
Proof.
  unfold py_eq, operator, same_text. cbn [text_of].
  assert (T : forall b : bool, (b = true -> integer_to_mcnp i = integer_to_mcnp j) ->
     (integer_to_mcnp i = integer_to_mcnp j -> b = true) -> b = true <-> integer_to_mcnp i = integer_to_mcnp j) by (intros; split; auto).
  destruct i as [x|g], j as [y|h]; cbn [eq_method bind ans].
  - exists (x =? y)%Z. split; [destruct (x =? y)%Z; reflexivity|]. rewrite Z.eqb_eq. split; [now intros ->|]. intros E. now apply int_texts in E.
  - rewrite hor_eq_Z_false. exists false. split; [reflexivity|]. split; [discriminate|]. intros E. now apply int_texts in E.
  - rewrite hor_eq_Z_false. exists false. split; [reflexivity|]. split; [discriminate|]. intros E. now apply int_texts in E.
  - exists (hor_eq g h). split; [destruct (hor_eq g h); reflexivity|]. apply seqb_eq'.
Qed.

Theorem eq_strings s a b : exists r, py_eq s (EString a) (EString b) = Ok r /\ (r = true <-> same_text (EString a) (EString b)).
Proof. exists (seqb a b). unfold py_eq, operator. cbn [eq_method bind ans]. split; [destruct (seqb a b); reflexivity|]. apply seqb_eq'. Qed.

Theorem eq_plain s a b : exists r, py_eq s (EPlain a) (EPlain b) = Ok r /\ (r = true <-> same_text (EPlain a) (EPlain b)).
Proof.
  exists (seqb a b). unfold py_eq, operator. cbn [eq_method text_eq truth_of text_of bind andb]. split; [unfold ans; destruct (seqb a b); reflexivity|]. apply seqb_eq'.
Qed.

Lemma cmp_dec_eq a b : a_number (RVal a) -> a_number (RVal b) -> exists r, cmp_dec OEq a b = Ok r /\ cmp_dec ONe a b = Ok (negb r) /\ (r = true <-> same_value (RVal a) (RVal b)).
Proof.
  destruct a as [n c e|n|]; [| |intros []]; destruct b as [n' c' e'|n'|]; intros _ Hb; try (now destruct Hb); clear Hb; unfold cmp_dec; cbn [same_value].
  - destruct (dec_cmp_Q n c e n' c' e') as (r & E & Q). rewrite E. exists (of_cmp OEq r). split; [reflexivity|].
    split; [now destruct r|]. rewrite <- Q. apply (of_cmp_Q OEq).
  - cbn [dec_cmp]. exists false. destruct n'; cbn; intuition discriminate.
  - cbn [dec_cmp]. exists false. destruct n; cbn; intuition discriminate.
  - cbn [dec_cmp]. exists (Bool.eqb n n'). destruct n, n'; cbn; intuition discriminate.
Qed.

Theorem eq_reals s x y : a_number x -> a_number y ->
  exists r, py_eq s (EReal x) (EReal y) = Ok r /\ (r = true <-> same_value x y).
Proof.
  intros Hx Hy. unfold py_eq, operator. cbn [eq_method].
  destruct x as [a|g], y as [b|h]; cbn [real_values_eq bind].
  - destruct (cmp_dec_eq a b Hx Hy) as (r & E & _ & T). rewrite E. exists r. split; [cbn [bind]; destruct r; reflexivity|exact T].
  - rewrite hor_eq_dec_false by exact Hx. exists false. split; [reflexivity|]. destruct a; cbn; intuition discriminate.
  - rewrite hor_eq_dec_false by exact Hy. exists false. split; [reflexivity|]. cbn; intuition discriminate.
  - exists (hor_eq g h). split; [destruct (hor_eq g h); reflexivity|]. apply seqb_eq'.
Qed.

Theorem ne_opposite s a b : comparable a b -> exists r, py_eq s a b = Ok r /\ py_ne s a b = Ok (negb r).
Proof.
  destruct a as [i|x|u|u], b as [j|y|v|v]; cbn [comparable]; try (intros []; fail); intros H; unfold py_eq, py_ne, operator.
  - destruct i as [a|g], j as [b|h]; cbn [eq_method ne_method bind].
    + exists (a =? b)%Z. destruct (a =? b)%Z; auto.
    + exists (hor_eq_Z h a). destruct (hor_eq_Z h a); auto.
    + exists (hor_eq_Z g b). destruct (hor_eq_Z g b); auto.
    + exists (hor_eq g h). destruct (hor_eq g h); auto.
  - destruct H as [Hx Hy]. destruct x as [a|g], y as [b|h]; cbn [eq_method ne_method real_values_eq bind].
    + destruct (cmp_dec_eq a b Hx Hy) as (r & E & E' & _). rewrite E, E'. exists r. destruct r; auto.
    + exists (hor_eq_dec h a). destruct (hor_eq_dec h a); auto.
    + exists (hor_eq_dec g b). destruct (hor_eq_dec g b); auto.
    + exists (hor_eq g h). destruct (hor_eq g h); auto.
  - cbn [eq_method ne_method bind]. exists (seqb u v). destruct (seqb u v); auto.
  - cbn [eq_method ne_method text_eq truth_of text_of bind andb]. exists (seqb u v). unfold ans. destruct (seqb u v); auto.
Qed.

Definition same_elem (a b : elem) : Prop :=
  match a, b with EReal x, EReal y => same_value x y | _, _ => same_text a b end.

Lemma eq_same s a b : comparable a b -> exists r, py_eq s a b = Ok r /\ (r = true <-> same_elem a b).
Proof.
  destruct a as [i|x|u|u], b as [j|y|v|v]; cbn [comparable]; try (intros []; fail); intros H.
  - apply eq_integers.
  - now apply eq_reals.
  - apply eq_strings.
  - apply eq_plain.
Qed.

Lemma same_refl a : comparable a a -> same_elem a a.
Proof. destruct a as [i|[[]|]|u|u]; cbn; try reflexivity. now intros []. Qed.
Lemma same_sym a b : same_elem a b -> same_elem b a.
Proof.
  destruct a as [i|[[]|]|u|u], b as [j|[[]|]|v|v]; cbn [same_elem same_value]; unfold same_text; auto; try (intros; now symmetry).
Qed.
Lemma same_trans a b c : comparable a b -> comparable b c -> same_elem a b -> same_elem b c -> same_elem a c.
Proof.
  destruct a as [i|x|u|u], b as [j|y|v|v]; cbn [comparable]; try (intros []; fail); destruct c as [k|z|w|w]; cbn [comparable]; try (intros ? []; fail);
  cbn [same_elem]; unfold same_text; intros _ _; try congruence.
  destruct x as [[]|], y as [[]|]; cbn [same_value]; try (intros []; fail); destruct z as [[]|]; try (intros ? []; fail); try congruence.
  intros H1 H2. now rewrite H1.
Qed.

Lemma bool_iff (r r' : bool) (P Q : Prop) : (r = true <-> P) -> (r' = true <-> Q) -> (P <-> Q) -> r = r'.
Proof. destruct r, r'; intuition congruence. Qed.

Theorem eq_refl_ s a : comparable a a -> py_eq s a a = Ok true.
Proof. intros H. destruct (eq_same s a a H) as (r & -> & E). f_equal. apply E. now apply same_refl. Qed.
Theorem eq_sym_ s a b : comparable a b -> py_eq s a b = py_eq s b a.
Proof.
  intros H. assert (H' : comparable b a) by (destruct a, b; cbn in *; tauto).
  destruct (eq_same s a b H) as (r & -> & E), (eq_same s b a H') as (r' & -> & E'). f_equal.
  eapply bool_iff; eauto. split; apply same_sym.
Qed.
Theorem eq_trans_ s a b c : comparable a b -> comparable b c -> py_eq s a b = Ok true -> py_eq s b c = Ok true -> py_eq s a c = Ok true.
Proof.
  intros H H' E1 E2. assert (H'' : comparable a c) by (destruct a, b, c; cbn in *; tauto).
  destruct (eq_same s a b H) as (r & E & Q), (eq_same s b c H') as (r' & E' & Q'), (eq_same s a c H'') as (r'' & -> & Q'').
  f_equal. apply Q''. apply (same_trans a b c); auto; [apply Q|apply Q']; congruence.
Qed.
