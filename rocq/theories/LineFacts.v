(** Written cards have no blank line. *)

From Coq Require Import Ascii String NArith ZArith Bool Arith Lia List.
From Verif Require Import PyStr RegexFacts TypesSpec CardText CardTextSpec CardTextFacts6 GeometryFacts5 Cards Tables CardsSpec Numbered Problem InpFile InpSpec InpSpec2 InpFacts InpFacts7 InpFacts10 OptSpec CellSpec OptFacts6 CellFacts3 LikeFacts.
Import ListNotations.
Open Scope char_scope.
Open Scope list_scope.

Definition solid (l : str) : Prop := exists c, In c l /\ is_space c = false.
Lemma solid_strip l : solid l -> strip l <> [].
Proof.
  intros (c & HI & HC) E. destruct (strip_split l) as (a & b & EL & HA & HB). rewrite E in EL. cbn [app] in EL. rewrite EL in HI. apply in_app_or in HI.
  unfold allc in *. rewrite Forall_forall in *. destruct HI as [HI|HI]; [apply HA in HI|apply HB in HI]; congruence.
Qed.
Lemma solid_app a b : solid a -> solid (a ++ b).
Proof. intros (c & H & E). exists c. split; auto. apply in_or_app. now left. Qed.
Lemma solid_after a b : solid b -> solid (a ++ b).
Proof. intros (c & H & E). exists c. split; auto. apply in_or_app. now right. Qed.
Lemma clean_solid w : clean w -> solid w /\ ~ In nl w.
Proof.
  intros H. split; [|now apply clean_nonl]. pose proof (fun P H0 => clean_chars P w H0 H) as X. destruct w as [|c w]; [now destruct H|].
  exists c. split; [now left|]. exact (X (fun c => is_space c = false) (fun _ E => E) c [] w eq_refl).
Qed.
Lemma blank_nonl b : blank b -> ~ In nl b.
Proof. intros H HI. unfold blank in H. rewrite Forall_forall in H. apply H in HI. discriminate. Qed.

Lemma laid_lines l : forall u w t, Forall (fun x => fold (fst x) /\ clean (snd x)) l -> ~ In nl u -> clean w -> blank t -> no_blank_line (u ++ laid_out w l ++ t).
Proof.
  unfold no_blank_line. induction l as [|[s v] l IH]; intros u w t HL HU HW HT; destruct (clean_solid w HW) as [SW NW].
  - cbn [laid_out]. rewrite split_on_none.
    + constructor; [|constructor]. apply solid_strip. now apply solid_after, solid_app.
    + intros HI. apply in_app_or in HI as [HI|HI]; auto. apply in_app_or in HI as [HI|HI]; auto. now apply (blank_nonl t HT).
  - inversion HL as [|? ? [HF HV] HL']; subst. cbn [fst snd laid_out] in *.
    assert (HCUT : forall a b, ~ In nl a -> ~ In nl b -> s = a ++ nl :: b -> Forall (fun x => strip x <> []) (split_on nl (u ++ (w ++ s ++ laid_out v l) ++ t))).
    { intros a b HA HB ->. replace (u ++ (w ++ (a ++ nl :: b) ++ laid_out v l) ++ t) with ((u ++ w ++ a) ++ nl :: (b ++ laid_out v l ++ t)) by (rewrite <- !app_assoc; reflexivity).
      rewrite split_on_app. apply Forall_app. split; [|now apply IH]. rewrite split_on_none.
      - constructor; [|constructor]. apply solid_strip. now apply solid_after, solid_app.
      - intros HI. apply in_app_or in HI as [HI|HI]; auto. apply in_app_or in HI as [HI|HI]; auto. }
    destruct HF as [b HB _|a c b HA HC HB _|a b HA HB _].
    + replace (u ++ (w ++ b ++ laid_out v l) ++ t) with ((u ++ w ++ b) ++ laid_out v l ++ t) by (rewrite <- !app_assoc; reflexivity). apply IH; auto.
      intros HI. apply in_app_or in HI as [HI|HI]; auto. apply in_app_or in HI as [HI|HI]; auto. now apply (blank_nonl b HB).
    + apply (HCUT (a ++ "&" :: c) b); [|now apply blank_nonl|now rewrite <- app_assoc].
      intros HI. apply in_app_or in HI as [HI|[HI|HI]]; [now apply (blank_nonl a)|discriminate|now apply (blank_nonl c)].
    + apply (HCUT a b); auto using blank_nonl.
Qed.
Theorem row_lines r : row_ok r -> no_blank_line (row_text r).
Proof. intros (H1 & H2 & H3 & H4). exact (laid_lines (r_more r) [] (r_first r) (r_tail r) H3 (fun x => x) H1 H4). Qed.

Theorem written_lines c t : plain_remark c \/ plain_cell c \/ plain_like c \/ plain_surface c \/ plain_data c \/ listed_data c -> card_text (fst c) = Ok t -> no_blank_line t.
Proof.
  intros H E.
  assert (HR : exists r, row_ok r /\ row_text r = t).
  { destruct H as [H|[H|[H|[H|[H|H]]]]].
    - exact (proj1 (proj1 (remark_comes_back c H) t E)).
    - exact (proj1 (cell_back c H t E)).
    - exact (proj1 (like_back c H t E)).
    - exact (proj1 (surface_back c H t E)).
    - exact (proj1 (data_comes_back c H t E)).
    - exact (proj1 (listed_comes_back c H t E)). }
  destruct HR as (r & R & <-). now apply row_lines.
Qed.

Theorem unbroken_lines c t : unbroken c -> card_text (fst c) = Ok t -> no_blank_line t.
Proof. intros H. apply written_lines. unfold unbroken in H. tauto. Qed.

(** ** Blocks *)

Lemma blocks_some ls : exists b bs, blocks ls = b :: bs.
Proof. destruct ls as [|l ls]; cbn [blocks]; [eauto|]. destruct (strip l); [eauto|]. destruct (blocks ls); eauto. Qed.
Lemma blocks_app ls rest : Forall (fun l => strip l <> []) ls -> blocks (ls ++ [] :: rest) = ls :: blocks rest.
Proof.
  induction 1 as [|l ls H _ IH]; cbn [blocks app]; [reflexivity|]. rewrite IH. now destruct (strip l).
Qed.
Lemma lines_join ls : ls <> [] -> lines (join [nl] ls) = concat (map lines ls).
Proof.
  unfold lines. intros N. induction ls as [|x ls IH]; [congruence|]. destruct ls as [|y ls]; [cbn [join map concat]; now rewrite app_nil_r|].
  change (join [nl] (x :: y :: ls)) with (x ++ [nl] ++ join [nl] (y :: ls)). cbn [app]. rewrite split_on_app, IH by discriminate. reflexivity.
Qed.
Lemma all_lines ls : Forall no_blank_line ls -> Forall (fun l => strip l <> []) (concat (map lines ls)).
Proof. induction 1; cbn [map concat]; [constructor|]. now apply Forall_app. Qed.
Lemma texts_lines (P : remarked -> Prop) l ts : (forall c t, P c -> card_text (fst c) = Ok t -> no_blank_line t) ->
  Forall P l -> card_texts l = Ok ts -> Forall no_blank_line ts /\ (l <> [] -> ts <> []).
Proof.
  intros HP HL. revert ts. induction HL as [|c l HC _ IH]; intros ts; unfold card_texts; cbn [mapM].
  - intros E. injection E as <-. split; [constructor|congruence].
  - destruct (card_text (fst c)) as [t|e|e] eqn:E; cbn [bind]; try discriminate. fold (card_texts l). destruct (card_texts l) as [ts'|e|e]; cbn [bind]; try discriminate.
    intros X. injection X as <-. split; [|discriminate]. constructor; [now apply (HP c)|now apply IH].
Qed.
Theorem problem_blocks x s :
  i_message x = None -> no_blank_line (i_title x) -> i_cells x <> [] -> i_surfaces x <> [] -> i_data x <> [] ->
  Forall unbroken (i_cells x) -> Forall unbroken (i_surfaces x) -> Forall unbroken (i_data x) ->
  inp_to_mcnp x = Ok s ->
  exists cells surfaces data,
    card_texts (i_cells x) = Ok cells /\ card_texts (i_surfaces x) = Ok surfaces /\ card_texts (i_data x) = Ok data /\
    blocks (lines s) = (lines (i_title x) ++ concat (map lines cells)) :: concat (map lines surfaces) :: concat (map lines data) ::
                       blocks (lines (match i_other x with Some o => o | None => [] end)).
Proof.
  intros HM HT NC NS ND HC HS HD. unfold inp_to_mcnp.
  pose proof unbroken_lines as HP.
  destruct (card_texts (i_cells x)) as [cells|e|e] eqn:EC; cbn [bind]; try discriminate.
  destruct (card_texts (i_surfaces x)) as [surfaces|e|e] eqn:ES; cbn [bind]; try discriminate.
  destruct (card_texts (i_data x)) as [data|e|e] eqn:ED; cbn [bind]; try discriminate. intros E. injection E as <-.
  destruct (texts_lines _ _ _ HP HC EC) as [C1 C2]. destruct (texts_lines _ _ _ HP HS ES) as [S1 S2]. destruct (texts_lines _ _ _ HP HD ED) as [D1 D2].
  exists cells, surfaces, data. split; [reflexivity|]. split; [reflexivity|]. split; [reflexivity|].
  rewrite HM. unfold file_text, block_text. cbn [app].
  assert (EL : forall a b, lines (a ++ nl :: b) = lines a ++ lines b) by (intros; apply split_on_app).
  assert (E0 : forall b, lines (nl :: b) = [] :: lines b) by (intros b; exact (split_on_app nl [] b)).
  etransitivity; [apply f_equal; apply EL|]. etransitivity; [apply f_equal, f_equal; apply EL|]. rewrite E0.
  etransitivity; [apply f_equal, f_equal, f_equal, f_equal; apply EL|]. rewrite E0.
  etransitivity; [apply f_equal, f_equal, f_equal, f_equal, f_equal, f_equal; apply EL|]. rewrite E0.
  rewrite !lines_join by auto.
  etransitivity; [apply f_equal; apply app_assoc|].
  refine (eq_trans (blocks_app _ _ _) _); [apply Forall_app; split; [exact HT|now apply all_lines]|]. f_equal.
  refine (eq_trans (blocks_app _ _ _) _); [now apply all_lines|]. f_equal.
  refine (eq_trans (blocks_app _ _ _) _); [now apply all_lines|]. reflexivity.
Qed.

Definition optioned (c : remarked) : bool :=
  match fst c with CComment _ => true | CCell k => match ce_options k with Some _ => true | None => false end | CLike o => match attr_of "options" o with Some _ => true | None => false end | _ => false end.
Lemma options_enough l : Forall (fun c => plain_remark c \/ plain_cell c \/ plain_like c) l -> forallb optioned l = true -> Forall unbroken l.
Proof.
  induction 1 as [|c l HC _ IH]; [constructor|]. cbn [forallb]. intros E. apply andb_prop in E as [EC EL]. constructor; [|now apply IH]. destruct HC as [H|H]; [left; exact H|]. right. left. split; [exact H|].
  unfold with_options. unfold optioned in EC. destruct H as [(? & ? & ? & ? & ? & ? & ? & ? & _ & _ & _ & _ & _ & _ & _ & _ & ->)|(? & ? & ? & ? & _ & _ & _ & _ & _ & _ & ->)]; cbn [fst] in *.
  - destruct (ce_options _); discriminate.
  - destruct (attr_of "options" _); discriminate.
Qed.
Lemma nonempty_ok {A} (l : list A) : negb (Nat.eqb (length l) 0) = true -> l <> [].
Proof. intros H ->. discriminate H. Qed.
