(** Words of values: what they look like, how they are read. *)

From Coq Require Import Ascii String NArith ZArith Bool Arith List Lia.
From Verif Require Import PyStr Regex RegexParse RegexFacts RegexLang PyNum PyNumFacts Types TypesSpec TypesFacts TypesFacts2 TypesFacts3 TypesFacts4 TypesFacts5 SubFacts CardText CardTextSpec CardTextFacts CardTextFacts2 Cards CardsSpec CardsFacts.
Import ListNotations.
Open Scope char_scope.
Open Scope list_scope.

Lemma seqb_eq a b : seqb a b = true <-> a = b.
Proof.
  revert b. induction a as [|x a IH]; intros [|y b]; cbn [seqb]; split; intros H; try discriminate; auto.
  - apply andb_prop in H as [H1 H2]. apply Ascii.eqb_eq in H1. apply IH in H2. congruence.
  - injection H as -> ->. apply andb_true_intro. split; [apply Ascii.eqb_refl|now apply IH].
Qed.

(** * Designators *)

Lemma designator_pat : compile true (slice 2 2 pat_designator) = r_desig.
Proof. vm_compute. reflexivity. Qed.

Lemma loopg_commas A (k : st -> option A) cl : forall p t fuel cp,
  allc (inset cs_desig) cl -> bnd t -> length (concat (map (fun x => [","; x]) cl)) < fuel ->
  (forall s, k s <> None) ->
  loopg (fun s k => m (RCat (RSet (cs_chr 44)) (RSet cs_desig)) s k) k fuel None
     (mkst p (concat (map (fun x => [","; x]) cl) ++ t) cp)
  = k (mkst (rev (concat (map (fun x => [","; x]) cl)) ++ p) t cp).
Proof.
  induction cl as [|x cl IH]; intros p t fuel cp HA Ht HF HK.
  - destruct fuel as [|f]; [simpl in HF; lia|]. cbn [map concat rev app loopg czero].
    destruct Ht as [->|(t' & ->)]; reflexivity.
  - inversion HA; subst. cbn [map concat] in *. rewrite app_length in HF. cbn [length] in HF.
    destruct fuel as [|f]; [lia|]. cbn [loopg czero cdec]. rewrite <- app_assoc. cbn [app].
    rewrite m_catE, m_setE by reflexivity. rewrite m_setE by auto.
    set (s0 := mkst p _ cp). replace (progress s0 _) with true.
    2:{ symmetry. unfold s0. apply (progress_app p [","; x]). discriminate. }
    cbn [cdec]. rewrite (IH (x :: "," :: p) t f cp); auto; [|lia].
    cbn [app rev]. rewrite <- !app_assoc. cbn [app].
    match goal with |- match ?e with _ => _ end = _ => destruct e eqn:E; auto end. now apply HK in E.
Qed.

Lemma m_starE A a s (k : st -> option A) :
  m (RRep false 0 None a) s k = loopg (fun s k => m a s k) k (S (length (rest s))) None s.
Proof. reflexivity. Qed.
Lemma designator_list s : designator_from_mcnp s = Ok s -> comma_list (inset cs_desig) s.
Proof.
  intros H. destruct (designator_char s) as [_ HN].
  assert (X : comma_list (inset cs_desig) s \/ ~ comma_list (inset cs_desig) s).
  { destruct (re_match re_designator s) as [o|] eqn:E.
    - left. rewrite re_designator_eq in E. apply match_whole_inv in E as (_ & HW); [|reflexivity]. now apply W_desig in HW.
    - right. intros HC. apply (proj1 (designator_char s)) in HC. unfold designator_from_mcnp in HC. rewrite E in HC. discriminate. }
  destruct X as [X|X]; auto. apply HN in X. congruence.
Qed.
Lemma reads_designator s : designator_from_mcnp s = Ok s -> reads_word r_desig s.
Proof.
  intros H. apply designator_list in H.
  destruct H as (c & cl & Hc & HA & ->). split; [discriminate|]. intros p t Ht.
  set (w := concat (map (fun x => [","; x]) cl)) in *.
  exists [(1, c :: w)]. unfold match_at, r_desig. rewrite m_grp, m_catE. cbn [app]. rewrite m_setE by auto.
  assert (E : m (RRep false 0 None (RCat (RSet (cs_chr 44)) (RSet cs_desig))) (mkst (c :: p) (w ++ t) [])
     (fun s' => Some (addcap 1 (mkst p (c :: w ++ t) []) s')) = Some (mkst (rev w ++ c :: p) t [(1, c :: w)])).
  { rewrite m_starE. unfold w. rewrite loopg_commas; auto; fold w.
    - f_equal. apply (addcap_app 1 p (c :: w)).
    - cbn [rest]. rewrite app_length. lia.
    - discriminate. }
  rewrite E. cbn [rest caps]. f_equal. f_equal. apply (firstn_text (c :: w) t).
Qed.

(** * Plain words *)

Lemma numchar_ok c : is_numchar c = true ->
  is_space c = false /\ c <> "=" /\ c <> "$" /\ c <> "&" /\ c <> "(" /\ c <> ")" /\
  existsb (ceqb (lower c)) (L "jrigoml") = false.
Proof.
  intros H. pose proof (all_ascii (fun c => implb (is_numchar c)
    (negb (is_space c) && negb (existsb (ceqb c) (L "=$&()")) && negb (existsb (ceqb (lower c)) (L "jrigoml")))) eq_refl c) as Q.
  cbv beta in Q. rewrite H in Q. cbn [implb] in Q. apply andb_prop in Q as [Q Q3]. apply andb_prop in Q as [Q1 Q2].
  apply negb_true_iff in Q1, Q2, Q3. split; auto.
  repeat split; auto; intros ->; discriminate.
Qed.

Lemma last_in (A : Type) (w : list A) d : w <> [] -> In (last w d) w.
Proof.
  induction w as [|c w IH]; [congruence|]. intros _. destruct w as [|c' w]; [now left|]. right. now apply IH.
Qed.
Lemma numword_plain w : w <> [] -> allc is_numchar w -> plain_word w.
Proof.
  intros NE H. assert (HI : forall c, In c w -> is_numchar c = true) by now apply Forall_forall.
  assert (HLa : is_numchar (last w " ") = true) by (apply HI; now apply last_in).
  assert (HS : forall k v, (exists u, w = u ++ v) -> is_short k v = false).
  { intros k v (u & E). destruct (is_short k v) eqn:S; auto. exfalso. unfold is_short in S. apply seqb_eq in S.
    assert (HV : v <> []) by (intros ->; destruct k; discriminate S).
    assert (X : exists c, In c v /\ existsb (ceqb (lower c)) (L "jrigoml") = true).
    { destruct v as [|c v]; [congruence|]. exists c. split; [now left|].
      cbn [slower map] in S. destruct k; cbn in S; injection S as S _; rewrite S; reflexivity. }
    destruct X as (c & HC & X). assert (Y : In c w) by (rewrite E; apply in_or_app; auto).
    apply HI, numchar_ok in Y. destruct Y as (_ & _ & _ & _ & _ & _ & Y). congruence. }
  repeat split; auto.
  - apply Forall_forall. intros c HC. apply HI, numchar_ok in HC. now rewrite (proj1 HC).
  - intros HC. apply HI, numchar_ok in HC. tauto.
  - intros HC. apply HI, numchar_ok in HC. tauto.
  - apply numchar_ok in HLa. tauto.
  - apply numchar_ok in HLa. tauto.
  - destruct w as [|c w]; [congruence|]. cbn [hd]. assert (Y : is_numchar c = true) by (apply HI; now left). apply numchar_ok in Y. tauto.
  - intros k n (ds & t & E & _ & _ & _ & S). rewrite (HS k t) in S; [discriminate|]. eauto.
  - intros k S. rewrite (HS k w) in S; [discriminate|]. now exists [].
Qed.

Lemma horiz_plain h : seq_horiz h = true -> plain_word (horiz_to_mcnp h).
Proof.
  intros H. assert (HC : forall w, In w [L "r"; L "i"; L "j"; L "log"] -> plain_word w).
  { intros w HI. cbn [In] in HI. repeat (destruct HI as [<-|HI]; [|]); [..|destruct HI];
    (split; [repeat split; try discriminate; try (repeat constructor); intros X; repeat destruct X as [X|X]; try discriminate; destruct X
    |split; [intros k n (ds & t & E & N & D & _); destruct ds; [congruence|]; injection E as <- E; inversion D; discriminate
    |intros k; destruct k; vm_compute; congruence]]). }
  destruct h as [[n|]|[n|]|x|[n|]|[n|]]; try discriminate; cbn [horiz_to_mcnp or_empty app]; try (apply HC; cbn; tauto).
  pose proof (str_of_N_digits x) as D. pose proof (str_of_N_nonempty x) as N.
  assert (HA : forall c, In c (str_of_N x ++ L "m") -> (is_numchar c || ceqb c "m")%bool = true).
  { intros c HI. apply in_app_or in HI as [HI|HI].
    - unfold digits, allc in D. rewrite Forall_forall in D. apply D, is_digit_numchar in HI. now rewrite HI.
    - destruct HI as [<-|[]]. reflexivity. }
  assert (HB : forall c, (is_numchar c || ceqb c "m")%bool = true -> is_space c = false /\ existsb (ceqb c) (L "=$&()") = false).
  { intros c HX. pose proof (all_ascii (fun c => implb (is_numchar c || ceqb c "m")
      (negb (is_space c) && negb (existsb (ceqb c) (L "=$&()")))) eq_refl c) as Q.
    cbv beta in Q. rewrite HX in Q. cbn [implb] in Q. apply andb_prop in Q as [Q1 Q2]. now apply negb_true_iff in Q1, Q2. }
  split; [repeat split|split].
  - destruct (str_of_N x); discriminate.
  - apply Forall_forall. intros c HI. apply HA, HB in HI. now rewrite (proj1 HI).
  - intros HI. apply HA in HI. discriminate.
  - intros HI. apply HA in HI. discriminate.
  - change (L "m") with ["m"]; rewrite last_last. discriminate.
  - change (L "m") with ["m"]; rewrite last_last. discriminate.
  - destruct (str_of_N x) as [|c w]; [congruence|]. cbn [app hd]. intros ->. inversion D; discriminate.
  - intros k n (ds & t & E & N1 & D1 & _ & S). unfold is_short in S. apply seqb_eq in S.
    assert (X : exists u, t = u ++ ["m"]).
    { destruct t as [|c t0] using rev_ind; [destruct k; discriminate|]. rewrite app_assoc in E. apply app_inj_tail in E as [_ <-]. eauto. }
    destruct X as (u & ->). unfold slower in S. rewrite map_app in S. destruct k; cbn in S;
      repeat (destruct u as [|? u]; cbn in S; try discriminate; try (injection S as S; try discriminate)).
  - intros k S. unfold is_short in S. apply seqb_eq in S. unfold slower in S. rewrite map_app in S.
    destruct (str_of_N x) as [|a u]; [congruence|]. destruct k; cbn in S;
      repeat (destruct u as [|? u]; cbn in S; try discriminate; try (injection S as ? S; try discriminate)).
Qed.

Lemma int_plain i : int_seq i = true -> plain_word (integer_to_mcnp i).
Proof.
  destruct i as [v|h]; cbn [integer_to_mcnp int_seq]; [|apply horiz_plain]. intros _.
  apply numword_plain; [|apply str_of_Z_numchars]. destruct (plain_int v) as (c & w & -> & _). discriminate.
Qed.
Lemma real_plain r : real_seq r = true -> plain_word (real_to_mcnp r).
Proof.
  destruct r as [[]|]; cbn [real_to_mcnp real_seq]; try discriminate; [|apply horiz_plain]. intros _.
  apply numword_plain; [apply dec_str_nonempty|apply dec_str_numchars].
Qed.

(** * One value: its word, how it is read *)

Lemma ty_re_number : ty_re TInt = r_number /\ ty_re TReal = r_number.
Proof. split; exact number_pat. Qed.
Lemma ty_re_word t : word_ty t = true ->
  plain (ty_re t) = true /\ alpha (ty_re t) sp = false /\ groups_above 0 (ty_re t) = true /\ no_blank_start (ty_re t).
Proof.
  intros H. destruct t; try discriminate; (split; [vm_compute; reflexivity|split; [vm_compute; reflexivity|split; [vm_compute; reflexivity|]]]).
  - unfold ty_re. cbn [pat_of]. rewrite number_pat. split; intros; reflexivity.
  - unfold ty_re. cbn [pat_of]. rewrite number_pat. split; intros; reflexivity.
  - unfold ty_re. cbn [pat_of]. rewrite string_pat. split; intros; reflexivity.
  - unfold ty_re. cbn [pat_of]. rewrite distribution_pat. split; intros; reflexivity.
  - unfold ty_re. cbn [pat_of]. rewrite zaid_pat. split; intros; reflexivity.
  - unfold ty_re. cbn [pat_of]. rewrite designator_pat. split; intros; reflexivity.
Qed.

Lemma val_word ext t v : word_ty t = true -> val_ok t v ->
  plain_word (write v) /\ reads_word (ty_re t) (write v) /\ read_ty ext t (write v) = Ok v.
Proof.
  intros HT HV. destruct t; try discriminate; destruct v; cbn [val_ok] in HV; try contradiction; cbn [write read_ty]; unfold ty_re; cbn [pat_of].
  - split; [now apply int_plain|]. split; [rewrite number_pat; now apply reads_int|]. now rewrite int_rt by now apply int_seq_ok.
  - split; [now apply real_plain|]. split; [rewrite number_pat; now apply reads_real|]. now rewrite real_rt by now apply real_seq_ok.
  - split; auto. split; [|reflexivity]. rewrite string_pat. destruct HV as [(N & S & _) _]. now apply reads_string.
  - destruct HV as (k & Hk & ->). split; [|split; [rewrite distribution_pat; apply reads_distribution|now rewrite distribution_rt]].
    assert (HK : (k = 0 \/ k = 1 \/ k = 2 \/ k = 3 \/ k = 4 \/ k = 5 \/ k = 6 \/ k = 7 \/ k = 8 \/ k = 9)%N) by lia.
    clear Hk. repeat (destruct HK as [->|HK]; [|]); [..|subst k];
    (split; [repeat split; try discriminate; try (repeat constructor); intros X; repeat destruct X as [X|X]; try discriminate; destruct X
    |split; [intros j n (ds & t & E & N & D & _); destruct ds; [congruence|]; injection E as <- E; inversion D; discriminate
    |intros j; destruct j; vm_compute; congruence]]).
  - destruct HV as [H1 H2]. split; auto. split; [rewrite zaid_pat; now apply reads_zaid|now rewrite zaid_rt].
  - destruct HV as [H1 H2]. split; auto. split; [rewrite designator_pat; now apply reads_designator|now rewrite H1].
Qed.

Lemma plain_word_nosp w : plain_word w -> nosp w.
Proof.
  intros [(_ & H & _) _]. eapply Forall_impl; [|exact H]. intros c Hc. destruct (ceqb c sp) eqn:E; auto.
  apply Ascii.eqb_eq in E. subst c. discriminate Hc.
Qed.

Lemma val_tok t v g : word_ty t = true -> val_ok t v -> tok (shift g (ty_re t)) g (write v).
Proof.
  intros HT HV. destruct (ty_re_word t HT) as (A & B & C & _). destruct (val_word (fun _ _ => Lib InpError) t v HT HV) as (D & E & _).
  apply tok_reads; auto. now apply plain_word_nosp.
Qed.


(** * One attribute *)

Lemma aval_words ext a v : word_ty (ty_of a) = true -> aval_ok a v ->
  fwords a v <> [] /\ Forall plain_word (fwords a v) /\ (forall g, field_good g a v) /\
  write v = join [sp] (fwords a v) /\ read_aty ext a (write v) = Ok v.
Proof.
  intros HT HV. destruct a as [t|t]; cbn [ty_of aval_ok fwords read_aty] in *.
  - destruct (val_word ext t v HT HV) as (A & B & C). split; [discriminate|].
    split; [now constructor|]. split; [|now split].
    intros g. split; [discriminate|]. split; [|exact I]. constructor; [|constructor]. now apply val_tok.
  - destruct v; try contradiction. destruct HV as [N HV].
    assert (HF : forall v, In v l -> plain_word (write v) /\ reads_word (ty_re t) (write v) /\ read_ty ext t (write v) = Ok v).
    { intros v Hv. rewrite Forall_forall in HV. apply val_word; auto. }
    split; [destruct l; [congruence|discriminate]|]. split; [|split; [|split]].
    + apply Forall_forall. intros w Hw. apply in_map_iff in Hw as (v & <- & Hv). now apply HF.
    + intros g. split; [destruct l; [congruence|discriminate]|]. split; [|eauto]. cbn [fwords ty_of].
      apply Forall_forall. intros w Hw. apply in_map_iff in Hw as (v & <- & Hv). rewrite Forall_forall in HV. apply val_tok; auto.
    + reflexivity.
    + destruct (ty_re_word t HT) as (_ & _ & _ & HB).
      destruct (tuple_rt_gen (pat_of t) (read_ty ext t) write l) as [E _]; auto.
      { intros v Hv. apply HF in Hv. unfold ty_re in Hv. tauto. }
      cbn [write]. unfold tuple_to_mcnp in E. rewrite E. reflexivity.
Qed.

Lemma strip_spaced ws : ws <> [] -> Forall plain_word ws -> strip (spaced ws) = join [sp] ws.
Proof.
  intros N H. destruct ws as [|w ws]; [congruence|]. inversion H as [|? ? H1 H2]; subst.
  change (spaced (w :: ws)) with (sp :: w ++ spaced ws). unfold strip. cbn [lstrip].
  change (is_space sp) with true. cbv iota. fold (strip (w ++ spaced ws)). rewrite strip_ends.
  - apply spaced_join.
  - apply H1.
  - eapply Forall_impl; [|exact H2]. intros v Hv. apply Hv.
Qed.

Lemma read_field ext a v : word_ty (ty_of a) = true -> aval_ok a v ->
  read_attr ext a (Some (ftext a v)) = Ok (Some v).
Proof.
  intros HT HV. destruct (aval_words ext a v HT HV) as (A & B & _ & C & D). unfold read_attr, ftext.
  replace (truthy (Some (spaced (fwords a v)))) with (Some (spaced (fwords a v))).
  - rewrite strip_spaced, <- C, D by auto. reflexivity.
  - destruct (fwords a v); [congruence|reflexivity].
Qed.
