(** The cards of a file: written texts are lines, comments are read as comments. *)

From Coq Require Import Ascii String NArith ZArith Bool Arith Lia List.
From Verif Require Import PyStr Regex RegexParse PyNum PyNumFacts Types TypesSpec TypesFacts TypesFacts2 TypesFacts3 TypesFacts4 TypesFacts5 SubFacts CardText CardTextSpec CardTextFacts CardTextFacts2 CardTextFacts3 CardTextFacts4 CardTextFacts5 CardTextFacts6
  Cards Tables CardsSpec CardsFacts CardsFacts2 CardsFacts3 CardsFacts4 CardsFacts5 Geometry Numbered Problem InpFile InpSpec InpSpec2 InpFacts InpFacts2 InpFacts5 RegexFacts RegexLang RegexDer InpFacts6.
Import ListNotations.
Open Scope char_scope.
Open Scope list_scope.

(** ** A wrapped text is a line *)

Lemma brk_fold : fold brk.
Proof.
  change brk with ([sp] ++ "&" :: [] ++ nl :: srepeat 6 [sp]). apply F_amp; try (repeat constructor). discriminate.
Qed.
Theorem post_row w ws : clean w -> length w <= 78 -> hd " " w <> "#" -> Forall clean ws -> (forall v k n, In v ws -> ~ counted k n v) ->
  exists r, row_ok r /\ row_text r = postprocess (join [sp] (w :: ws)) /\ r_tail r = [].
Proof.
  intros HW HL HH HC HN. destruct (itemize ws) as (l & <- & HO & HR).
  { eapply Forall_impl; [|exact HC]. intros v. apply clean_W. }
  { intros v k HI HCn. now apply (HN v k 0%N). }
  assert (HCR : Forall clean (render (map cks l))).
  { unfold cks. replace (map _ l) with (map (ck Silog) (map (ck Slog) (map (ck Si) (map (ck Sr) (map (ck Sj) l))))) by now rewrite !map_map.
    auto 10 using clean_ck. }
  assert (HCW : Forall CardTextFacts3.W (render l)) by (eapply Forall_impl; [|exact HC]; intros v; apply clean_W).
  unfold postprocess. rewrite <- spaced_join, compress_words, cws_render by auto using clean_W.
  rewrite split_words.
  2:{ apply nospace_nosp. apply HW. }
  2:{ eapply Forall_impl; [|exact HCR]. intros v Hv. apply nospace_nosp. apply Hv. }
  cbn [wrap]. replace (Nat.ltb 78 (length w + 0)) with false by (symmetry; apply Nat.ltb_ge; lia).
  rewrite <- spaced_join. destruct (wrap_layout (render (map cks l)) (0 + (length w + 1)) w) as (ly & E1 & E2 & E3). rewrite E3.
  assert (HCL : Forall (fun x => clean (snd x)) ly). { rewrite <- E1 in HCR. rewrite Forall_map in HCR. exact HCR. }
  exists (mkrow w ly []). unfold row_ok, row_text. cbn [r_first r_more r_tail]. rewrite app_nil_r. split; [|auto]. split; [exact HW|]. split; [exact HH|]. split; [|constructor].
  clear - E2 HCL. induction E2 as [|x ly HX E2 IH]; constructor; inversion HCL; subst; auto. split; auto.
  destruct x as [a b]. cbn [fst snd] in *. destruct HX as [HX|HX]; subst a; [|exact brk_fold]. apply F_blanks; [repeat constructor|discriminate].
Qed.

(** ** Regular data cards *)

Lemma no_hash : forallb (fun e => match e with Known c => ends_z (compile true (c_pat c)) && refuses [["#"]] (compile true (c_pat c)) | _ => true end) data_entries = true.
Proof. vm_cast_no_check (eq_refl true). Qed.
Lemma data_hash c w ws o : In (Known c) data_entries -> re_match (compile true (c_pat c)) (join [sp] (w :: ws)) = Some o -> hd " " w <> "#".
Proof.
  intros HI HM HH. pose proof no_hash as H. rewrite forallb_forall in H. specialize (H _ HI). cbn beta iota in H. apply andb_prop in H as [H1 H2].
  destruct w as [|x w]; [discriminate|]. cbn [hd] in HH. subst x.
  set (u := join [sp] _) in HM. assert (HB : begins [["#"]] u) by (unfold u; destruct ws; cbn; auto).
  rewrite (refuses_ok [["#"]] _ u H1 H2 HB) in HM. discriminate.
Qed.

Theorem data_card_back c f vs o : In (Known c) data_entries -> ~ In (c_name c) ambiguous_cards ->
  has_form c f -> c_kind c = KCard -> values_ok f vs ->
  construct ext fam c (map to_arg vs) = Ok o -> length (head_text (c_kw c) (texts o)) <= 78 ->
  (exists r, row_ok r /\ row_text r = card_to_mcnp c o) /\ read_data_card (card_to_mcnp c o) = Ok (CData c o, []).
Proof.
  intros HI HA HF HK HV HC HL. split.
  - destruct (regular_object ext fam c f vs HF HV) as (hw & ws & N & H1 & H2 & _ & H3 & (mo & HMO & _)); [unfold headed; auto|].
    destruct (H3 o HC) as (_ & E1 & E2). rewrite E1 in HL. pose proof (data_hash c hw ws mo HI HMO) as HH. pose proof (head_chars_clean hw N H1) as HW.
    assert (HS : strip (hw ++ [sp] ++ join [sp] ws) = join [sp] (hw :: ws)).
    { destruct ws as [|w ws].
      - cbn [app join]. apply strip_trailing; auto. now apply head_nospace.
      - change (hw ++ [sp] ++ join [sp] (w :: ws)) with (join [sp] (hw :: w :: ws)). rewrite <- !spaced_join. apply strip_ends; auto.
        eapply Forall_impl; [|exact H2]. intros v Hv. apply Hv. }
    unfold card_to_mcnp. rewrite HK, E2, HS. destruct (post_row hw ws) as (r & R1 & R2 & _); auto.
    + eapply Forall_impl; [|exact H2]. intros v Hv. apply Hv.
    + intros v k n HV'. rewrite Forall_forall in H2. now apply H2.
    + eauto.
  - apply data_class_read; auto. exact (card_round_trip ext fam c f vs o HF HK HV HC HL).
Qed.

(** ** The first word of a card *)

Fixpoint groups (r : re) : list nat :=
  match r with
  | RCat a b | RAlt a b => groups a ++ groups b
  | RRep _ _ _ a => groups a
  | RGrp n a => n :: groups a
  | _ => []
  end.
Lemma M_lookup n r : ~ In n (groups r) -> forall s s', M r s s' -> lookup n (caps s') = lookup n (caps s).
Proof.
  induction r as [|cs|a IHa b IHb|a IHa b IHb|lz mn mx a IH|k a IH| | |ng lit]; cbn [groups M]; intros HN s s' H; try (rewrite in_app_iff in HN).
  - now subst.
  - destruct H as (x & t & _ & _ & ->). reflexivity.
  - destruct H as (s1 & H1 & H2). rewrite (IHb (fun X => HN (or_intror X)) _ _ H2). exact (IHa (fun X => HN (or_introl X)) _ _ H1).
  - destruct H as [H|H]; [exact (IHa (fun X => HN (or_introl X)) _ _ H)|exact (IHb (fun X => HN (or_intror X)) _ _ H)].
  - assert (HL : forall c s s', loopR (M a) c s s' -> lookup n (caps s') = lookup n (caps s)).
    { induction 1; auto. rewrite IHloopR. auto. }
    generalize dependent (maxleft mn mx). intros x H. revert s H. induction mn as [|mn IHm]; intros s H; cbn [needR] in H; [eauto|]. destruct H as (s1 & H1 & H2). rewrite (IHm _ H2). auto.
  - destruct H as (s1 & H1 & ->). unfold addcap. cbn [caps lookup]. destruct (Nat.eqb k n) eqn:E; [apply Nat.eqb_eq in E; elim HN; now left|]. apply IH; auto. intros X. apply HN. now right.
  - now destruct H as (_ & ->).
  - now destruct H as (_ & ->).
  - now destruct H as (_ & ->).
Qed.

(** Non-blank characters, as the parser writes [\S]. *)
Definition nonspace : cset := {| cneg := false; cranges := [(0, 8); (14, 27); (33, 132); (134, 159); (161, 255)]%N |}.
Lemma nonspace_sp c : inset nonspace c = true -> c <> sp.
Proof. intros H ->. vm_compute in H. discriminate. Qed.

(** Every text of [r] begins with a blank. *)
Definition blank_first (r : re) : bool := negb (null r) && forallb (fun x => negb (existsb (fun c => inset (fst x) c && negb (Ascii.eqb c sp)) all_chars)) (lf r).
Lemma in_all_chars c : In c all_chars.
Proof. unfold all_chars. apply in_map_iff. exists (nat_of_ascii c). split; [apply ascii_nat_embedding|]. apply in_seq. pose proof (nat_ascii_bounded c). lia. Qed.
Lemma blank_first_ok r u : blank_first r = true -> V r u -> exists t, u = sp :: t.
Proof.
  unfold blank_first. intros H HV. apply andb_prop in H as [H1 H2]. destruct u as [|c u].
  - apply null_V in HV. rewrite HV in H1. discriminate.
  - apply lf_V in HV as (cs & r' & HI & HS & _). rewrite forallb_forall in H2. specialize (H2 _ HI). cbn [fst] in H2. apply negb_true_iff in H2.
    exists u. f_equal. destruct (ascii_dec c sp) as [E|E]; auto. exfalso. apply not_true_iff_false in H2. apply H2. apply existsb_exists. exists c.
    split; [apply in_all_chars|]. rewrite HS. cbn [andb]. apply negb_true_iff. destruct (Ascii.eqb c sp) eqn:X; auto. apply Ascii.eqb_eq in X. contradiction.
Qed.

(** [\A], a run of non-blanks in group [n], and something that begins with a blank. *)
Lemma run_word (n : nat) r2 s s' : 0 < n -> blank_first r2 = true -> ~ In n (groups r2) ->
  M (RCat (RGrp n (RRep false 1 None (RSet nonspace))) r2) s s' ->
  exists w t, rest s = w ++ sp :: t /\ w <> [] /\ ~ In sp w /\ lookup n (caps s') = Some w.
Proof.
  intros HP HB HG (s1 & (s0 & H1 & ->) & H2). pose proof (M_lookup n r2 HG _ _ H2) as HL. unfold addcap in HL. cbn [caps lookup] in HL. rewrite Nat.eqb_refl in HL.
  apply M_V in H2 as (u & HV & EU). cbn [rest addcap] in EU. apply (blank_first_ok r2) in HV as (t & ->); auto.
  apply M_W in H1 as (w & c & HW & E & _ & _); [|reflexivity]. apply W_rep_set in HW as (HW & HM & _).
  exists w, (t ++ rest s'). split; [rewrite E, EU; reflexivity|]. split; [intros ->; cbn in HM; lia|]. split.
  - intros HI. unfold allc in HW. rewrite Forall_forall in HW. now apply (nonspace_sp _ (HW _ HI)).
  - rewrite HL. rewrite E. now rewrite firstn_consumed.
Qed.

(** ** Comments *)

Definition re_dot : re := RSet {| cneg := true; cranges := [(10, 10)%N] |}.
Definition re_blank : re := RSet {| cneg := false; cranges := [(32, 32)%N] |}.
Definition re_remark : re :=
  RCat (RSet {| cneg := false; cranges := [(99, 99); (67, 67)]%N |}) (RRep false 0 (Some 1) (RCat re_blank (RGrp 1 (RRep false 0 None re_dot)))).
Lemma comment_re : compile true (c_pat k_Comment) = whole re_remark.
Proof. vm_compute. reflexivity. Qed.
Lemma dot_ok c : inset {| cneg := true; cranges := [(10, 10)%N] |} c = true <-> c <> nl.
Proof.
  revert c. assert (H : forallb (fun c => Bool.eqb (inset {| cneg := true; cranges := [(10, 10)%N] |} c) (negb (Ascii.eqb c nl))) all_chars = true) by (vm_compute; reflexivity).
  intros c. rewrite forallb_forall in H. specialize (H c (in_all_chars c)). apply Bool.eqb_prop in H. rewrite H, negb_true_iff, Ascii.eqb_neq. reflexivity.
Qed.
Lemma accc_run lz cs (u : str) : allc (inset cs) u -> accc (RRep lz 0 None (RSet cs)) u [].
Proof.
  intros HU. set (l := map (fun c => ([c], [])) u : list (str * capl)).
  assert (E1 : concat (map fst l) = u) by (clear; unfold l; induction u; cbn; congruence).
  assert (E2 : concat (rev (map snd l)) = []).
  { clear. unfold l. induction u as [|c u IH]; auto. cbn [map rev snd]. rewrite concat_app, IH. reflexivity. }
  pose proof (accc_rep lz 0 None (RSet cs) l) as H. rewrite E1, E2 in H. apply H; [|lia|exact I].
  unfold l. apply Forall_map. eapply Forall_impl; [|exact HU]. intros c HC. split; [|discriminate]. intros p x d. exists c, x. auto.
Qed.
Lemma comment_match t : ~ In nl t ->
  re_match (compile true (c_pat k_Comment)) ("c" :: sp :: t) = Some {| mpre := []; mtext := "c" :: sp :: t; mrest := []; mcaps := [(1, t)] |}.
Proof.
  intros HN. rewrite comment_re. apply match_whole; [reflexivity| |].
  - assert (HD : accc (RRep false 0 None re_dot) t []).
    { apply accc_run. apply Forall_forall. intros c HC. apply dot_ok. intros ->. contradiction. }
    apply (accc_cat _ _ ["c"] (sp :: t) [] [(1, t)]).
    + intros p x c. exists "c", x. auto.
    + apply accc_opt_some; [|discriminate]. apply (accc_cat re_blank _ [sp] t [] [(1, t)]).
      * intros p x c. exists sp, x. auto.
      * exact (accc_grp 1 _ t [] HD).
  - intros c' (u1 & u2 & c1 & c2 & H1 & H2 & E & ->). destruct H1 as (x & -> & _ & ->). injection E as _ E. subst u2.
    apply W_opt in H2 as [[H2 _]|H2]; [discriminate|]. destruct H2 as (v1 & v2 & d1 & d2 & (x' & -> & _ & ->) & H2 & E & ->). injection E as _ E. subst v2.
    destruct H2 as (c' & H2 & ->). apply W_rep_set in H2 as (_ & _ & _ & ->). reflexivity.
Qed.

Definition tail1 (r : re) : re := match r with RCat _ b => b | _ => REps end.
Definition memn (n : nat) (l : list nat) : bool := existsb (Nat.eqb n) l.
Lemma memn_no n l : memn n l = false -> ~ In n l.
Proof. intros H HI. apply not_true_iff_false in H. apply H. apply existsb_exists. exists n. split; auto. apply Nat.eqb_refl. Qed.
Lemma word_unique (w t u v : str) : ~ In sp w -> ~ In sp u -> w ++ sp :: t = u ++ sp :: v -> w = u /\ t = v.
Proof.
  revert u. induction w as [|c w IH]; intros [|d u] HW HU E; cbn [app] in E.
  - injection E as ->. auto.
  - injection E as <- _. elim HU. now left.
  - injection E as -> _. elim HW. now left.
  - injection E as -> E. apply IH in E as [-> ->]; auto; intros X; [apply HW|apply HU]; now right.
Qed.

(** Group 1 of a pattern that begins with [\A(\S+)] and goes on with a blank. *)
Lemma first_group r r2 s o : r = RCat RBeg (RCat (RGrp 1 (RRep false 1 None (RSet nonspace))) r2) ->
  blank_first r2 = true -> memn 1 (groups r2) = false -> re_match r s = Some o ->
  exists w t, s = w ++ sp :: t /\ w <> [] /\ ~ In sp w /\ group 1 o = Some w.
Proof.
  intros -> HB HG H. unfold re_match, match_at in H. destruct (m _ (mkst [] s []) Some) as [s'|] eqn:E; [|discriminate]. injection H as <-.
  apply m_sound in E as (s1 & HM & [= <-]). destruct HM as (s0 & [_ ->] & HM). cbn [group mcaps].
  apply (run_word 1 r2) in HM as (w & t & E & N & NS & L); auto using memn_no. exists w, t. auto.
Qed.

Definition re_like : re := compile true (c_pat k_Like).
Lemma cell_shape : re_cell = RCat RBeg (RCat (RGrp 1 (RRep false 1 None (RSet nonspace))) (tail1 (tail1 re_cell))) /\
  blank_first (tail1 (tail1 re_cell)) = true /\ memn 1 (groups (tail1 (tail1 re_cell))) = false.
Proof. split; [vm_cast_no_check (eq_refl re_cell)|]. split; [vm_cast_no_check (eq_refl true)|vm_cast_no_check (eq_refl false)]. Qed.
Lemma like_shape : re_like = RCat RBeg (RCat (RGrp 1 (RRep false 1 None (RSet nonspace))) (tail1 (tail1 re_like))) /\
  blank_first (tail1 (tail1 re_like)) = true /\ memn 1 (groups (tail1 (tail1 re_like))) = false.
Proof. split; [vm_cast_no_check (eq_refl re_like)|]. split; [vm_cast_no_check (eq_refl true)|vm_cast_no_check (eq_refl false)]. Qed.

Lemma bind_lib {A B} (x : result A) (f : A -> result B) e : x = Lib e -> exists e, bind x f = Lib e.
Proof. intros ->. eexists. reflexivity. Qed.
Definition not_number (w : str) : bool := match read_attr ext (One TInt) (Some w) with Lib _ => true | _ => false end.
Lemma not_number_lib w : not_number w = true -> exists e, read_attr ext (One TInt) (Some w) = Lib e.
Proof. unfold not_number. generalize (read_attr ext (One TInt) (Some w)). intros x H. destruct x; try discriminate. eauto. Qed.
Lemma cell_refuses s w t : fst (card_preprocess s) = w ++ sp :: t -> ~ In sp w -> not_number w = true -> exists e, cell_from_mcnp s = Lib e.
Proof.
  intros E HW HN. unfold cell_from_mcnp. destruct (card_preprocess s) as [u cs]. cbn [fst] in E. subst u.
  destruct (re_match re_cell (w ++ sp :: t)) as [o|] eqn:EM; [|eexists; reflexivity]. destruct cell_shape as (H1 & H2 & H3).
  destruct (first_group _ _ _ _ H1 H2 H3 EM) as (w' & t' & E & _ & NS & EG). apply word_unique in E as [<- _]; auto.
  apply not_number_lib in HN as (e & HN). assert (HN' : read_attr ext (One TInt) (group 1 o) = Lib e) by (rewrite EG; exact HN). exact (bind_lib _ _ e HN').
Qed.
Lemma attrs_refuse ex fm c s o : re_match (compile true (c_pat c)) (fst (card_preprocess s)) = Some o ->
  (exists a l e, c_attrs c = a :: l /\ read_attr ex (a_ty a) (group 1 o) = Lib e) -> exists e, card_from_mcnp ex fm c s = Lib e.
Proof.
  intros HM (a & l & e & EA & HR). unfold card_from_mcnp. destruct (card_preprocess s) as [u cs]. cbn [fst] in HM. rewrite HM. unfold read_cls. rewrite EA.
  cbn [read_attrs]. rewrite HR. cbn [bind]. eauto.
Qed.
Lemma like_attrs : exists l, c_attrs k_Like = {| a_name := "number"; a_ty := One TInt; a_checks := [range_test 1 99999999] |} :: l.
Proof. eexists. reflexivity. Qed.
Lemma like_refuses s w t : fst (card_preprocess s) = w ++ sp :: t -> ~ In sp w -> not_number w = true -> exists e, like_from_mcnp s = Lib e.
Proof.
  intros E HW HN. unfold like_from_mcnp.
  assert (H : exists e, card_from_mcnp ext fam k_Like s = Lib e).
  { destruct (re_match (compile true (c_pat k_Like)) (fst (card_preprocess s))) as [o|] eqn:EM.
    - apply (attrs_refuse _ _ _ _ o EM). destruct like_attrs as (l & EL). rewrite EL. eexists. exists l.
      destruct like_shape as (H1 & H2 & H3). destruct (first_group _ _ _ _ H1 H2 H3 EM) as (w' & t' & E' & _ & NS & EG). rewrite E in E'. apply word_unique in E' as [<- _]; auto.
      apply not_number_lib in HN as (e & HN). exists e. split; [reflexivity|]. cbn [a_ty]. now rewrite EG.
    - exists InpError. unfold card_from_mcnp. destruct (card_preprocess s) as [u cs]. cbn [fst] in EM. now rewrite EM. }
  destruct H as (e & H). exact (bind_lib _ _ e H).
Qed.

Definition re_sign : re :=
  RRep false 0 (Some 1) (RGrp 1 (RAlt (RSet {| cneg := false; cranges := [(43, 43)%N] |}) (RSet {| cneg := false; cranges := [(42, 42)%N] |}))).
Lemma surface_shape : re_surface = RCat RBeg (RCat re_sign (RCat (RGrp 2 (RRep false 1 None (RSet nonspace))) (tail1 (tail1 (tail1 re_surface))))) /\
  blank_first (tail1 (tail1 (tail1 re_surface))) = true /\ memn 2 (groups (tail1 (tail1 (tail1 re_surface)))) = false.
Proof. split; [vm_cast_no_check (eq_refl re_surface)|]. split; [vm_cast_no_check (eq_refl true)|vm_cast_no_check (eq_refl false)]. Qed.
Lemma second_group r r2 s o : r = RCat RBeg (RCat re_sign (RCat (RGrp 2 (RRep false 1 None (RSet nonspace))) r2)) ->
  blank_first r2 = true -> memn 2 (groups r2) = false -> re_match r s = Some o -> hd sp s <> "+" -> hd sp s <> "*" ->
  exists w t, s = w ++ sp :: t /\ w <> [] /\ ~ In sp w /\ group 2 o = Some w.
Proof.
  intros -> HB HG H HP HS. unfold re_match, match_at in H. destruct (m _ (mkst [] s []) Some) as [s'|] eqn:E; [|discriminate]. injection H as <-.
  apply m_sound in E as (s1 & HM & [= <-]). destruct HM as (s0 & [_ ->] & (s2 & H1 & HM)). cbn [group mcaps].
  apply (run_word 2 r2) in HM as (w & t & E & N & NS & L); auto using memn_no.
  apply M_W in H1 as (u & c & HW & EU & _ & _); [|reflexivity]. cbn [rest] in EU.
  apply W_opt in HW as [[-> _]|HW].
  - cbn [app] in EU. exists w, t. rewrite EU, E. auto.
  - exfalso. destruct HW as (c' & [HW|HW] & _); destruct HW as (x & -> & HX & _); cbn [app] in EU; subst s; cbn [hd] in *.
    + apply HP. revert HX. clear. intros HX. assert (Y : forallb (fun x => implb (inset {| cneg := false; cranges := [(43, 43)%N] |} x) (Ascii.eqb x "+")) all_chars = true) by (vm_compute; reflexivity).
      rewrite forallb_forall in Y. specialize (Y x (in_all_chars x)). rewrite HX in Y. now apply Ascii.eqb_eq.
    + apply HS. revert HX. clear. intros HX. assert (Y : forallb (fun x => implb (inset {| cneg := false; cranges := [(42, 42)%N] |} x) (Ascii.eqb x "*")) all_chars = true) by (vm_compute; reflexivity).
      rewrite forallb_forall in Y. specialize (Y x (in_all_chars x)). rewrite HX in Y. now apply Ascii.eqb_eq.
Qed.
Lemma read_str g : exists v, read_attr ext (One TStr) g = Ok v.
Proof. unfold read_attr. destruct (truthy g); eexists; reflexivity. Qed.
Lemma bind_ok_then {A B} (x : result A) (f : A -> result B) y : x = Ok y -> bind x f = f y.
Proof. intros ->. reflexivity. Qed.
Lemma surface_refuses s w t : fst (card_preprocess s) = w ++ sp :: t -> ~ In sp w -> w <> [] -> hd sp w <> "+" -> hd sp w <> "*" -> not_number w = true ->
  exists e, surface_from_mcnp s = Lib e.
Proof.
  intros E HW NW HP HS HN. unfold surface_from_mcnp. destruct (card_preprocess s) as [u cs]. cbn [fst] in E. subst u.
  destruct (re_match re_surface (w ++ sp :: t)) as [o|] eqn:EM; [|eexists; reflexivity]. destruct surface_shape as (H1 & H2 & H3).
  destruct (second_group _ _ _ _ H1 H2 H3 EM) as (w' & t' & E & _ & NS & EG); [destruct w; auto..|]. apply word_unique in E as [<- _]; auto.
  apply not_number_lib in HN as (e & HN). assert (HN' : read_attr ext (One TInt) (group 2 o) = Lib e) by (rewrite EG; exact HN).
  destruct (read_str (group 1 o)) as (v & HV). rewrite (bind_ok_then _ _ _ HV). exact (bind_lib _ _ e HN').
Qed.

(** A comment of these words, in the three blocks. *)
Definition remark_of (ws : list str) : card := CComment (Some (join [sp] ws)).
Lemma comment_text ws : ws <> [] -> Forall plain_word ws -> comment_to_mcnp (Some (join [sp] ws)) = postprocess (join [sp] (["c"] :: ws)).
Proof.
  intros HN HP. unfold comment_to_mcnp. destruct ws as [|w ws]; [congruence|]. pose proof (Forall_inv HP) as [HC _].
  assert (X : exists c t, join [sp] (w :: ws) = c :: t). { destruct w as [|c w]; [elim (proj1 HC); reflexivity|]. destruct ws; cbn; eauto. }
  destruct X as (c & t & X). rewrite X. cbn [truthy]. rewrite <- X. reflexivity.
Qed.
Lemma c_clean : clean ["c"].
Proof. repeat split; try discriminate; try (repeat constructor); intros [X|[]]; discriminate. Qed.
Lemma words_nonl ws : Forall plain_word ws -> ~ In nl (join [sp] ws).
Proof.
  intros H. apply join_nonl. eapply Forall_impl; [|exact H]. intros w Hw HI. destruct Hw as [[_ [HS _]] _]. unfold nospace, allc in HS. rewrite Forall_forall in HS. specialize (HS _ HI). discriminate.
Qed.
Lemma words_strip ws : ws <> [] -> Forall plain_word ws -> strip (join [sp] ws) = join [sp] ws.
Proof.
  intros HN H. destruct ws as [|w ws]; [congruence|]. rewrite <- spaced_join. apply strip_ends.
  - apply (Forall_inv H).
  - apply Forall_inv_tail in H. eapply Forall_impl; [|exact H]. intros v Hv. apply Hv.
Qed.
Lemma text_attrs : c_attrs k_Comment = [{| a_name := "text"; a_ty := One TStr; a_checks := [] |}].
Proof. reflexivity. Qed.
Lemma comment_read s t : card_preprocess s = ("c" :: sp :: t, []) -> ~ In nl t -> t <> [] -> strip t = t -> comment_from_mcnp s = Ok (CComment (Some t), []).
Proof.
  intros E HN NT HS. unfold comment_from_mcnp.
  assert (H : card_from_mcnp ext fam k_Comment s = Ok ([("text"%string, Some (VStr t))], [])).
  { unfold card_from_mcnp. rewrite E, comment_match by auto. unfold read_cls. rewrite text_attrs. cbn [read_attrs a_ty]. unfold read_attr, group. cbn [mcaps lookup Nat.eqb].
    destruct t as [|c t]; [congruence|]. cbn [truthy]. rewrite HS. reflexivity. }
  rewrite (bind_ok_then _ _ _ H). reflexivity.
Qed.
Lemma comment_reads ws t : ws <> [] -> Forall plain_word ws -> card_preprocess t = (["c"] ++ sp :: join [sp] ws, []) ->
  read_cell_card t = Ok (remark_of ws, []) /\ read_surface_card t = Ok (remark_of ws, []) /\ read_data_card t = Ok (remark_of ws, []).
Proof.
  intros HN HP E.
  assert (HC : comment_from_mcnp t = Ok (remark_of ws, [])).
  { apply comment_read; auto using words_nonl, words_strip. destruct ws as [|w ws]; [congruence|]. destruct (proj1 (Forall_inv HP)) as [NE _]. destruct w; [congruence|]. destruct ws; discriminate. }
  assert (EF : fst (card_preprocess t) = ["c"] ++ sp :: join [sp] ws) by now rewrite E.
  assert (NS : ~ In sp ["c"]) by (intros [X|[]]; discriminate).
  assert (NN : not_number ["c"] = true) by (vm_compute; reflexivity).
  destruct (cell_refuses t ["c"] (join [sp] ws) EF NS NN) as (e1 & E1). destruct (like_refuses t ["c"] (join [sp] ws) EF NS NN) as (e2 & E2).
  assert (N1 : hd sp ["c"] <> "+") by discriminate. assert (N2 : hd sp ["c"] <> "*") by discriminate. assert (N3 : ["c"] <> []) by discriminate.
  destruct (surface_refuses t ["c"] (join [sp] ws) EF NS N3 N1 N2 NN) as (e3 & E3).
  split; [|split].
  - unfold read_cell_card. cbn [first_of]. now rewrite E1, E2, HC.
  - unfold read_surface_card. cbn [first_of]. now rewrite E3, HC.
  - now apply data_comment_read.
Qed.
Theorem comment_back ws t : ws <> [] -> Forall plain_word ws -> t = comment_to_mcnp (Some (join [sp] ws)) ->
  (exists r, row_ok r /\ row_text r = t) /\
  read_cell_card t = Ok (remark_of ws, []) /\ read_surface_card t = Ok (remark_of ws, []) /\ read_data_card t = Ok (remark_of ws, []).
Proof.
  intros HN HP ->. rewrite comment_text by auto. split.
  { destruct (post_row ["c"] ws) as (r & R1 & R2 & _); eauto using c_clean; try discriminate.
    - cbn. lia.
    - eapply Forall_impl; [|exact HP]. intros v Hv. apply Hv.
    - intros v k n HI. rewrite Forall_forall in HP. now apply HP. }
  apply comment_reads; auto. rewrite card_text_exact; auto using c_clean; [|cbn; lia]. destruct ws; [congruence|reflexivity].
Qed.
(** However it is laid out. *)
Lemma comment_row r ws : row_ok r -> row_words r = ["c"] :: ws -> ws <> [] -> Forall plain_word ws ->
  read_cell_card (row_text r) = Ok (remark_of ws, []) /\ read_surface_card (row_text r) = Ok (remark_of ws, []) /\ read_data_card (row_text r) = Ok (remark_of ws, []).
Proof.
  intros HR HW HN HP. apply comment_reads; auto. rewrite <- (preprocess_row r (join [sp] (row_words r))) by (auto; now left).
  rewrite HW. rewrite card_nocomment.
  - rewrite preprocess_exact by auto using c_clean. destruct ws; [congruence|reflexivity].
  - intros HI. rewrite <- spaced_join in HI. apply in_app_or in HI as [[X|[]]|HI]; [discriminate|]. clear HN HW. induction ws as [|w ws IH]; [destruct HI|].
    cbn [spaced] in HI. destruct HI as [X|HI]; [discriminate|]. apply in_app_or in HI as [HI|HI].
    + destruct (Forall_inv HP) as [HC _]. destruct HC as (_ & _ & _ & HD & _). contradiction.
    + apply IH; auto. now apply Forall_inv_tail in HP.
Qed.

Lemma mapM_nth {A B} (f : A -> result B) l ys k x y : mapM f l = Ok ys -> nth_error l k = Some x -> f x = Ok y -> nth_error ys k = Some y.
Proof.
  revert ys k. induction l as [|a l IH]; intros ys k H HN HF; [destruct k; discriminate|]. cbn [mapM] in H.
  destruct (f a) as [b|e|e] eqn:E; cbn [bind] in H; try discriminate. destruct (mapM f l) as [bs|e|e]; cbn [bind] in H; try discriminate. injection H as <-.
  destruct k as [|k]; cbn [nth_error] in *; [congruence|]. apply (IH bs k); auto.
Qed.
Lemma bind_inv {A B} (x : result A) (f : A -> result B) y : bind x f = Ok y -> exists a, x = Ok a /\ f a = Ok y.
Proof. destruct x; intros H; try discriminate. eauto. Qed.
Lemma inp_new_cases t c s d m o : inp_new t c s d m o =
  if (Nat.ltb (length t) 80 && existsb (fun c : card * list str => negb (no_imp (fst c))) c)%bool then Ok (mkinp t c s d m o) else Lib InpError.
Proof.
  unfold inp_new. destruct (Nat.ltb (length t) 80); [|reflexivity]. cbn [negb andb].
  assert (E : forall l : list (card * list str), existsb (fun c => negb (no_imp (fst c))) l = negb (forallb (fun c => no_imp (fst c)) l)).
  { induction l as [|x l IH]; [reflexivity|]. cbn [forallb existsb]. rewrite IH. destruct (no_imp (fst x)); reflexivity. }
  rewrite E. destruct (forallb (fun c : card * list str => no_imp (fst c)) c); reflexivity.
Qed.
Lemma inp_new_ok t c s d m o x : inp_new t c s d m o = Ok x -> i_cells x = c /\ i_surfaces x = s /\ i_data x = d.
Proof. rewrite inp_new_cases. destruct (_ && _)%bool; [|discriminate]. intros [= <-]. auto. Qed.
(** Generic in the readers of the cards, so that theirs need not be looked into. *)
Lemma rows_kept rc rs rd message title cells surfaces data other x :
  through_layer rc -> through_layer rs -> through_layer rd -> file_ok message title cells surfaces data other ->
  inp_from_mcnp rc rs rd (file_text (option_map row_text message) (row_text title) (map row_text cells) (map row_text surfaces) (map row_text data) (option_map rows_text other)) = Ok x ->
  mapM rc (map row_text cells) = Ok (i_cells x) /\ mapM rs (map row_text surfaces) = Ok (i_surfaces x) /\ mapM rd (map row_text data) = Ok (i_data x).
Proof.
  intros LC LS LD HF HR. destruct (file_read rc rs rd _ _ _ _ _ _ LC LS LD HF) as (m' & t' & o' & E & _).
  rewrite E in HR. apply bind_inv in HR as (cs & HC & HR). apply bind_inv in HR as (ss & HS & HR). apply bind_inv in HR as (ds & HD & HR).
  apply inp_new_ok in HR as (-> & -> & ->). auto.
Qed.
Lemma rows_accepted rc rs rd message title cells surfaces data other cs ss ds :
  through_layer rc -> through_layer rs -> through_layer rd -> file_ok message title cells surfaces data other ->
  mapM rc (map row_text cells) = Ok cs -> mapM rs (map row_text surfaces) = Ok ss -> mapM rd (map row_text data) = Ok ds ->
  (exists t, shows title t /\ exists x, (inp_from_mcnp rc rs rd (file_text (option_map row_text message) (row_text title) (map row_text cells) (map row_text surfaces) (map row_text data) (option_map rows_text other))
     = if (Nat.ltb (length t) 80 && existsb (fun c => negb (no_imp (fst c))) cs)%bool then Ok x else Lib InpError) /\
     i_title x = t /\ i_cells x = cs /\ i_surfaces x = ss /\ i_data x = ds).
Proof.
  intros LC LS LD HF HC HS HD. destruct (file_read rc rs rd _ _ _ _ _ _ LC LS LD HF) as (m' & t' & o' & E & _ & ET & _).
  exists t'. split; [exact ET|]. rewrite E, HC. cbn [bind]. rewrite HS. cbn [bind]. rewrite HD. cbn [bind].
  exists (mkinp t' cs ss ds (option_map (fun m => m ++ [nl]) m') (option_map (join [nl]) o')). split; [|auto]. apply inp_new_cases.
Qed.
Lemma comments_nth (f : str -> result remarked) (rows : list row) l k r ws : mapM f (map row_text rows) = Ok l -> nth_error rows k = Some r ->
  f (row_text r) = Ok (remark_of ws, []) -> nth_error l k = Some (remark_of ws, []).
Proof. intros H HK HF. apply (mapM_nth f _ _ k (row_text r) _ H); [now apply map_nth_error|exact HF]. Qed.

Lemma read_inp_is s : read_inp s = inp_from_mcnp read_cell_card read_surface_card read_data_card s.
Proof. cbv delta [read_inp]. cbv beta. exact (eq_refl (inp_from_mcnp read_cell_card read_surface_card read_data_card s)). Qed.
Theorem comments_kept message title cells surfaces data other x k r ws :
  file_ok message title cells surfaces data other ->
  read_inp (file_text (option_map row_text message) (row_text title) (map row_text cells) (map row_text surfaces) (map row_text data) (option_map rows_text other)) = Ok x ->
  row_words r = ["c"] :: ws -> ws <> [] -> Forall plain_word ws ->
  (nth_error cells k = Some r -> nth_error (i_cells x) k = Some (remark_of ws, [])) /\
  (nth_error surfaces k = Some r -> nth_error (i_surfaces x) k = Some (remark_of ws, [])) /\
  (nth_error data k = Some r -> nth_error (i_data x) k = Some (remark_of ws, [])).
Proof.
  intros HF HR HW HN HP. rewrite read_inp_is in HR.
  destruct (rows_kept read_cell_card read_surface_card read_data_card _ _ _ _ _ _ x cell_card_layer surface_card_layer data_card_layer HF HR) as (HC & HS & HD).
  destruct HF as (_ & FC & _ & FS & _ & FD & _). rewrite Forall_forall in FC, FS, FD.
  split; [|split]; intros HK; pose proof (nth_error_In _ _ HK) as HI.
  - exact (comments_nth read_cell_card cells _ k r ws HC HK (proj1 (comment_row r ws (FC r HI) HW HN HP))).
  - exact (comments_nth read_surface_card surfaces _ k r ws HS HK (proj1 (proj2 (comment_row r ws (FS r HI) HW HN HP)))).
  - exact (comments_nth read_data_card data _ k r ws HD HK (proj2 (proj2 (comment_row r ws (FD r HI) HW HN HP)))).
Qed.
(** The title and the importances. *)
Theorem file_accepted message title cells surfaces data other cs ss ds :
  file_ok message title cells surfaces data other ->
  mapM read_cell_card (map row_text cells) = Ok cs -> mapM read_surface_card (map row_text surfaces) = Ok ss -> mapM read_data_card (map row_text data) = Ok ds ->
  (exists t, shows title t /\ exists x, (read_inp (file_text (option_map row_text message) (row_text title) (map row_text cells) (map row_text surfaces) (map row_text data) (option_map rows_text other))
     = if (Nat.ltb (length t) 80 && existsb (fun c => negb (no_imp (fst c))) cs)%bool then Ok x else Lib InpError) /\
     i_title x = t /\ i_cells x = cs /\ i_surfaces x = ss /\ i_data x = ds).
Proof.
  intros HF HC HS HD. rewrite read_inp_is.
  exact (rows_accepted read_cell_card read_surface_card read_data_card _ _ _ _ _ _ cs ss ds cell_card_layer surface_card_layer data_card_layer HF HC HS HD).
Qed.

Lemma comment_written ws t : card_text (CComment (Some (join [sp] ws))) = Ok t -> t = comment_to_mcnp (Some (join [sp] ws)).
Proof. cbn [card_text]. generalize (comment_to_mcnp (Some (join [sp] ws))). intros u H. now injection H. Qed.
Lemma data_written c o t : card_text (CData c o) = Ok t -> t = card_to_mcnp c o.
Proof. cbn [card_text]. generalize (card_to_mcnp c o). intros u H. now injection H. Qed.
Theorem comment_card_back ws t : ws <> [] -> Forall plain_word ws -> card_text (CComment (Some (join [sp] ws))) = Ok t ->
  read_cell_card t = Ok (CComment (Some (join [sp] ws)), []) /\ read_surface_card t = Ok (CComment (Some (join [sp] ws)), []) /\
  read_data_card t = Ok (CComment (Some (join [sp] ws)), []).
Proof. intros HN HP E. exact (proj2 (comment_back ws t HN HP (comment_written ws t E))). Qed.


Lemma remark_comes_back c : plain_remark c -> comes_back read_cell_card c /\ comes_back read_surface_card c /\ comes_back read_data_card c.
Proof.
  intros (ws & HN & HP & ->). cbn [fst].
  assert (H : forall t, card_text (fst (CComment (Some (join [sp] ws)), @nil str)) = Ok t -> (exists r, row_ok r /\ row_text r = t) /\
    read_cell_card t = Ok (remark_of ws, []) /\ read_surface_card t = Ok (remark_of ws, []) /\ read_data_card t = Ok (remark_of ws, [])).
  { intros t E. exact (comment_back ws t HN HP (comment_written ws t E)). }
  split; [|split]; intros t E; destruct (H t E) as (A & B & C0 & D0); (split; [exact A|]); [exact B|exact C0|exact D0].
Qed.
Lemma data_comes_back c : plain_data c -> comes_back read_data_card c.
Proof.
  intros (k & f & vs & o & H1 & H2 & H3 & H4 & H5 & H6 & H7 & ->) t E. rewrite (data_written k o t E).
  exact (data_card_back k f vs o H1 H2 H3 H4 H5 H6 H7).
Qed.

(** A problem written and read again. *)
Theorem problem_back x s :
  i_message x = None ->
  (exists r, row_ok r /\ settled r /\ row_text r = i_title x) -> announces (i_title x) = false -> length (i_title x) < 80 ->
  match i_other x with Some o => exists l, other_ok l /\ Forall (fun y => match y with Some r => settled r | None => True end) l /\ rows_text l = o | None => True end ->
  i_cells x <> [] -> i_surfaces x <> [] -> i_data x <> [] -> existsb (fun c => negb (no_imp (fst c))) (i_cells x) = true ->
  Forall (fun c => plain_remark c \/ comes_back read_cell_card c) (i_cells x) ->
  Forall (fun c => plain_remark c \/ comes_back read_surface_card c) (i_surfaces x) ->
  Forall (fun c => plain_remark c \/ comes_back read_data_card c) (i_data x) ->
  inp_to_mcnp x = Ok s -> read_inp s = Ok x.
Proof.
  intros HM HT HA HL HOT NC NS ND HI FC FS FD HW.
  assert (BC : forall c, In c (i_cells x) -> comes_back read_cell_card c).
  { intros c HC. rewrite Forall_forall in FC. destruct (FC c HC) as [H|H]; [exact (proj1 (remark_comes_back c H))|exact H]. }
  assert (BS : forall c, In c (i_surfaces x) -> comes_back read_surface_card c).
  { intros c HC. rewrite Forall_forall in FS. destruct (FS c HC) as [H|H]; [exact (proj1 (proj2 (remark_comes_back c H)))|exact H]. }
  assert (BD : forall c, In c (i_data x) -> comes_back read_data_card c).
  { intros c HC. rewrite Forall_forall in FD. destruct (FD c HC) as [H|H]; [exact (proj2 (proj2 (remark_comes_back c H)))|exact H]. }
  refine (file_back x s HM HT HA HL HOT NC NS ND HI HW _ _ _ _).
  - intros c t HC E. apply in_app_or in HC as [HC|HC]; [exact (proj1 (BC c HC t E))|]. apply in_app_or in HC as [HC|HC]; [exact (proj1 (BS c HC t E))|exact (proj1 (BD c HC t E))].
  - intros c t HC E. exact (proj2 (BC c HC t E)).
  - intros c t HC E. exact (proj2 (BS c HC t E)).
  - intros c t HC E. exact (proj2 (BD c HC t E)).
Qed.

(** A way to see that cards come back. *)
Lemma come_back rd rows : forall cells, mapM (fun c : remarked => card_text (fst c)) cells = Ok (map row_text rows) -> Forall row_ok rows -> mapM rd (map row_text rows) = Ok cells ->
  Forall (comes_back rd) cells.
Proof.
  induction rows as [|r rows IH]; intros cells EC FR ER; cbn [map mapM] in ER.
  - injection ER as <-. constructor.
  - apply bind_inv in ER as (c & E1 & ER). apply bind_inv in ER as (cs & E2 & ER). injection ER as <-. cbn [map mapM] in EC.
    apply bind_inv in EC as (t & F1 & EC). apply bind_inv in EC as (ts & F2 & EC).
    assert (t = row_text r /\ ts = map row_text rows) as [-> ->] by (injection EC; auto).
    constructor; [|apply IH; auto; now inversion FR]. intros u EU. rewrite EU in F1. injection F1 as ->. split; [|exact E1]. exists r. split; [now inversion FR|reflexivity].
Qed.
