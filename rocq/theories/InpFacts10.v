(** Surfaces, continued: the cards. *)

From Coq Require Import Ascii String NArith ZArith Bool Arith Lia List.
From Verif Require Import PyStr Regex RegexParse PyNum PyNumFacts Types TypesSpec TypesFacts TypesFacts2 TypesFacts3 TypesFacts4 TypesFacts5 SubFacts CardText CardTextSpec CardTextFacts CardTextFacts2 CardTextFacts3 CardTextFacts4 CardTextFacts5 CardTextFacts6
  Cards Tables CardsSpec CardsFacts CardsFacts2 CardsFacts3 CardsFacts4 CardsFacts5 CardsFacts6 Geometry Numbered Problem InpFile InpSpec InpSpec2 InpFacts InpFacts2 InpFacts5 RegexFacts RegexLang RegexDer InpFacts6 InpFacts7 InpFacts8 InpFacts9.
Import ListNotations.
Open Scope char_scope.
Open Scope list_scope.

(** ** Constructors do not look at the nested readers when they are given values *)

Lemma form_conv ex fm c f vs : has_form c f -> values_ok f vs -> Forall2 (fun a v => conv ex fm (a_ty a) (to_arg v) = Ok v) (c_attrs c) vs.
Proof.
  intros (HP & (ha & fa & HA & HH & HFT & HFN) & HND & HO & HKN & HK) (hh & fs & -> & HV & HG).
  rewrite HA. apply Forall2_app.
  - apply (read_heads ex fm (head_parts f)); auto using head_parts_in.
  - now apply (conv_fields ex fm (f_fields f)).
Qed.
Lemma init_ext e1 e2 fm l : forall vs o, Forall2 (fun a v => conv e1 fm (a_ty a) (to_arg v) = Ok v) l vs -> Forall2 (fun a v => conv e2 fm (a_ty a) (to_arg v) = Ok v) l vs ->
  init_attrs e1 fm (combine l (map to_arg vs)) o = init_attrs e2 fm (combine l (map to_arg vs)) o.
Proof.
  induction l as [|a l IH]; intros vs o H1 H2; [reflexivity|]. inversion H1 as [|? v ? vs' A1 B1]; subst. inversion H2 as [|? ? ? ? A2 B2]; subst.
  cbn [map combine init_attrs]. unfold set_attr. rewrite A1, A2. destruct (run_checks o v (a_checks a)); auto.
Qed.
Lemma construct_ext e1 e2 fm c f vs : has_form c f -> values_ok f vs -> construct e1 fm c (map to_arg vs) = construct e2 fm c (map to_arg vs).
Proof. intros HF HV. unfold construct. apply init_ext; now apply (form_conv _ _ c f). Qed.

(** ** Texts *)

Lemma nospace_nonspace w : nospace w -> allc (inset nonspace) w.
Proof.
  apply Forall_impl. intros c H. pose proof (all_ascii (fun c => implb (negb (is_space c)) (inset nonspace c)) eq_refl c) as Q. cbv beta in Q. now rewrite H in Q.
Qed.
Lemma Z_text z : exists c t, str_of_Z z = c :: t /\ (c = "-" \/ is_digit c = true) /\ allc head_char (c :: t).
Proof.
  assert (HN : forall n, exists c t, str_of_N n = c :: t /\ is_digit c = true).
  { intros n. pose proof (str_of_N_digits n) as HD. pose proof (str_of_N_nonempty n). destruct (str_of_N n) as [|c t]; [congruence|]. exists c, t. split; auto. now inversion HD. }
  assert (HH : allc head_char (str_of_Z z)).
  { pose proof (str_of_Z_numchars z) as H. eapply Forall_impl; [|exact H]. intros c Hc.
    pose proof (all_ascii (fun c => implb (is_numchar c) (head_char c)) eq_refl c) as Q. cbv beta in Q. now rewrite Hc in Q. }
  destruct z as [|p|p]; cbn [str_of_Z] in *.
  - exists "0", []. split; [reflexivity|]. split; auto.
  - destruct (HN (Npos p)) as (c & t & E & D). exists c, t. rewrite <- E. auto.
  - eexists "-", _. split; [reflexivity|]. split; auto.
Qed.
Lemma number_head z : exists c t, str_of_Z z = c :: t /\ In c number_first /\ c <> "+" /\ c <> "*" /\ c <> "#".
Proof.
  destruct (Z_text z) as (c & t & E & HC & _). exists c, t. split; auto.
  pose proof (all_ascii (fun c => implb (Ascii.eqb c "-" || is_digit c) (existsb (Ascii.eqb c) number_first && negb (Ascii.eqb c "+") && negb (Ascii.eqb c "*") && negb (Ascii.eqb c "#"))) eq_refl c) as Q.
  cbv beta in Q. replace (Ascii.eqb c "-" || is_digit c) with true in Q by (destruct HC as [->|HC]; [reflexivity|rewrite HC; now destruct (Ascii.eqb c "-")]).
  cbn [implb] in Q. apply andb_prop in Q as [Q Q4]. apply andb_prop in Q as [Q Q3]. apply andb_prop in Q as [Q1 Q2].
  apply existsb_exists in Q1 as (y & HI & EY). apply Ascii.eqb_eq in EY. subst y. split; auto.
  repeat split; intros ->; discriminate.
Qed.

Lemma truthy_cons c (s : str) : truthy (Some (c :: s)) = Some (c :: s).
Proof. reflexivity. Qed.
Lemma read_number ex z : int_seq (IVal z) = true -> read_attr ex (One TInt) (Some (str_of_Z z)) = Ok (Some (VInt (IVal z))) /\
  read_attr ex (One TInt) (Some (sp :: str_of_Z z)) = Ok (Some (VInt (IVal z))).
Proof.
  intros H. destruct (val_word ex TInt (VInt (IVal z)) eq_refl H) as (HP & _ & HR). cbn [write integer_to_mcnp] in HP, HR.
  split.
  - destruct (Z_text z) as (c & t & E & _). unfold read_attr. rewrite E, truthy_cons, <- E.
    assert (HS : strip (str_of_Z z) = str_of_Z z).
    { pose proof (strip_ends (str_of_Z z) [] (proj1 HP) ltac:(constructor)) as X. unfold spaced in X. cbn [map concat] in X. now rewrite app_nil_r in X. }
    rewrite HS. cbn [read_aty]. now rewrite HR.
  - pose proof (read_field ex (One TInt) (VInt (IVal z)) eq_refl H) as X. unfold ftext in X. cbn [fwords] in X. unfold spaced in X. cbn [map concat write integer_to_mcnp] in X.
    rewrite app_nil_r in X. exact X.
Qed.

(** ** The option *)

Lemma assoc_In {A} n (l : list (string * A)) x : assoc n l = Some x -> In (n, x) l.
Proof.
  induction l as [|[y v] l IH]; [discriminate|]. cbn [assoc]. destruct (String.eqb y n) eqn:E.
  - intros [= ->]. apply String.eqb_eq in E. subst. now left.
  - intros H. right. auto.
Qed.
Lemma surface_family : assoc "surface_SurfaceOption" families = Some f_surface_SurfaceOption.
Proof. reflexivity. Qed.
Lemma surface_unambiguous : forallb (fun c => negb (memb (c_name c) ambiguous_options)) f_surface_SurfaceOption = true.
Proof. vm_cast_no_check (eq_refl true). Qed.

Definition ext3 : string -> str -> result val := ext_of fam 3.
Lemma ext_step n s : ext n s = bind (family_from_mcnp ext3 fam (fam n) s) (fun x => Ok (obj_val (fst x) (snd x))).
Proof. reflexivity. Qed.

(** What is known about an option of a surface. *)
Record surface_option (k : cls) (vs : list (option val)) (ws : list str) : Prop :=
  { so_words : ws <> [] /\ Forall plain_word (c_kw k :: ws);
    so_write : write (VObj k vs) = join [sp] (c_kw k :: ws);
    so_match : V (compile true (c_pat k)) (join [sp] (c_kw k :: ws));
    so_read : forall n p, n = "surface_SurfaceOption"%string -> read_attr ext (One (TExt n p)) (Some (sp :: join [sp] (c_kw k :: ws))) = Ok (Some (VObj k vs)) }.

Lemma kw_plain w : clean w -> (forall k, is_short k w = false) -> (exists x t, w = x :: t /\ is_digit x = false) -> plain_word w.
Proof.
  intros HC HS (x & t & -> & HD). split; auto. split.
  - intros k n (ds & u & E & N & D & _). destruct ds as [|d ds]; [congruence|]. injection E as -> _. inversion D; subst. congruence.
  - intros k. rewrite HS. discriminate.
Qed.

Lemma no_head k f : forallb (fun a => negb (head_attr (a_name a))) (c_attrs k) = true -> has_form k f -> head_parts f = [].
Proof.
  intros HN (_ & (ha & fa & HA & HH & _) & _). pose proof (head_parts_in f) as HP. destruct (head_parts f) as [|p ps]; auto. exfalso.
  inversion HP as [|? ? H1 _]; subst. destruct ha as [|a ha]; [discriminate|]. injection HH as E _. rewrite HA in HN. cbn [app forallb] in HN. apply andb_prop in HN as [HN _].
  apply negb_true_iff in HN. rewrite <- E in H1. destruct H1 as [H1|[H1|[H1|[]]]]; injection H1 as H1 _; rewrite <- H1 in HN; discriminate.
Qed.
Lemma option_known k f vs o : In k f_surface_SurfaceOption -> has_form k f -> values_ok f vs -> construct ext fam k (map to_arg vs) = Ok o ->
  exists ws, surface_option k vs ws.
Proof.
  intros HI HF HV HC. pose proof surface_classes_ok as HS. rewrite forallb_forall in HS. specialize (HS _ HI). unfold surface_class_ok in HS.
  repeat (apply andb_prop in HS as [HS ?]).
  match goal with H : match c_kind k with _ => _ end = true |- _ => rename H into KK end.
  match goal with H : match c_kw k with _ => _ end = true |- _ => rename H into KD end.
  match goal with H : disj steps _ re_word = true |- _ => rename H into DW end.
  match goal with H : forallb _ [Sj; Sr; Si; Slog; Silog] = true |- _ => rename H into KS end.
  match goal with H : ends_z _ = true |- _ => rename H into KE end.
  rewrite (construct_ext ext ext3 fam k f vs HF HV) in HC.
  destruct (regular_object ext3 fam k f vs HF HV) as (hw & ws & N & G1 & G2 & G5 & G3 & (mo & M1 & M2 & M3)); [unfold headed; clear - KK; destruct (c_kind k); auto; discriminate|].
  match goal with H : forallb _ (c_attrs k) = true |- _ => specialize (G5 (no_head k f H HF)) end. subst hw. exists ws. pose proof (head_chars_clean _ N G1) as CK.
  assert (HVV : V (compile true (c_pat k)) (join [sp] (c_kw k :: ws))) by exact (match_V _ _ _ KE M1).
  assert (NW : ws <> []).
  { intros ->. refine (disj_ok _ _ _ _ DW HVV _). cbn [join]. unfold re_word. cbn [V]. exists (map (fun c => [c]) (c_kw k)).
    split; [|split; [|split; [exact I|]]].
    - apply Forall_map. eapply Forall_impl; [|exact (nospace_nonspace _ (head_nospace _ G1))]. intros c Hc. exists c. auto.
    - rewrite map_length. destruct (c_kw k); [congruence|cbn; lia].
    - clear. induction (c_kw k); cbn; congruence. }
  assert (PW : Forall plain_word (c_kw k :: ws)).
  { constructor; auto. apply kw_plain; auto.
    - rewrite forallb_forall in KS. intros j. apply negb_true_iff. apply KS. destruct j; cbn; auto 10.
    - destruct (c_kw k) as [|x t]; [discriminate|]. exists x, t. split; auto. now apply negb_true_iff. }
  destruct (G3 o HC) as (EO & _ & EW).
  assert (EV : VObj k vs = obj_val k o).
  { unfold obj_val. rewrite EO. f_equal. clear - HF HV. pose proof (form_conv ext fam k f vs HF HV) as H. revert H. generalize (c_attrs k). clear. intros l H. induction H as [|a v l vs _ _ IH]; [reflexivity|]. cbn [map combine snd]. now rewrite <- IH. }
  assert (EJ : c_kw k ++ [sp] ++ join [sp] ws = join [sp] (c_kw k :: ws)) by (destruct ws; [congruence|reflexivity]).
  split.
  - auto.
  - rewrite <- EJ, <- EW. cbn [write]. rewrite EO, texts_combine. reflexivity.
  - exact HVV.
  - intros n p ->. unfold read_attr. rewrite truthy_cons. 
    assert (ES : strip (sp :: join [sp] (c_kw k :: ws)) = join [sp] (c_kw k :: ws)).
    { pose proof (strip_spaced (c_kw k :: ws) ltac:(discriminate) PW) as X. rewrite <- X at 2. f_equal. rewrite <- spaced_join. reflexivity. }
    rewrite ES. cbn [read_aty read_ty]. rewrite ext_step. rewrite EV.
    assert (EF : fam "surface_SurfaceOption" = f_surface_SurfaceOption) by (unfold fam; now rewrite surface_family). rewrite EF.
    assert (HR : family_from_mcnp ext3 fam f_surface_SurfaceOption (join [sp] (c_kw k :: ws)) = Ok (k, o)).
    { apply (option_class_read ext3 fam "surface_SurfaceOption" f_surface_SurfaceOption k); auto.
      - apply assoc_In. exact surface_family.
      - pose proof surface_unambiguous as U. rewrite forallb_forall in U. specialize (U _ HI). intros X. apply memb_in in X. rewrite X in U. discriminate.
      - unfold family_from_mcnp. rewrite preprocess_exact by auto. cbn [first_match]. rewrite M1, M2. replace (seqb _ _) with true by (symmetry; now apply seqb_eq). now rewrite M3, HC. }
    rewrite HR. reflexivity.
Qed.

(** ** The card *)

Lemma sets_cons x l c r : surf_sets (x :: l) c = Ok r -> exists c', surf_set x c = (c', Ok tt) /\ surf_sets l c' = Ok r.
Proof.
  cbn [surf_sets]. destruct (surf_set x c) as [c' [[]| |]]; try discriminate. eauto.
Qed.
Lemma tail_checked o l v g c c' : surf_tail c (checked o l (Ok v)) g = (c', Ok tt) -> c' = g v.
Proof. unfold checked. cbn [bind]. destruct (run_checks o v l) as [[]| |]; cbn [bind surf_tail]; try discriminate. congruence. Qed.
Lemma conv_to_arg ty v : conv ext fam (One ty) (to_arg v) = Ok v.
Proof. now destruct v. Qed.
Lemma surf_made m m' z t k vs p s :
  surf_new m {| sa_option := AVal (VObj k vs); sa_number := AVal (VInt (IVal z)); sa_transform := to_arg t; sa_prefix := to_arg p |} = (m', Ok s) ->
  s = mksurf p (Some (VInt (IVal z))) t (Some (VObj k vs)) /\
  forall j, snd (surf_new j {| sa_option := AVal (VObj k vs); sa_number := AVal (VInt (IVal z)); sa_transform := to_arg t; sa_prefix := to_arg p |}) = Ok s.
Proof.
  unfold surf_new. cbn [take_number sa_number]. cbv beta iota zeta. cbn [bind snd]. intros H. apply (f_equal snd) in H. cbn [snd] in H. split; [|intros j; exact H].
  cbn [sa_transform sa_option sa_prefix] in H.
  apply sets_cons in H as (c1 & H1 & H). unfold surf_set in H1. rewrite conv_to_arg in H1. apply tail_checked in H1. subst c1.
  apply sets_cons in H as (c1 & H1 & H). unfold surf_set in H1. apply (tail_checked _ _ (Some (VInt (IVal z)))) in H1. subst c1.
  apply sets_cons in H as (c1 & H1 & H). unfold surf_set in H1. apply (tail_checked _ _ (Some (VObj k vs))) in H1. subst c1.
  apply sets_cons in H as (c1 & H1 & H). unfold surf_set in H1. rewrite conv_to_arg in H1. apply tail_checked in H1. subst c1.
  cbn [surf_sets] in H. congruence.
Qed.


Lemma obj_val_eq ex k f vs o : has_form k f -> values_ok f vs -> headed k -> construct ex fam k (map to_arg vs) = Ok o -> obj_val k o = VObj k vs.
Proof.
  intros HF HV HK HC. destruct (regular_object ex fam k f vs HF HV HK) as (hw & ws & _ & _ & _ & _ & H3 & _). destruct (H3 o HC) as (EO & _).
  unfold obj_val. rewrite EO. f_equal. pose proof (form_conv ext fam k f vs HF HV) as H. revert H. generalize (c_attrs k). clear. intros l H.
  induction H as [|a v l vs _ _ IH]; [reflexivity|]. cbn [map combine snd]. now rewrite IH.
Qed.

Lemma surface_kind k : In k f_surface_SurfaceOption -> surface_class_ok k = true /\ headed k.
Proof.
  intros HI. pose proof surface_classes_ok as HS. rewrite forallb_forall in HS. specialize (HS _ HI). split; auto. unfold surface_class_ok in HS.
  apply andb_prop in HS as [HS _]. apply andb_prop in HS as [_ HS]. unfold headed. destruct (c_kind k); auto; discriminate.
Qed.

Lemma head_prefix p : p = None \/ p = Some "+" \/ p = Some "*" -> allc head_char (prefix_text p) /\ length (prefix_text p) <= 1 /\ (forall c, p = Some c -> c = "+" \/ c = "*").
Proof.
  intros [->|[->| ->]]; cbn [prefix_text length]; (split; [repeat constructor|split; [lia|]]); intros c [= <-]; auto.
Qed.

Lemma word_more r x v : x <> [] -> allc (inset nonspace) x -> V r v -> V (RCat re_word (RCat re_blank r)) (x ++ sp :: v).
Proof.
  intros NX HX HV. cbn [V]. exists x, (sp :: v). split; [|split; [|reflexivity]].
  - unfold re_word. cbn [V]. exists (map (fun c => [c]) x). split; [|split; [|split; [exact I|]]].
    + apply Forall_map. eapply Forall_impl; [|exact HX]. intros c Hc. exists c. auto.
    + rewrite map_length. destruct x; [congruence|cbn; lia].
    + clear. induction x; cbn; congruence.
  - exists [sp], v. split; [exists sp; split; reflexivity|]. split; [exact HV|reflexivity].
Qed.
Lemma surface_apart k u : In k f_surface_SurfaceOption -> V (compile true (c_pat k)) u -> V surface_opts u /\ (forall x v, x <> [] -> u = x ++ sp :: v -> allc (inset nonspace) x -> ~ V surface_opts v).
Proof.
  intros HI HV. destruct (surface_kind k HI) as [HS _]. unfold surface_class_ok in HS. repeat (apply andb_prop in HS as [HS ?]).
  split.
  - match goal with H : offers _ _ = true |- _ => exact (offers_V _ _ _ H HV) end.
  - intros x v NX E HX HVV.
    match goal with H : disj steps _ one_more = true |- _ => refine (disj_ok _ _ _ _ H HV _) end.
    rewrite E. exact (word_more surface_opts x v NX HX HVV).
Qed.

Lemma bind2 {A B} (x : result A) (f : A -> result B) y z : x = Ok y -> f y = z -> bind x f = z.
Proof. intros -> <-. reflexivity. Qed.
Lemma surface_read t text cs o p n tr opt s : card_preprocess t = (text, cs) -> re_match re_surface text = Some o ->
  read_attr ext (One TStr) (group 1 o) = Ok p -> read_attr ext (One TInt) (group 2 o) = Ok n -> read_attr ext (One TInt) (group 3 o) = Ok tr ->
  read_attr ext (One (TExt "surface_SurfaceOption" pat_surface_SurfaceOption)) (group 4 o) = Ok opt ->
  snd (surf_new first_number {| sa_option := to_arg opt; sa_number := to_arg n; sa_transform := to_arg tr; sa_prefix := to_arg p |}) = Ok s ->
  surface_from_mcnp t = Ok (CSurface s, cs).
Proof.
  intros E EM E1 E2 E3 E4 E5. unfold surface_from_mcnp. rewrite E, EM.
  refine (bind2 _ _ _ _ E1 _). refine (bind2 _ _ _ _ E2 _). refine (bind2 _ _ _ _ E3 _). refine (bind2 _ _ _ _ E4 _). refine (bind2 _ _ _ _ E5 _). reflexivity.
Qed.

Lemma number_plain z : int_seq (IVal z) = true -> plain_word (str_of_Z z).
Proof. intros H. destruct (val_word ext TInt (VInt (IVal z)) eq_refl H) as (HP & _). exact HP. Qed.

Lemma not_letter z opt : ~ V surface_opts (str_of_Z z ++ sp :: opt).
Proof.
  intros HV. destruct (number_head z) as (c & t & E & HI & _). rewrite E in HV. cbn [app] in HV.
  destruct (ders_V [number_first] [surface_opts] (c :: t ++ sp :: opt)) as (u & HE & _); [split; [exact HI|exact I]|constructor; exact HV|].
  pose proof options_letter as HR. unfold refuses in HR. destruct (ders [number_first] [surface_opts]); [inversion HE|discriminate].
Qed.

Lemma prefix_read p : p = None \/ p = Some "+" \/ p = Some "*" ->
  read_attr ext (One TStr) (option_map (fun c => [c]) p) = Ok (option_map (fun x => VStr [x]) p) /\ or_empty (option_map (fun x => VStr [x]) p) = prefix_text p.
Proof. intros [->|[->| ->]]; split; reflexivity. Qed.

(** The first word, and the whole text. *)
Lemma surface_head p z : p = None \/ p = Some "+" \/ p = Some "*" -> length (str_of_Z z) <= 76 ->
  let w := prefix_text p ++ str_of_Z z in clean w /\ length w <= 77 /\ hd " " w <> "#" /\ hd sp (str_of_Z z) <> "+" /\ hd sp (str_of_Z z) <> "*".
Proof.
  intros HP HL w. destruct (head_prefix p HP) as (P1 & P2 & P3). destruct (Z_text z) as (zc & zt & EZ & ZH & ZA). destruct (number_head z) as (zc' & zt' & EZ' & _ & Z1 & Z2 & Z3).
  rewrite EZ in EZ'. injection EZ' as <- <-. rewrite <- EZ in ZA. rewrite EZ. cbn [hd].
  assert (NWW : w <> []) by (unfold w; rewrite EZ; destruct (prefix_text p); discriminate).
  split; [|split; [|split; [|auto]]].
  - apply head_chars_clean; auto. unfold w. apply Forall_app. auto.
  - unfold w. rewrite app_length. lia.
  - unfold w. rewrite EZ. destruct HP as [->|[->| ->]]; cbn; auto; discriminate.
Qed.
Lemma number_nonspace z : str_of_Z z <> [] /\ allc (inset nonspace) (str_of_Z z).
Proof.
  destruct (Z_text z) as (zc & zt & EZ & ZH & ZA). rewrite EZ. split; [discriminate|]. apply nospace_nonspace. now apply head_nospace.
Qed.
Lemma surface_row w t us : clean w -> length w <= 77 -> hd " " w <> "#" -> us <> [] -> Forall plain_word us -> (forall x, t = Some x -> int_seq (IVal x) = true) ->
  exists r, row_ok r /\ row_text r = postprocess (w ++ sp :: match t with Some x => str_of_Z x | None => [] end ++ sp :: join [sp] us) /\
    card_preprocess (row_text r) = (w ++ gap_text (option_map str_of_Z t) ++ sp :: join [sp] us, []).
Proof.
  intros CW LW HH NU HA HT. destruct us as [|u us]; [congruence|]. destruct t as [x|]; cbn [option_map gap_text].
  - assert (HX : plain_word (str_of_Z x)) by (apply number_plain; auto).
    assert (HB : Forall plain_word (str_of_Z x :: u :: us)) by (constructor; auto).
    destruct (post_row w (str_of_Z x :: u :: us)) as (r & R1 & R2 & _); [exact CW|apply (Nat.le_trans _ 77); [exact LW|auto]|exact HH|eapply Forall_impl; [|exact HB]; intros v Hv; apply Hv|
      intros v q n Hv; rewrite Forall_forall in HB; now apply HB|].
    exists r. split; auto. split; [rewrite R2; reflexivity|]. rewrite R2. rewrite card_text_exact; [reflexivity|exact CW|apply (Nat.le_trans _ 77); [exact LW|auto]|exact HB].
  - destruct (post_gap w [] (u :: us)) as (r & R1 & R2 & R3);
      [exact CW|exact HH|eapply Forall_impl; [|exact HA]; intros v Hv; apply Hv|discriminate|intros v q n Hv; rewrite Forall_forall in HA; now apply HA|constructor|exact LW|].
    exists r. split; auto. split; [rewrite R2; reflexivity|]. rewrite R3. cbn [app]. rewrite card_text_exact; [reflexivity|exact CW|apply (Nat.le_trans _ 77); [exact LW|auto]|exact HA].
Qed.
Lemma opt_head kw ws : Forall plain_word (kw :: ws) -> hd sp (join [sp] (kw :: ws)) <> sp.
Proof.
  intros HW. inversion HW as [|? ? (HK1 & _) _]; subst. destruct HK1 as (N1 & S1 & _). destruct kw as [|y ys]; [congruence|]. inversion S1 as [|? ? S2 _]; subst.
  destruct ws; cbn; intros ->; discriminate.
Qed.

Theorem surface_back c : plain_surface c -> comes_back read_surface_card c.
Proof.
  intros (p & z & t & k & f & vs & o & m & m' & s & HI & HF & HV & HC & HP & HZ & HL & HT & HN & ->) tx EX. cbn [fst card_text] in EX. injection EX as <-.
  destruct (surface_kind k HI) as [_ HK]. rewrite (obj_val_eq ext k f vs o HF HV HK HC) in HN. unfold int_val in HN.
  apply surf_made in HN as [ES HN]. destruct (option_known k f vs o HI HF HV HC) as (ws & [(NW & HW) EW HM HR]).
  pose proof (opt_head _ _ HW) as KW. pose proof (surface_row (prefix_text p ++ str_of_Z z) t (c_kw k :: ws)) as HROW. cbv zeta in HROW.
  set (opt := join [sp] (c_kw k :: ws)) in *. destruct (surface_apart k opt HI HM) as [HO HU]. clear HI HM HF HV HC HK.
  destruct (surface_head p z HP HL) as (CW & LW & HH & H1 & H2). destruct (number_nonspace z) as [Z1 Z2]. destruct (head_prefix p HP) as (_ & _ & P3).
  destruct (prefix_read p HP) as [RP WP].
  specialize (HROW CW LW HH ltac:(discriminate) HW HT). destruct HROW as (r & R1 & R2 & R3).
  assert (ET : surf_to_mcnp s = row_text r).
  { rewrite R2, ES. unfold surf_to_mcnp. cbn [su_prefix su_number su_transform su_option write_opt]. rewrite WP, EW. fold opt. cbn [write integer_to_mcnp]. f_equal. rewrite <- app_assoc. cbn [app].
    do 3 f_equal. destruct t as [x|]; reflexivity. }
  rewrite ET. split; [exists r; exact (conj R1 eq_refl)|].
  destruct (surface_match p (str_of_Z z) (option_map str_of_Z t) opt) as (mo & M0 & M1 & M2 & M3 & M4);
    [exact P3|exact H1|exact H2|exact Z1|exact Z2| |exact HO| |].
  { intros u EU. destruct t as [x|]; [|discriminate]. injection EU as <-. apply number_nonspace. }
  { destruct t as [x|]; cbn [option_map]; [apply not_letter|]. intros x v E AX. destruct x as [|xc xs]; [|apply (HU (xc :: xs)); [discriminate|exact E|exact AX]].
    cbn [app] in E. rewrite E in KW. elim KW. reflexivity. }
  unfold read_surface_card. cbn [first_of]. rewrite <- app_assoc in R3.
  rewrite (surface_read _ _ _ _ (option_map (fun x => VStr [x]) p) (Some (VInt (IVal z))) (option_map (fun x => VInt (IVal x)) t) (Some (VObj k vs)) s R3 M0).
  - reflexivity.
  - rewrite M1. exact RP.
  - rewrite M2. apply read_number. exact HZ.
  - rewrite M3. destruct t as [x|]; [|reflexivity]. cbn [option_map]. apply read_number. apply HT. reflexivity.
  - rewrite M4. apply HR. reflexivity.
  - exact (HN first_number).
Qed.

Theorem surface_again c t : plain_surface c -> card_text (fst c) = Ok t -> read_surface_card t = Ok c.
Proof. intros H E. exact (proj2 (surface_back c H t E)). Qed.
