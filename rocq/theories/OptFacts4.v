(** Lists of options come back. *)

From Coq Require Import Ascii String NArith ZArith Bool Arith Lia List.
From Verif Require Import PyStr Regex RegexParse RegexFacts RegexLang PyNum PyNumFacts Types TypesSpec TypesFacts TypesFacts2 TypesFacts3 TypesFacts4 TypesFacts5 SubFacts CardText CardTextSpec CardTextFacts CardTextFacts2 CardTextFacts3 CardTextFacts4 CardTextFacts5 CardTextFacts6
  Cards Tables CardsSpec CardsFacts CardsFacts2 CardsFacts3 CardsFacts4 CardsFacts5 CardsFacts6 RegexDer Geometry Numbered Problem InpFile InpSpec InpSpec2 InpFacts6 InpFacts9 InpFacts10 OptSpec OptFacts OptFacts2 OptFacts3.
Import ListNotations.
Open Scope char_scope.
Open Scope list_scope.

(** ** One option *)

Lemma thrifty_shift k r : thrifty (shift k r) = thrifty r.
Proof.
  assert (HN : forall r, null (shift k r) = null r).
  { intros a. induction a as [|cs|a IHa b IHb|a IHa b IHb|lz mn mx a IH|n a IH| | |ng lit]; cbn [null shift]; auto; congruence. }
  induction r as [|cs|a IHa b IHb|a IHa b IHb|lz mn mx a IH|n a IH| | |ng lit]; cbn [thrifty shift]; auto; try congruence.
Qed.
Lemma thrifty_field g a : word_ty (ty_of a) = true -> thrifty (field_re g a) = true /\ null (field_re g a) = false.
Proof. intros H. destruct a as [t|t]; cbn [ty_of] in H; cbn [field_re thrifty null]; rewrite thrifty_shift, (thrifty_ty t H); auto. Qed.
Lemma thrifty_opt o r : thrifty r = true -> null r = false -> thrifty (opt_re o r) = true.
Proof. intros H1 H2. destruct o; cbn [opt_re thrifty]; auto. now rewrite H1, H2. Qed.
Lemma thrifty_fields l : forall g, Forall (fun x => word_ty (ty_of (fst x)) = true) l -> thrifty (ofields g l) = true.
Proof.
  induction l as [|[a o] l IH]; intros g H; [reflexivity|]. inversion H as [|? ? H1 H2]; subst. cbn [ofields thrifty]. cbn [fst] in H1.
  destruct (thrifty_field g a H1) as [T1 T2]. rewrite (thrifty_opt o _ T1 T2). now apply IH.
Qed.
Lemma thrifty_lits kw r : thrifty (lits_re kw r) = thrifty r.
Proof. induction kw as [|c kw IH]; [reflexivity|]. cbn [lits_re fold_right thrifty]. exact IH. Qed.
Lemma thrifty_form kw f : fields_ok (f_fields f) = true -> thrifty (oform kw f) = true.
Proof.
  intros H. pose proof (fun g => thrifty_fields (f_fields f) g (fields_word _ H)) as HF.
  assert (HD : thrifty (otail_d f) = true) by (unfold otail_d; destruct (f_desig f) as [[]|]; cbn [thrifty]; rewrite HF; reflexivity).
  assert (HS : thrifty (otail_s f) = true).
  { unfold otail_s. destruct (f_suffix f) as [o|]; auto. cbn [thrifty]. rewrite HD, andb_true_r. now apply thrifty_opt. }
  unfold oform. destruct (f_prefix f); cbn [thrifty]; rewrite thrifty_lits, HS; reflexivity.
Qed.

Lemma spaced_words w ws : w ++ spaced ws = join [sp] (w :: ws).
Proof. apply spaced_join. Qed.

Lemma head_plain hp kw hs hd : kw_okb kw = true -> (starts hp = [] \/ starts hp = L "*") -> clean (starts hp ++ kw ++ starts hs ++ dtext hd) ->
  plain_word (starts hp ++ kw ++ starts hs ++ dtext hd) /\ starts_ok (starts hp ++ kw ++ starts hs ++ dtext hd).
Proof.
  intros HK HP HC. unfold kw_okb in HK. apply andb_prop in HK as [H1 H2]. destruct kw as [|x kw]; [discriminate|].
  assert (HS : starts_ok (starts hp ++ (x :: kw) ++ starts hs ++ dtext hd)).
  { destruct HP as [-> | ->]; cbn [app L list_ascii_of_string]; eexists; eexists; split; try reflexivity. exact H1. }
  split; [|exact HS]. destruct HS as (y & t & E & HY). apply kw_plain; auto.
  - intros k. apply not_true_is_false. intros HX. unfold is_short in HX. apply seqb_eq in HX.
    assert (HQ : negb (starts_with (slower (x :: kw)) (short_name k)) = true) by (rewrite forallb_forall in H2; apply H2; destruct k; cbn; auto 10).
    apply negb_true_iff in HQ. destruct HP as [HP|HP]; rewrite HP in HX.
    + cbn [app] in HX. rewrite <- HX in HQ. revert HQ. change (x :: kw ++ starts hs ++ dtext hd) with ((x :: kw) ++ starts hs ++ dtext hd). unfold slower. rewrite map_app.
      generalize (map lower (x :: kw)) (map lower (starts hs ++ dtext hd)). intros a b. replace (starts_with a (a ++ b)) with true; [discriminate|]. clear. induction a as [|c a IH]; auto. cbn. rewrite <- IH, andb_true_r. symmetry. now apply ceqb_eq.
    + destruct k; discriminate.
  - exists y, t. split; auto. clear - HY. pose proof (all_ascii (fun c => implb (inset cs_start c) (negb (is_digit c))) eq_refl y) as Q. cbv beta in Q. rewrite HY in Q. now apply negb_true_iff in Q.
Qed.

Lemma first_alone k o T mo : re_match (compile true (c_pat k)) T = Some mo -> mtext mo = T -> read_cls ext3 fam k mo = Ok o ->
  match first_match [k] T with Some (c, m0) => bind (read_cls ext3 fam c m0) (fun o0 => Ok (c, o0)) | None => Lib InpError end = Ok (k, o).
Proof. intros H1 H2 H3. cbn [first_match]. rewrite H1, H2. replace (seqb T T) with true by (symmetry; now apply seqb_eq). now rewrite H3. Qed.

Section OneOption.
  Variables (n : string) (cs : list cls) (q : str).
  Hypotheses (HA : assoc n families = Some cs) (HQ : In (n, q) option_patterns).
  Let HF : In (n, cs) families := assoc_In n families cs HA.
  Let u := scan_re q.

  Lemma option_listed v : plain_option cs v -> exists (hw : str) (ws : list str),
    ws <> [] /\ Forall plain_word (hw :: ws) /\ starts_ok hw /\ write v = join [sp] (hw :: ws) /\
    takes (after follow) u (join [sp] (hw :: ws)) /\ ext n (join [sp] (hw :: ws)) = Ok v /\ forall p, is_ty fam (TExt n p) v = true.
  Proof.
    intros (k & f & hh & fs & o & HI & HN & HFM & HKD & HV & HG & HFS & HLN & HC & ->).
    assert (HVO : values_ok f (hh ++ fs)) by (exists hh, fs; auto).
    rewrite (construct_ext ext ext3 fam k f _ HFM HVO) in HC.
    destruct HFM as (HP & (ha & fa & HAT & HH & HFT & HFN) & HND & HO & HKN & HK).
    assert (HFM : has_form k f) by (split; [exact HP|split; [exists ha, fa; auto|auto]]).
    rewrite head_parts_eq in HV. apply Forall2_app_inv_l in HV as (hp & h2 & VP & HV & ->).
    apply Forall2_app_inv_l in HV as (hs & hd & VS & VD & ->).
    pose proof (fields_word _ HO) as HW. set (ws := all_words (f_fields f) fs).
    assert (HPF : forall n3, CardsFacts3.parsed (fields_re n3 (f_fields f)) n3 (field_groups (f_fields f) fs) (spaced ws)).
    { intros n3. apply parsed_fields; auto. now apply gapless_good. }
    assert (HLF : length fa = length (f_fields f)) by (rewrite <- (map_length a_ty), HFT, map_length; reflexivity).
    assert (HFN' : Forall (fun n => head_attr n = false) (map a_name fa)) by (apply Forall_map; exact HFN).
    assert (HE : headed k) by (unfold headed; auto).
    pose proof (conv_fields ext3 fam (f_fields f) fa fs HG HFT) as HCV.
    pose proof (read_fields ext3 (f_fields f) fa fs HW HG HFT) as HRD.
    assert (HLG : length (field_groups (f_fields f) fs) = length fa) by (rewrite HLF; apply (gapless_length _ _ HG)).
    assert (HJ : join [sp] (set_texts (map a_name fa) fs) = join [sp] ws) by (apply (set_texts_join (f_fields f)); auto; now rewrite map_length).
    destruct (shaped_head k f hp hs hd (field_groups (f_fields f) fs) ws HP HKN HK VP VS VD HPF) as (N & G1 & _).
    destruct (shaped_text ext3 fam k f hp hs hd fs ws ha fa HAT HH HFN HND HE VP VS VD HCV HJ o HC) as (EO & EHT & EW).
    destruct (shaped_read ext3 fam k f hp hs hd fs (field_groups (f_fields f) fs) ws HP ha fa HAT HH HKN HK VP VS VD HPF HRD HLG) as (mo & M1 & M2 & M3).
    set (hw := starts hp ++ c_kw k ++ starts hs ++ dtext hd) in *. exists hw, ws.
    assert (NW : ws <> []).
    { unfold ws. destruct fs as [|v fs]; [congruence|]. destruct (f_fields f) as [|[a b] l]; [destruct HG|]. destruct v as [v|]; [|inversion HLN as [|? ? L1 _]; destruct L1].
      cbn [gapless] in HG. destruct HG as [HG _]. inversion HW as [|? ? W1 _]; subst. cbn [all_words]. destruct (aval_words ext3 a v W1 HG) as (A & _). intros E. apply app_eq_nil in E. tauto. }
    destruct (steady_parts n cs q HA HQ) as (_ & _ & _ & HST). destruct (HST k HI HN) as [HSB HAM].
    assert (HKB : kw_okb (c_kw k) = true). { unfold steadyb in HSB. destruct (c_kw k); [congruence|]. now apply andb_prop in HSB. }
    assert (HPS : starts hp = [] \/ starts hp = L "*").
    { unfold p_part in VP. destruct (f_prefix f); inversion VP as [|? v ? hp' V1 V2]; subst; [|now left]. destruct v as [v|]; [|now left]. cbn in V1. subst v. now right. }
    destruct (head_plain hp (c_kw k) hs hd HKB HPS (head_chars_clean _ N G1)) as [PH SH]. fold hw in PH, SH.
    assert (PW : Forall plain_word ws) by now apply gapless_words.
    assert (ET : hw ++ [sp] ++ join [sp] ws = join [sp] (hw :: ws)) by (destruct ws; [congruence|reflexivity]).
    split; [exact NW|]. split; [constructor; auto|]. split; [exact SH|]. split; [|split; [|split]].
    - transitivity (obj_text k (texts o)); [|rewrite EW; exact ET]. clear EHT EW. unfold obj_val. cbn [write]. f_equal. rewrite EO. unfold texts. clear.
      generalize (map a_name (c_attrs k)) ((hp ++ hs ++ hd) ++ fs). intros l. induction l as [|x l IH]; intros [|y vs]; auto. cbn [combine map snd fst]. f_equal. apply IH.
    - apply (union_takes n cs q HA HQ k); auto.
      + rewrite <- spaced_join. apply erase_V. rewrite HP, erase_form. apply erase_V. unfold hw. rewrite <- !app_assoc.
        apply (takes_V bnd); [|now left]. now apply takes_form.
      + intros x EX TX. apply takes_erase; auto. rewrite EX, HP, erase_form. apply takes_erase; [now apply thrifty_form|].
        rewrite <- spaced_join. unfold hw. rewrite <- !app_assoc. now apply takes_form.
    - rewrite ext_step. assert (EF : fam n = cs) by (unfold fam; now rewrite HA). rewrite EF.
      rewrite (option_class_read ext3 fam n cs k _ (k, o) HF HI HAM); [reflexivity|].
      unfold family_from_mcnp. rewrite preprocess_exact by (auto; apply PH). exact (first_alone k o _ mo M1 M2 (eq_trans M3 HC)).
    - intros p. unfold obj_val. cbn [is_ty]. assert (EF : fam n = cs) by (unfold fam; now rewrite HA). rewrite EF. apply existsb_exists. exists k. split; auto. apply String.eqb_refl.
  Qed.
End OneOption.

(** ** A list of options *)

Lemma spaced_concat L : Forall (fun ws : list str => ws <> []) L -> spaced (concat L) = spaced (map (join [sp]) L).
Proof.
  induction 1 as [|ws L HN _ IH]; [reflexivity|]. cbn [concat map]. rewrite spaced_app, IH. destruct ws as [|w ws]; [congruence|].
  transitivity (sp :: (w ++ spaced ws) ++ spaced (map (join [sp]) L)); [reflexivity|]. rewrite (spaced_join w ws). reflexivity.
Qed.
Lemma join_spaced ws : ws <> [] -> sp :: join [sp] ws = spaced ws.
Proof. destruct ws as [|w ws]; [congruence|]. intros _. now rewrite <- spaced_join. Qed.
Lemma mapM_same {A B} (g : A -> result B) l r : Forall2 (fun a b => g a = Ok b) l r -> mapM g l = Ok r.
Proof. induction 1 as [|a b l r H _ IH]; auto. cbn [mapM]. rewrite H. cbn [bind]. now rewrite IH. Qed.

Section Options.
  Variables (n : string) (cs : list cls) (p : str).
  Hypotheses (HA : assoc n families = Some cs) (HP : In (n, p) option_patterns).
  Let u := scan_re p.

  Lemma options_listed os : os <> [] -> Forall (plain_option cs) os -> exists (ws : list str),
    ws <> [] /\ Forall plain_word ws /\ (exists w ws', ws = w :: ws' /\ starts_ok w) /\ join [sp] (map write os) = join [sp] ws /\
    V (RRep true 1 None (RCat (chr_re sp) u)) (spaced ws) /\
    read_attr ext (Tup (TExt n p)) (Some (spaced ws)) = Ok (Some (VTup os)) /\
    forall ex, conv ex fam (Tup (TExt n p)) (AVal (VTup os)) = Ok (Some (VTup os)).
  Proof.
    intros HN HO.
    assert (HX : exists L, Forall2 (fun v ws => exists w ws', ws = w :: ws' /\ Forall plain_word ws /\ starts_ok w /\ write v = join [sp] ws /\ takes (after follow) u (join [sp] ws) /\
      ext n (join [sp] ws) = Ok v /\ forall q, is_ty fam (TExt n q) v = true) os L).
    { clear HN. induction HO as [|v os H HO (L & IH)]; [exists []; constructor|]. destruct (option_listed n cs p HA HP v H) as (hw & ws & H1 & H2 & H3 & H4 & H5 & H6 & H7).
      exists ((hw :: ws) :: L). constructor; auto. exists hw, ws. auto 10. }
    destruct HX as (L & HL).
    assert (HNE : Forall (fun ws : list str => ws <> []) L) by (clear - HL; induction HL as [|v ws os L (w & ws' & -> & _) _ IH]; constructor; auto; discriminate).
    assert (HLN : L <> []) by (intros ->; inversion HL; congruence).
    assert (HPW : Forall plain_word (concat L)) by (clear - HL; induction HL as [|v ws os L (w & ws' & _ & H & _) _ IH]; [constructor|]; cbn; apply Forall_app; auto).
    assert (HCN : concat L <> []) by (destruct L as [|ws L]; [congruence|]; inversion HNE; subst; destruct ws; [congruence|discriminate]).
    exists (concat L). split; [exact HCN|]. split; [exact HPW|].
    assert (EW : map write os = map (join [sp]) L) by (clear - HL; induction HL as [|v ws os L (w & ws' & _ & _ & _ & H & _) _ IH]; auto; cbn [map]; rewrite H, IH; reflexivity).
    assert (EJ : join [sp] (map (join [sp]) L) = join [sp] (concat L)).
    { assert (X : sp :: join [sp] (map (join [sp]) L) = sp :: join [sp] (concat L)) by (rewrite !join_spaced; auto; [symmetry; now apply spaced_concat|destruct L; [congruence|discriminate]]). now injection X. }
    split; [|split; [|split; [|split]]].
    - destruct HL as [|v ws os L (w & ws' & -> & _ & H & _) _]; [congruence|]. exists w, (ws' ++ concat L). auto.
    - now rewrite EW.
    - rewrite spaced_concat by auto. exists (map (fun ws => sp :: join [sp] ws) L). split; [|split; [|split; [exact I|]]].
      + clear - HL. induction HL as [|v ws os L (w & ws' & _ & _ & _ & _ & H & _) _ IH]; constructor; auto. exists [sp], (join [sp] ws). split; [apply V_chr|]. split; [|reflexivity].
        exact (takes_V _ _ _ H follow_nil).
      + rewrite map_length. destruct L; [congruence|cbn; lia].
      + unfold spaced. now rewrite map_map.
    - unfold read_attr. rewrite <- join_spaced by exact HCN. rewrite truthy_cons, join_spaced by exact HCN. rewrite strip_spaced by auto. cbn [read_aty pat_of]. unfold tuple_from_mcnp.
      change (compile true (slice 2 2 p)) with u. rewrite <- EJ.
      assert (ES : map mtext (finditer u (join [sp] (map (join [sp]) L))) = map (join [sp]) L).
      { apply scan; [exact (union_blank n cs p HA HP)|]. clear - HL. induction HL as [|v ws os L (w & ws' & -> & _ & (c & t & -> & HC) & _ & H & _) _ IH]; constructor; auto.
        split; auto. exists c. destruct ws'; eexists; split; try reflexivity; auto. }
      assert (EM : mapM (fun o => read_ty ext (TExt n p) (mtext o)) (finditer u (join [sp] (map (join [sp]) L))) = Ok os).
      { apply mapM_same. assert (E2 : Forall2 (fun s v => ext n s = Ok v) (map mtext (finditer u (join [sp] (map (join [sp]) L)))) os).
        { rewrite ES. clear - HL. induction HL as [|v ws os L (w & ws' & _ & _ & _ & _ & _ & H & _) _ IH]; constructor; auto. }
        revert E2. generalize (finditer u (join [sp] (map (join [sp]) L))). clear. intros l. revert os. induction l as [|x l IH]; intros os H; inversion H; subst; constructor; auto. }
      rewrite EM. reflexivity.
    - intros ex. cbn [conv]. assert (E : mapM (conv_item ex fam (TExt n p)) (map AVal os) = Ok (map (fun v => [v]) os)).
      { clear - HL. induction HL as [|v ws os L (w & ws' & _ & _ & _ & _ & _ & _ & H) _ IH]; auto. cbn [map mapM conv_item bind]. rewrite H. cbn [bind]. rewrite IH. reflexivity. }
      cbn [items]. rewrite E. cbn [bind]. do 3 f_equal. clear. induction os; cbn; congruence.
  Qed.
End Options.
