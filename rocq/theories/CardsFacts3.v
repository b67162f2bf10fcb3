(** Whole cards of the regular form: matching the written text, reading it back. *)

From Coq Require Import Ascii String NArith ZArith Bool Arith List Lia.
From Verif Require Import PyStr Regex RegexParse RegexFacts RegexLang PyNum PyNumFacts Types TypesSpec TypesFacts TypesFacts2 TypesFacts3 TypesFacts4 TypesFacts5 SubFacts CardText CardTextSpec CardTextFacts CardTextFacts2 Cards CardsSpec CardsFacts CardsFacts2.
Import ListNotations.
Open Scope char_scope.
Open Scope list_scope.

(** * Groups of a match *)

(** [r] matches all of [txt]; group [g + j] then holds [gs[j]]. *)
Definition parsed (r : re) (g : nat) (gs : list (option str)) (txt : str) : Prop :=
  forall p cp, exists p' cs, m r (mkst p txt cp) Some = Some (mkst p' [] (cs ++ cp)) /\
    Forall (fun x => g <= fst x) cs /\
    forall j, j < length gs ->
      lookup (g + j) (cs ++ cp) = match nth j gs None with Some x => Some x | None => lookup (g + j) cp end.

(** Adding one group in front. *)
Lemma parsed_some tail r g gs u v txt :
  parsed tail (S g) gs txt ->
  (forall p cp x, m tail (mkst (rev v ++ p) txt ((g, u) :: cp)) Some = Some x -> m r (mkst p (v ++ txt) cp) Some = Some x) ->
  parsed r g (Some u :: gs) (v ++ txt).
Proof.
  intros HT HR p cp. destruct (HT (rev v ++ p) ((g, u) :: cp)) as (p' & cs & E & HF & HL).
  exists p', (cs ++ [(g, u)]). rewrite <- app_assoc. split; [|split].
  - apply HR. exact E.
  - apply Forall_app. split; [|repeat constructor]. eapply Forall_impl; [|exact HF]. cbn. intros; lia.
  - intros [|j] HJ; cbn [nth].
    + rewrite Nat.add_0_r, (lookup_above g cs). { cbn. now rewrite Nat.eqb_refl. }
      eapply Forall_impl; [|exact HF]. cbn. intros; lia.
    + cbn [length] in HJ. replace (g + S j) with (S g + j) by lia. cbn [app]. rewrite HL by lia.
      destruct (nth j gs None); auto. cbn. now replace (Nat.eqb g (S (g + j))) with false by (symmetry; apply Nat.eqb_neq; lia).
Qed.
Lemma parsed_skip tail r g gs txt :
  parsed tail (S g) gs txt ->
  (forall p cp x, m tail (mkst p txt cp) Some = Some x -> m r (mkst p txt cp) Some = Some x) ->
  parsed r g (None :: gs) txt.
Proof.
  intros HT HR p cp. destruct (HT p cp) as (p' & cs & E & HF & HL).
  exists p', cs. split; [|split].
  - apply HR. exact E.
  - eapply Forall_impl; [|exact HF]. cbn. intros; lia.
  - intros [|j] HJ; cbn [nth].
    + rewrite Nat.add_0_r. rewrite (lookup_above g cs); auto.
    + cbn [length] in HJ. replace (g + S j) with (S g + j) by lia. now rewrite HL by lia.
Qed.

(** ** Designators *)
Lemma parsed_desig tail g gs s txt : s <> [] -> nospace s -> bnd txt ->
  parsed tail (S g) gs txt ->
  parsed (RCat (chr_re ":") (RCat (RGrp g nonblank_re) tail)) g (Some s :: gs) ((":" :: s) ++ txt) /\
  parsed (RCat (RRep false 0 (Some 1) (RCat (chr_re ":") (RGrp g nonblank_re))) tail) g (Some s :: gs) ((":" :: s) ++ txt).
Proof.
  intros N S B HT. change nonblank_re with r_S. split; apply (parsed_some tail); auto; intros p cp x H.
  - rewrite m_catE. cbn [app]. unfold chr_re. rewrite m_setE by reflexivity. rewrite m_catE, m_grp.
    apply m_run_S; auto. rewrite addcap_app'. cbn [rev] in H. rewrite <- app_assoc in H. exact H.
  - rewrite m_catE, m_optE, m_catE. cbn [app]. unfold chr_re. rewrite m_setE by reflexivity. rewrite m_grp.
    erewrite m_run_S; eauto. rewrite addcap_app'. cbn [rev] in H. rewrite <- app_assoc in H. exact H.
Qed.
Lemma parsed_nodesig tail g gs txt : bnd txt ->
  parsed tail (S g) gs txt ->
  parsed (RCat (RRep false 0 (Some 1) (RCat (chr_re ":") (RGrp g nonblank_re))) tail) g (None :: gs) txt.
Proof.
  intros B HT. apply (parsed_skip tail); auto. intros p cp x H. rewrite m_catE, m_optE, m_catE.
  destruct B as [->|(t & ->)]; exact H.
Qed.

(** ** Suffix numbers *)
Definition no_digit (t : str) : Prop := t = [] \/ exists c t', t = c :: t' /\ is_digit c = false.
Lemma bnd_no_digit t : bnd t -> no_digit t.
Proof. intros [->|(t' & ->)]; [now left|right]. exists sp, t'. auto. Qed.
Lemma no_digit_out t : no_digit t -> t = [] \/ exists c t', t = c :: t' /\ inset cs_dig c = false.
Proof. intros [->|(c & t' & -> & H)]; [now left|right]. exists c, t'. split; auto. now rewrite inset_dig. Qed.
Lemma parsed_suffix o tail g gs ds txt : ds <> [] -> digits ds -> no_digit txt ->
  parsed tail (S g) gs txt ->
  parsed (RCat (opt_re o (RGrp g digits_re)) tail) g (Some ds :: gs) (ds ++ txt).
Proof.
  intros N D B HT. apply (parsed_some tail); auto. intros p cp x H.
  assert (E : m (RGrp g digits_re) (mkst p (ds ++ txt) cp) (fun s' => m tail s' Some) = Some x).
  { rewrite m_grp. change digits_re with (RRep false 1 None (RSet cs_dig)). apply (m_plus_run _ cs_dig _ ds [] txt); auto.
    - rewrite app_nil_r. now apply allc_dig.
    - now apply no_digit_out.
    - cbn [app]. rewrite addcap_app'. exact H.
    - intros v1 v2 E HV. destruct v1; [congruence|discriminate]. }
  rewrite m_catE. destruct o; cbn [opt_re]; [rewrite m_optE, E|]; auto.
Qed.
Lemma parsed_nosuffix tail g gs txt : no_digit txt ->
  parsed tail (S g) gs txt ->
  parsed (RCat (opt_re true (RGrp g digits_re)) tail) g (None :: gs) txt.
Proof.
  intros B HT. apply (parsed_skip tail); auto. intros p cp x H. rewrite m_catE. cbn [opt_re]. rewrite m_optE, m_grp.
  change digits_re with (RRep false 1 None (RSet cs_dig)). apply no_digit_out in B.
  destruct B as [->|(c & t & -> & HC)]; [exact H|]. cbn [m need rest]. rewrite HC. exact H.
Qed.

(** ** Keywords *)
Lemma lit_self c : inset (lit_set true c) c = true.
Proof. apply (all_ascii (fun c => inset (lit_set true c) c)). vm_compute. reflexivity. Qed.
Lemma parsed_kw tail g gs kw txt : parsed tail g gs txt -> parsed (lits_re kw tail) g gs (kw ++ txt).
Proof.
  intros H. induction kw as [|c kw IH]; auto. intros p cp. destruct (IH (c :: p) cp) as (p' & cs & E & HF & HL).
  exists p', cs. split; [|now split]. cbn [lits_re fold_right app]. rewrite m_catE, m_setE by apply lit_self. exact E.
Qed.

(** ** Stars *)
Lemma parsed_star tail gs txt : parsed tail 2 gs txt ->
  parsed (RCat (RRep false 0 (Some 1) (RGrp 1 (chr_re "*"))) tail) 1 (Some (L "*") :: gs) (L "*" ++ txt).
Proof.
  intros HT. apply (parsed_some tail); auto. intros p cp x H. rewrite m_catE, m_optE, m_grp.
  unfold chr_re. change (L "*" ++ txt) with ("*" :: txt). rewrite m_setE by reflexivity.
  pose proof (addcap_app' 1 p (L "*") txt cp ("*" :: p) cp) as X. change (L "*" ++ txt) with ("*" :: txt) in X. rewrite X.
  change (rev (L "*") ++ p) with ("*" :: p) in H.
  match goal with |- match ?e with _ => _ end = _ => replace e with (Some x) by (symmetry; exact H) end. reflexivity.
Qed.
Lemma parsed_nostar tail gs c txt : c <> "*" -> parsed tail 2 gs (c :: txt) ->
  parsed (RCat (RRep false 0 (Some 1) (RGrp 1 (chr_re "*"))) tail) 1 (None :: gs) (c :: txt).
Proof.
  intros HC HT. apply (parsed_skip tail); auto. intros p cp x H. rewrite m_catE, m_optE, m_grp.
  replace (m (chr_re "*") _ _) with (@None st); auto. symmetry. cbn -[inset]. destruct (inset _ c) eqn:E; auto.
  apply (inset_chr_eq "*") in E. congruence.
Qed.

(** ** The match object *)
Lemma parsed_match r gs txt : parsed r 1 gs txt ->
  exists o, re_match (RCat RBeg r) txt = Some o /\ mtext o = txt /\
    forall j, j < length gs -> group (1 + j) o = nth j gs None.
Proof.
  intros H. destruct (H [] []) as (p' & cs & E & HF & HL). unfold re_match, match_at. rewrite m_catE.
  cbn [m pre]. rewrite E. eexists. split; [reflexivity|]. cbn [mtext rest caps length]. rewrite Nat.sub_0_r, firstn_all.
  split; auto. intros j HJ. specialize (HL j HJ). cbn [plus group mcaps]. cbn [plus] in HL. rewrite HL.
  destruct (nth j gs None); auto.
Qed.

(** ** Fields *)
Fixpoint field_groups (l : list (aty * bool)) (vs : list (option val)) : list (option str) :=
  match l, vs with
  | (a, _) :: l', v :: vs' => option_map (ftext a) v :: field_groups l' vs'
  | _, _ => []
  end.
Lemma field_groups_nth l : forall vs j, j < length (field_groups l vs) ->
  exists a, nth_error (map fst l) j = Some a /\ nth j (field_groups l vs) None = option_map (ftext a) (nth j vs None).
Proof.
  induction l as [|[a o] l IH]; intros [|v vs] j HJ; cbn in HJ; try lia.
  destruct j as [|j]; cbn; eauto. apply IH. lia.
Qed.
Lemma parsed_fields l g vs : fields_ok l = true -> fields_good g l vs ->
  parsed (fields_re g l) g (field_groups l vs) (spaced (all_words l vs)).
Proof.
  intros HO HG p cp. destruct (m_fields l g vs p cp HO HG) as (p' & cs & E & HF & HL). exists p', cs.
  split; auto. split; auto. intros j HJ. destruct (field_groups_nth l vs j HJ) as (a & HA & ->).
  rewrite (HL j a HA). destruct (nth j vs None); reflexivity.
Qed.

(** * Well-formed values *)

Lemma fields_word l : fields_ok l = true -> Forall (fun x => word_ty (ty_of (fst x)) = true) l.
Proof.
  induction l as [|[a o] l IH]; intros H; [constructor|]. destruct l as [|b l].
  - constructor; [destruct a; exact H|constructor].
  - destruct a as [t|t]; [|discriminate]. cbn [fields_ok] in H.
    assert (HH : word_ty t && negb (has_groups t) && fields_ok (b :: l) = true) by exact H.
    apply andb_prop in HH as [HH H2]. apply andb_prop in HH as [H1 _]. constructor; auto.
Qed.
Lemma gapless_good l : forall g vs, Forall (fun x => word_ty (ty_of (fst x)) = true) l -> gapless l vs -> fields_good g l vs.
Proof.
  induction l as [|[a o] l IH]; intros g [|[v|] vs] HW HG; cbn [gapless fields_good] in *; auto; try contradiction.
  - destruct HG as [H1 H2]. inversion HW as [|? ? H3 H4]; subst. split; [|now apply IH].
    destruct (aval_words (fun _ _ => Lib InpError) a v H3 H1) as (_ & _ & H & _). apply H.
  - destruct HG as (H1 & H2 & H3). repeat split; auto. cbn. lia.
Qed.
Lemma gapless_words l : forall vs, Forall (fun x => word_ty (ty_of (fst x)) = true) l -> gapless l vs -> Forall plain_word (all_words l vs).
Proof.
  induction l as [|[a o] l IH]; intros [|[v|] vs] HW HG; cbn [gapless all_words] in *; auto; try contradiction; try constructor.
  destruct HG as [H1 H2]. inversion HW as [|? ? H3 H4]; subst. apply Forall_app. split; [|now apply IH].
  now destruct (aval_words (fun _ _ => Lib InpError) a v H3 H1) as (_ & H & _).
Qed.
Lemma gapless_length l : forall vs, gapless l vs -> length vs = length l /\ length (field_groups l vs) = length l.
Proof.
  induction l as [|[a o] l IH]; intros [|[v|] vs] HG; cbn [gapless] in HG; try contradiction; auto.
  - destruct HG as [_ HG]. apply IH in HG as [H1 H2]. cbn. lia.
  - destruct HG as (_ & _ & H). cbn. split; [lia|]. f_equal. clear - H. revert vs H. induction l as [|[a' o'] l IH]; intros [|v vs] H; try discriminate; auto.
    cbn. f_equal. apply IH. now injection H.
Qed.

(** * The head word *)

Definition head_char (c : ascii) : bool := negb (is_space c) && negb (existsb (ceqb c) (L "=$&()")).
Lemma head_chars_clean w : w <> [] -> allc head_char w -> clean w.
Proof.
  intros N H. assert (HI : forall c, In c w -> head_char c = true) by now apply Forall_forall.
  assert (HL : head_char (last w " ") = true) by (apply HI; now apply last_in).
  assert (HH : head_char (hd " " w) = true) by (apply HI; destruct w; [congruence|now left]).
  repeat split; auto.
  - apply Forall_forall. intros c HC. apply HI in HC. apply andb_prop in HC. tauto.
  - intros HC. now apply HI in HC.
  - intros HC. now apply HI in HC.
  - intros E. rewrite E in HL. discriminate.
  - intros E. rewrite E in HL. discriminate.
  - intros E. rewrite E in HH. discriminate.
Qed.
Lemma kw_head kw : forallb kw_char kw = true -> allc head_char kw.
Proof.
  intros H. apply Forall_forall. intros c HC. rewrite forallb_forall in H. apply H in HC.
  pose proof (all_ascii (fun c => implb (kw_char c) (head_char c)) eq_refl c) as Q. cbv beta in Q. now rewrite HC in Q.
Qed.
Lemma digits_head ds : digits ds -> allc head_char ds.
Proof. apply allc_impl. vm_compute. reflexivity. Qed.
Lemma desig_head s : designator_from_mcnp s = Ok s -> allc head_char s /\ s <> [].
Proof.
  intros H. apply designator_list in H as (c & cl & Hc & HA & ->). split; [|discriminate].
  assert (Q : forall c, inset cs_desig c = true -> head_char c = true).
  { intros x Hx. pose proof (all_ascii (fun c => implb (inset cs_desig c) (head_char c)) eq_refl x) as Q. cbv beta in Q. now rewrite Hx in Q. }
  constructor; auto. induction HA as [|x cl Hx HA IH]; [constructor|]. cbn. constructor; [reflexivity|]. constructor; auto.
Qed.
Lemma head_nospace s : allc head_char s -> nospace s.
Proof. apply Forall_impl. intros c H. apply andb_prop in H. tauto. Qed.

Definition owrite : option val -> option str := option_map write.
Definition starts (hs : list (option val)) : str := match hs with Some v :: _ => write v | _ => [] end.
Definition dtext (hs : list (option val)) : str := match hs with Some v :: _ => ":" :: write v | _ => [] end.

Section Head.
  Variables (kw : str) (f : form) (fs : list (option val)).
  Hypothesis (HK : forallb kw_char kw = true) (HKN : kw <> []) (HO : fields_ok (f_fields f) = true) (HG : gapless (f_fields f) fs).

  Let ws := all_words (f_fields f) fs.
  Let fg := field_groups (f_fields f) fs.
  Definition tail_d (n2 : nat) : re :=
    match f_desig f with
    | Some false => RCat (chr_re ":") (RCat (RGrp n2 nonblank_re) (fields_re (n2 + 1) (f_fields f)))
    | Some true => RCat (RRep false 0 (Some 1) (RCat (chr_re ":") (RGrp n2 nonblank_re))) (fields_re (n2 + 1) (f_fields f))
    | None => fields_re (n2 + 0) (f_fields f)
    end.
  Definition tail_s (n1 : nat) : re :=
    match f_suffix f with
    | Some o => RCat (opt_re o (RGrp n1 digits_re)) (tail_d (n1 + 1))
    | None => tail_d (n1 + 0)
    end.
  Definition body : re :=
    if f_prefix f then RCat (RRep false 0 (Some 1) (RGrp 1 (chr_re "*"))) (lits_re kw (tail_s 2)) else lits_re kw (tail_s 1).

  Lemma form_body : form_re kw f = RCat RBeg body.
  Proof. unfold form_re, body, tail_s, tail_d. destruct (f_prefix f), (f_suffix f), (f_desig f) as [[]|]; reflexivity. Qed.

  Definition p_part : list (string * aty * bool) := if f_prefix f then [("prefix"%string, One TStr, true)] else [].
  Definition s_part : list (string * aty * bool) := match f_suffix f with Some o => [("suffix"%string, One TInt, o)] | None => [] end.
  Definition d_part : list (string * aty * bool) := match f_desig f with Some o => [("designator"%string, One TDesig, o)] | None => [] end.
  Lemma head_parts_eq : head_parts f = p_part ++ s_part ++ d_part.
  Proof. reflexivity. Qed.

  Lemma parsed_d n2 hd : Forall2 head_ok d_part hd ->
    parsed (tail_d n2) n2 (map owrite hd ++ fg) (dtext hd ++ spaced ws) /\ no_digit (dtext hd ++ spaced ws) /\ allc head_char (dtext hd).
  Proof.
    intros H.
    assert (HF : forall n3, parsed (fields_re n3 (f_fields f)) n3 fg (spaced ws)).
    { intros n3. apply parsed_fields; auto. apply gapless_good; auto. now apply fields_word. }
    pose proof (bnd_spaced ws) as B.
    unfold d_part in H. unfold tail_d. destruct (f_desig f) as [o|]; cbn [present] in *.
    - inversion H as [|? v ? hd' H1 H2]; subst. inversion H2; subst. cbn [map app]. cbn in H1.
      rewrite Nat.add_1_r in *. destruct v as [v|]; cbn [owrite option_map dtext].
      + destruct H1 as (s & -> & H1). destruct (desig_head s H1) as [H3 H4]. cbn [write].
        destruct (parsed_desig (fields_re (S n2) (f_fields f)) n2 fg s (spaced ws) H4 (head_nospace s H3) B (HF _)) as [HA HB].
        split; [destruct o; auto|]. split; [right; exists ":", (s ++ spaced ws); split; reflexivity|]. constructor; auto.
      + subst o. split; [now apply parsed_nodesig|]. split; [now apply bnd_no_digit|constructor].
    - inversion H; subst. cbn [map app dtext]. rewrite Nat.add_0_r in *. split; auto. split; [now apply bnd_no_digit|constructor].
  Qed.

  Lemma parsed_s n1 hs hd : Forall2 head_ok s_part hs -> Forall2 head_ok d_part hd ->
    parsed (tail_s n1) n1 (map owrite hs ++ map owrite hd ++ fg) (starts hs ++ dtext hd ++ spaced ws) /\ allc head_char (starts hs).
  Proof.
    intros H HD. assert (HP := fun n => proj1 (parsed_d n hd HD)). destruct (parsed_d 0 hd HD) as (_ & HN & HC). unfold s_part in H. unfold tail_s.
    destruct (f_suffix f) as [o|]; cbn [present] in *.
    - inversion H as [|? v ? hd' H1 H2]; subst. inversion H2; subst. cbn [map app]. cbn in H1. rewrite Nat.add_1_r in *.
      destruct v as [v|]; cbn [owrite option_map starts].
      + destruct H1 as (k & -> & _). cbn [write integer_to_mcnp].
        assert (E : str_of_Z (Z.of_N k) = str_of_N k) by (destruct k; reflexivity). rewrite E.
        split; [|now apply digits_head, str_of_N_digits].
        apply parsed_suffix; auto using str_of_N_nonempty, str_of_N_digits.
      + subst o. split; [|constructor]. now apply parsed_nosuffix.
    - inversion H; subst. cbn [map app starts]. rewrite Nat.add_0_r in *. split; auto. constructor.
  Qed.

  Lemma parsed_p hp hs hd : Forall2 head_ok p_part hp -> Forall2 head_ok s_part hs -> Forall2 head_ok d_part hd ->
    parsed body 1 (map owrite hp ++ map owrite hs ++ map owrite hd ++ fg) (starts hp ++ kw ++ starts hs ++ dtext hd ++ spaced ws) /\
    allc head_char (starts hp).
  Proof.
    intros H HS HD. assert (HP := fun n => parsed_kw _ _ _ kw _ (proj1 (parsed_s n hs hd HS HD))).
    unfold p_part in H. unfold body. destruct (f_prefix f).
    - inversion H as [|? v ? hd' H1 H2]; subst. inversion H2; subst. cbn [map app]. cbn in H1.
      destruct v as [v|]; cbn [owrite option_map starts].
      + subst v. cbn [write]. split; [now apply parsed_star|repeat constructor].
      + split; [|constructor]. destruct kw as [|c kw']; [congruence|]. apply parsed_nostar; auto.
        intros ->. discriminate HK.
    - inversion H; subst. cbn [map app starts]. split; auto. constructor.
  Qed.
End Head.
