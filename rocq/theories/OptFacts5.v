(** Cards that end with a list of options come back. *)

From Coq Require Import Ascii String NArith ZArith Bool Arith Lia List.
From Verif Require Import PyStr Regex RegexParse RegexFacts RegexLang PyNum PyNumFacts Types TypesSpec TypesFacts TypesFacts2 TypesFacts3 TypesFacts4 TypesFacts5 SubFacts CardText CardTextSpec CardTextFacts CardTextFacts2 CardTextFacts3 CardTextFacts4 CardTextFacts5 CardTextFacts6
  Cards Tables CardsSpec CardsFacts CardsFacts2 CardsFacts3 CardsFacts4 CardsFacts5 CardsFacts6 RegexDer Geometry Numbered Problem InpFile InpSpec InpSpec2 InpFacts6 InpFacts9 InpFacts10 OptSpec OptFacts OptFacts2 OptFacts3 OptFacts4.
Import ListNotations.
Open Scope char_scope.
Open Scope list_scope.

(** ** The last field *)

Lemma V_shift k r : forall u, V (shift k r) u <-> V r u.
Proof. intros u. rewrite <- (erase_V (shift k r)), <- (erase_V r). now rewrite erase_shift. Qed.
Lemma parsed_last g t o T : plain (ty_re t) = true -> thrifty (ty_re t) = true -> groups_above 0 (ty_re t) = true ->
  V (RRep true 1 None (RCat (chr_re sp) (ty_re t))) T -> CardsFacts3.parsed (fields_re g [(Tup t, o)]) g [Some T] T.
Proof.
  intros HP HT HG HV p cp. cbn [fields_re field_re]. set (r := RRep true 1 None (RCat (chr_re sp) (shift g (ty_re t)))).
  assert (HVR : V r T). { apply erase_V. unfold r. cbn [erase]. rewrite erase_shift. apply (erase_V (RRep true 1 None (RCat (chr_re sp) (ty_re t)))). exact HV. }
  assert (HTR : thrifty r = true) by (unfold r; cbn [thrifty null chr_re]; now rewrite thrifty_shift, HT).
  assert (HPR : plain r = true) by (unfold r; cbn [plain chr_re]; now rewrite plain_shift, HP).
  assert (HGR : groups_above g r = true) by (unfold r; cbn [groups_above chr_re]; now rewrite groups_shift).
  destruct (V_accc r HTR T HVR) as (c0 & HC0). specialize (HC0 p [] cp). rewrite app_nil_r in HC0.
  set (s0 := mkst p T cp) in *. set (k := fun s' => m REnd (addcap g s0 s') (@Some st)).
  assert (HM : m r s0 k <> None). { apply (m_complete _ _ _ _ _ HC0). unfold k. cbn. discriminate. }
  assert (HX : exists c, m r s0 k = Some (mkst (rev T ++ p) [] ((g, T) :: c ++ cp)) /\ above g c).
  { destruct (m r s0 k) as [x|] eqn:E; [|congruence]. apply m_sound in E as (s1 & M1 & K1). apply (M_W r HPR) in M1 as (u & c & HW & ER & EP & EC). exists c.
    unfold k in K1. cbn [m addcap rest] in K1. destruct (rest s1) as [|y l] eqn:E1; [|discriminate]. rewrite app_nil_r in ER. unfold s0 in ER, EP, EC. cbn [rest pre caps] in ER, EP, EC. subst u.
    split; [|exact (W_above g r HGR _ _ HW)]. unfold addcap in K1. rewrite E1, EP, EC in K1. cbn [s0 rest length] in K1. unfold s0 in K1. cbn [rest] in K1. rewrite Nat.sub_0_r, firstn_all in K1. rewrite <- K1. reflexivity. }
  destruct HX as (c & EM & HA). exists (rev T ++ p), ((g, T) :: c). split; [|split].
  - cbn [app]. rewrite m_catE.
    assert (EG : m (RGrp g r) s0 (fun s' => m REnd s' (@Some st)) = Some (mkst (rev T ++ p) [] ((g, T) :: c ++ cp))) by (rewrite m_grp; exact EM).
    destruct o; cbn [opt_re]; [rewrite m_optE, EG; reflexivity|exact EG].
  - constructor; [cbn; lia|]. eapply Forall_impl; [|exact HA]. cbn. intros; lia.
  - intros j HJ. cbn in HJ. assert (j = 0) by lia. subst j. rewrite Nat.add_0_r. cbn. now rewrite Nat.eqb_refl.
Qed.
Lemma parsed_none g t : CardsFacts3.parsed (fields_re g [(Tup t, true)]) g [None] [].
Proof.
  intros p cp. exists p, []. cbn [fields_re field_re opt_re app]. split; [|split; [constructor|]].
  - rewrite m_catE, m_optE, m_grp. cbn [m need]. rewrite m_sp_end. reflexivity.
  - intros j HJ. cbn in HJ. assert (j = 0) by lia. subst j. cbn. reflexivity.
Qed.

(** ** Single fields before it *)

Definition single (x : aty * bool) : Prop := match x with (One t, false) => word_ty t = true /\ has_groups t = false | _ => False end.
Lemma nocap_ty t : word_ty t = true -> has_groups t = false -> nocap (ty_re t) = true.
Proof. destruct t; intros H1 H2; try discriminate; vm_compute; reflexivity. Qed.
Lemma parsed_singles l r gs txt : bnd txt -> (forall g, CardsFacts3.parsed (fields_re g r) g gs txt) -> forall fs g, Forall single l -> gapless l fs ->
  CardsFacts3.parsed (fields_re g (l ++ r)) g (field_groups l fs ++ gs) (spaced (all_words l fs) ++ txt).
Proof.
  intros HB HR. induction l as [|[a o] l IH]; intros fs g HS HG.
  - destruct fs; [|destruct HG]. apply HR.
  - inversion HS as [|? ? S1 S2]; subst. cbn [single] in S1. destruct a as [t|t]; [|destruct S1]. destruct o; [destruct S1|]. destruct S1 as [W1 N1].
    destruct fs as [|[v|] fs]; cbn [gapless] in HG; [destruct HG| |destruct HG as [HG _]; inversion HG; discriminate]. destruct HG as [HV HG]. cbn [aval_ok] in HV.
    cbn [app fields_re field_groups all_words option_map opt_re]. change (ftext (One t) v) with (spaced [write v]). rewrite spaced_app, <- app_assoc.
    assert (ET : spaced [write v] = sp :: write v) by (unfold spaced; cbn; now rewrite app_nil_r). cbn [fwords]. rewrite ET.
    apply (parsed_some (fields_re (S g) (l ++ r))); [now apply IH|]. intros p cp x H. rewrite m_catE.
    destruct (m_one _ g t (write v) (spaced (all_words l fs) ++ txt) p cp (fun s' => m (fields_re (S g) (l ++ r)) s' (@Some st))) as (c & [_ HO] & E).
    + now apply val_tok.
    + destruct (all_words l fs) as [|w ws]; [exact HB|]. right. cbn. eauto.
    + intros s Hs. now apply m_fields_bnd in Hs.
    + rewrite E. rewrite nocap_shift in HO. rewrite (HO (nocap_ty t W1 N1)). exact H.
Qed.

Lemma set_texts_app a1 a2 v1 v2 : length a1 = length v1 -> set_texts (a1 ++ a2) (v1 ++ v2) = set_texts a1 v1 ++ set_texts a2 v2.
Proof. intros H. unfold set_texts. rewrite map_app, combine_app' by now rewrite map_length. apply flat_map_app. Qed.

Section Listed.
  Variables (c : cls) (f : form) (n : string) (opt : bool).
  Hypothesis HL : has_list c f n opt.

  (** The text of the object, and what reading it gives. *)
  Lemma list_object vs : headed c -> list_values f n opt vs -> exists (hw : str) (ws : list str),
    hw <> [] /\ allc head_char hw /\ Forall plain_word ws /\
    (forall o, construct ext fam c (map to_arg vs) = Ok o ->
       o = combine (map a_name (c_attrs c)) vs /\ head_text (c_kw c) (texts o) = hw /\ obj_text c (texts o) = hw ++ [sp] ++ join [sp] ws /\ obj_val c o = VObj c vs) /\
    (exists o, re_match (compile true (c_pat c)) (join [sp] (hw :: ws)) = Some o /\ mtext o = join [sp] (hw :: ws) /\
       read_cls ext fam c o = construct ext fam c (map to_arg vs)).
  Proof.
    intros HE (hh & fs & l & -> & HV & HG & HO).
    destruct HL as ((p & EF & EP) & HS & HP & (ha & fa & HA & HH & HFT & HFN) & HND & HKN & HK).
    set (fl := removelast (f_fields f)) in *.
    rewrite head_parts_eq in HV. apply Forall2_app_inv_l in HV as (hp & h2 & VP & HV & ->).
    apply Forall2_app_inv_l in HV as (hs & hd & VS & VD & ->).
    assert (HW : Forall (fun x => word_ty (ty_of (fst x)) = true) fl).
    { eapply Forall_impl; [|exact HS]. intros [[t|t] []] H; try destruct H; auto. }
    rewrite EF, map_app in HFT. cbn [map fst] in HFT. apply map_eq_app in HFT as (fa1 & fa2 & -> & E1 & E2). destruct fa2 as [|la [|]]; try discriminate. injection E2 as E2.
    assert (HLF : length fa1 = length fl) by (rewrite <- (map_length a_ty), E1, map_length; reflexivity).
    apply Forall_app in HFN as HFN'. destruct HFN' as [HFN1 HFN2]. assert (HFN3 : Forall (fun n => head_attr n = false) (map a_name fa1)) by (apply Forall_map; exact HFN1).
    destruct (gapless_length _ _ HG) as [LG1 LG2].
    destruct (set_texts_join fl (map a_name fa1) fs HW HG) as [ST1 ST2]; [now rewrite map_length|auto|].
    (* the last field *)
    assert (HLAST : exists wl gl, Forall plain_word wl /\ (forall g, CardsFacts3.parsed (fields_re g [(Tup (TExt n p), opt)]) g [gl] (spaced wl)) /\
      conv ext fam (a_ty la) (to_arg l) = Ok l /\ read_attr ext (a_ty la) gl = Ok l /\
      (l = None /\ wl = [] \/ exists os, l = Some (VTup os) /\ wl <> [] /\ join [sp] (map write os) = join [sp] wl)).
    { destruct l as [l|].
      - assert (HOS : exists os, l = VTup os /\ os <> [] /\ Forall (plain_option (fam n)) os) by (destruct l; try destruct HO; eauto).
        destruct HOS as (os & -> & H & H0). clear HO.
        assert (HAS : exists cs, assoc n families = Some cs).
        { destruct os as [|v os]; [congruence|]. inversion H0 as [|? ? (k & _ & _ & _ & _ & HI & _) _]; subst. unfold fam in HI. destruct (assoc n families) as [cs|]; [eauto|destruct HI]. }
        destruct HAS as (cs & HAS). assert (EC : fam n = cs) by (unfold fam; now rewrite HAS). rewrite EC in *.
        destruct (options_listed n cs p HAS EP os H H0) as (ws & W1 & W2 & _ & W4 & W5 & W6 & W7).
        exists ws, (Some (spaced ws)). split; [auto|]. split; [|split; [|split]].
        + intros g. destruct (steady_parts n cs p HAS EP) as ((S1 & S2 & S3) & _).
          apply parsed_last; auto.
        + rewrite E2. cbn [to_arg]. apply W7.
        + now rewrite E2.
        + right. exists os. auto.
      - exists [], None. split; [constructor|]. split; [|split; [|split]].
        + intros g. rewrite HO. apply parsed_none.
        + rewrite E2. reflexivity.
        + reflexivity.
        + left. auto. }
    destruct HLAST as (wl & gl & PWL & HPL & HCL & HRL & HWL).
    set (ws := all_words fl fs ++ wl).
    assert (HPF : forall n3, CardsFacts3.parsed (fields_re n3 (f_fields f)) n3 (field_groups fl fs ++ [gl]) (spaced ws)).
    { intros n3. rewrite EF. unfold ws. rewrite spaced_app. apply parsed_singles; auto. apply bnd_spaced. }
    assert (HCV : Forall2 (fun a v => conv ext fam (a_ty a) (to_arg v) = Ok v) (fa1 ++ [la]) (fs ++ [l])).
    { apply Forall2_app; [now apply (conv_fields ext fam fl)|]. constructor; auto. }
    assert (HRD : Forall2 (fun x v => read_attr ext (a_ty (fst x)) (snd x) = Ok v) (combine (fa1 ++ [la]) (field_groups fl fs ++ [gl])) (fs ++ [l])).
    { rewrite combine_app' by (rewrite LG2; exact HLF). apply Forall2_app; [now apply (read_fields ext fl)|]. constructor; auto. }
    assert (HLG : length (field_groups fl fs ++ [gl]) = length (fa1 ++ [la])) by (rewrite !app_length, LG2, HLF; reflexivity).
    assert (HJ : join [sp] (set_texts (map a_name (fa1 ++ [la])) (fs ++ [l])) = join [sp] ws).
    { rewrite map_app, set_texts_app by (rewrite map_length, HLF; auto). cbn [map]. inversion HFN2 as [|? ? N1 _]; subst.
      assert (EL : set_texts [a_name la] [l] = match l with Some v => [write v] | None => [] end) by (unfold set_texts; cbn; rewrite N1; destruct l; reflexivity).
      rewrite EL. unfold ws. destruct HWL as [[-> ->]|(os & -> & NW & EW)].
      - rewrite !app_nil_r. exact ST2.
      - cbn [write]. destruct (set_texts (map a_name fa1) fs) as [|t ts] eqn:ET.
        + rewrite (proj1 ST1 eq_refl). cbn [app join]. exact EW.
        + rewrite !join_app; auto; try discriminate; [|intros E; apply ST1 in E; discriminate]. rewrite ST2. cbn [join]. rewrite EW. reflexivity. }
    exists (starts hp ++ c_kw c ++ starts hs ++ dtext hd), ws.
    destruct (shaped_head c f hp hs hd _ ws HP HKN HK VP VS VD HPF) as (N & G1 & _).
    split; [exact N|]. split; [exact G1|]. split; [apply Forall_app; split; [now apply gapless_words|auto]|]. split.
    - intros o HC. destruct (shaped_text ext fam c f hp hs hd (fs ++ [l]) ws ha (fa1 ++ [la]) HA HH HFN HND HE VP VS VD HCV HJ o HC) as (H1 & H2 & H3).
      split; [exact H1|]. split; [exact H2|]. split; [exact H3|].
      exact (shaped_val ext fam c f hp hs hd (fs ++ [l]) _ ws ha (fa1 ++ [la]) HA HH HFN HND HE VP VS VD HCV HLG HJ o HC).
    - exact (shaped_read ext fam c f hp hs hd (fs ++ [l]) _ ws HP ha (fa1 ++ [la]) HA HH HKN HK VP VS VD HPF HRD HLG).
  Qed.

  Theorem list_round_trip vs o : c_kind c = KCard -> list_values f n opt vs -> construct ext fam c (map to_arg vs) = Ok o ->
    length (head_text (c_kw c) (texts o)) <= 78 -> card_from_mcnp ext fam c (card_to_mcnp c o) = Ok (o, []).
  Proof.
    intros HK HV HC HLN. destruct (list_object vs) as (hw & ws & N & H1 & H2 & H3 & (mo & M1 & M2 & M3)); [unfold headed; auto|auto|].
    destruct (H3 o HC) as (EO & E1 & E2 & _). rewrite E1 in HLN. pose proof (head_chars_clean hw N H1) as HW.
    assert (HS : strip (hw ++ [sp] ++ join [sp] ws) = join [sp] (hw :: ws)).
    { destruct ws as [|w ws].
      - cbn [app join]. apply strip_trailing; auto. now apply head_nospace.
      - change (hw ++ [sp] ++ join [sp] (w :: ws)) with (join [sp] (hw :: w :: ws)). rewrite <- !spaced_join. apply strip_ends; auto.
        eapply Forall_impl; [|exact H2]. intros v Hv. apply Hv. }
    unfold card_to_mcnp. rewrite HK, E2, HS. unfold card_from_mcnp. rewrite card_text_exact by auto.
    cbv beta iota. rewrite M1, M3, HC. reflexivity.
  Qed.
End Listed.

(** ** Which classes have the form *)

Definition singleb (x : aty * bool) : bool := match x with (One t, false) => word_ty t && negb (has_groups t) | _ => false end.
Definition list_of (c : cls) : option (string * bool) :=
  match last (f_fields (decode c)) (One TInt, false) with (Tup (TExt n _), o) => Some (n, o) | _ => None end.
Definition listb (c : cls) : bool :=
  let f := decode c in
  let k := length (head_parts f) in
  let hd := firstn k (c_attrs c) in
  let fs := skipn k (c_attrs c) in
  match last (f_fields f) (One TInt, false) with
  | (Tup (TExt n p), o) => negb (match f_fields f with [] => true | _ => false end) && existsb (fun x => String.eqb (fst x) n && seqb (snd x) p) option_patterns
  | _ => false
  end
  && forallb singleb (removelast (f_fields f))
  && re_eqb (compile true (c_pat c)) (form_re (c_kw c) f)
  && list_eqb na_eqb (map (fun a => (a_name a, a_ty a)) hd) (map fst (head_parts f))
  && list_eqb aty_eqb (map a_ty fs) (map fst (f_fields f))
  && forallb (fun a => negb (head_attr (a_name a))) fs
  && nodupb (map a_name (c_attrs c))
  && negb (match c_kw c with [] => true | _ => false end) && forallb kw_char (c_kw c).
Lemma listb_ok c : listb c = true -> exists n o, list_of c = Some (n, o) /\ has_list c (decode c) n o.
Proof.
  unfold listb, list_of. intros H. repeat (apply andb_prop in H as [H ?]). set (f := decode c) in *.
  destruct (last (f_fields f) (One TInt, false)) as [[t|t] o] eqn:E; try discriminate. destruct t; try discriminate. apply andb_prop in H as [HN HP]. exists name, o. split; auto.
  split; [|split; [|split; [|split; [|split; [|split]]]]]; auto.
  - exists pat. split; [|apply existsb_exists in HP as ([n' p'] & HI & HX); apply andb_prop in HX as [X1 X2]; apply String.eqb_eq in X1; apply seqb_eq in X2; cbn [fst snd] in X1, X2; subst; exact HI]. rewrite <- E. apply app_removelast_last. intros EN. rewrite EN in HN. discriminate.
  - apply Forall_forall. intros x Hx. rewrite forallb_forall in *. match goal with H : forall x, In x (removelast _) -> _ |- _ => apply H in Hx end.
    destruct x as [[t|t] []]; try discriminate. apply andb_prop in Hx as [? Hx]. apply negb_true_iff in Hx. auto.
  - now apply re_eqb_eq.
  - exists (firstn (length (head_parts f)) (c_attrs c)), (skipn (length (head_parts f)) (c_attrs c)).
    split; [symmetry; apply firstn_skipn|]. split; [|split].
    + eapply list_eqb_eq; [apply na_eqb_eq|eassumption].
    + eapply list_eqb_eq; [apply aty_eqb_eq|eassumption].
    + apply Forall_forall. intros a Ha. rewrite forallb_forall in *. match goal with H : forall x, In x (skipn _ _) -> _ |- _ => apply H in Ha end.
      now apply negb_true_iff in Ha.
  - now apply nodupb_ok.
  - intros EK. rewrite EK in *. discriminate.
Qed.
