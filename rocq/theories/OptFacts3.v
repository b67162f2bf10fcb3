(** Objects of classes whose pattern has the regular shape, whatever their fields. *)

From Coq Require Import Ascii String NArith ZArith Bool Arith Lia List.
From Verif Require Import PyStr Regex RegexParse RegexFacts RegexLang PyNum PyNumFacts Types TypesSpec TypesFacts TypesFacts2 TypesFacts3 TypesFacts4 TypesFacts5 SubFacts CardText CardTextSpec CardTextFacts CardTextFacts2 CardTextFacts3 CardTextFacts4 CardTextFacts5 CardTextFacts6
  Cards Tables CardsSpec CardsFacts CardsFacts2 CardsFacts3 CardsFacts4 CardsFacts5 CardsFacts6 RegexDer Geometry Numbered Problem InpFile InpSpec InpSpec2 InpFacts6 InpFacts9 InpFacts10 OptSpec OptFacts OptFacts2.
Import ListNotations.
Open Scope char_scope.
Open Scope list_scope.

Section Shape.
  Variables (kw : str) (f : form) (fg : list (option str)) (ws : list str).
  Hypothesis (HK : forallb kw_char kw = true) (HKN : kw <> []) (HF : forall n3, CardsFacts3.parsed (fields_re n3 (f_fields f)) n3 fg (spaced ws)).

  Lemma shape_d n2 hd : Forall2 head_ok (d_part f) hd ->
    CardsFacts3.parsed (tail_d f n2) n2 (map owrite hd ++ fg) (dtext hd ++ spaced ws) /\ no_digit (dtext hd ++ spaced ws) /\ allc head_char (dtext hd).
  Proof.
    intros H. pose proof (bnd_spaced ws) as B.
    unfold d_part in H. unfold tail_d. destruct (f_desig f) as [o|]; cbn [present] in *.
    - inversion H as [|? v ? hd' H1 H2]; subst. inversion H2; subst. cbn [map app]. cbn in H1.
      rewrite Nat.add_1_r in *. destruct v as [v|]; cbn [owrite option_map dtext].
      + destruct H1 as (s & -> & H1). destruct (desig_head s H1) as [H3 H4]. cbn [write].
        destruct (parsed_desig (fields_re (S n2) (f_fields f)) n2 fg s (spaced ws) H4 (head_nospace s H3) B (HF _)) as [HA HB].
        split; [destruct o; auto|]. split; [right; exists ":", (s ++ spaced ws); split; reflexivity|]. constructor; auto.
      + subst o. split; [now apply parsed_nodesig|]. split; [now apply bnd_no_digit|constructor].
    - inversion H; subst. cbn [map app dtext]. rewrite Nat.add_0_r in *. split; auto. split; [now apply bnd_no_digit|constructor].
  Qed.

  Lemma shape_s n1 hs hd : Forall2 head_ok (s_part f) hs -> Forall2 head_ok (d_part f) hd ->
    CardsFacts3.parsed (tail_s f n1) n1 (map owrite hs ++ map owrite hd ++ fg) (starts hs ++ dtext hd ++ spaced ws) /\ allc head_char (starts hs).
  Proof.
    intros H HD. assert (HP := fun n => proj1 (shape_d n hd HD)). destruct (shape_d 0 hd HD) as (_ & HN & HC). unfold s_part in H. unfold tail_s.
    destruct (f_suffix f) as [o|]; cbn [present] in *.
    - inversion H as [|? v ? hd' H1 H2]; subst. inversion H2; subst. cbn [map app]. cbn in H1. rewrite Nat.add_1_r in *.
      destruct v as [v|]; cbn [owrite option_map starts].
      + destruct H1 as (k & -> & _). cbn [write integer_to_mcnp].
        assert (E : str_of_Z (Z.of_N k) = str_of_N k) by (destruct k; reflexivity). rewrite E.
        split; [|now apply digits_head, str_of_N_digits].
        apply parsed_suffix; auto using str_of_N_nonempty, str_of_N_digits.
      + subst o. split; [|constructor]. now apply parsed_nosuffix.
    - inversion H; subst. cbn [map app starts]. rewrite Nat.add_0_r in *. split; auto. constructor.
  Qed.

  Lemma shape_p hp hs hd : Forall2 head_ok (p_part f) hp -> Forall2 head_ok (s_part f) hs -> Forall2 head_ok (d_part f) hd ->
    CardsFacts3.parsed (body kw f) 1 (map owrite hp ++ map owrite hs ++ map owrite hd ++ fg) (starts hp ++ kw ++ starts hs ++ dtext hd ++ spaced ws) /\
    allc head_char (starts hp).
  Proof.
    intros H HS HD. assert (HP := fun n => parsed_kw _ _ _ kw _ (proj1 (shape_s n hs hd HS HD))).
    unfold p_part in H. unfold body. destruct (f_prefix f).
    - inversion H as [|? v ? hd' H1 H2]; subst. inversion H2; subst. cbn [map app]. cbn in H1.
      destruct v as [v|]; cbn [owrite option_map starts].
      + subst v. cbn [write]. split; [now apply parsed_star|repeat constructor].
      + split; [|constructor]. destruct kw as [|c kw']; [congruence|]. apply parsed_nostar; auto.
        intros ->. discriminate HK.
    - inversion H; subst. cbn [map app starts]. split; auto. constructor.
  Qed.
End Shape.

(** What is needed of a class and its attribute values, and what follows. *)
Section Object.
  Variables (ex : string -> str -> result val) (fm : string -> list cls) (c : cls) (f : form).
  Variables (hp hs hd fs : list (option val)) (fg : list (option str)) (ws : list str).
  Hypothesis HP : compile true (c_pat c) = form_re (c_kw c) f.
  Variables (ha fa : list attr).
  Hypotheses (HA : c_attrs c = ha ++ fa) (HH : map (fun a => (a_name a, a_ty a)) ha = map fst (head_parts f))
    (HFN : Forall (fun a => head_attr (a_name a) = false) fa) (HND : NoDup (map a_name (c_attrs c)))
    (HKN : c_kw c <> []) (HK : forallb kw_char (c_kw c) = true) (HE : headed c)
    (VP : Forall2 head_ok (p_part f) hp) (VS : Forall2 head_ok (s_part f) hs) (VD : Forall2 head_ok (d_part f) hd)
    (HF : forall n3, CardsFacts3.parsed (fields_re n3 (f_fields f)) n3 fg (spaced ws))
    (HC : Forall2 (fun a v => conv ex fm (a_ty a) (to_arg v) = Ok v) fa fs)
    (HR : Forall2 (fun x v => read_attr ex (a_ty (fst x)) (snd x) = Ok v) (combine fa fg) fs)
    (HL : length fg = length fa) (HJ : join [sp] (set_texts (map a_name fa) fs) = join [sp] ws).

  Let hw := starts hp ++ c_kw c ++ starts hs ++ dtext hd.
  Let vs := (hp ++ hs ++ hd) ++ fs.

  Lemma shaped_head : hw <> [] /\ allc head_char hw /\ (head_parts f = [] -> hw = c_kw c).
  Proof.
    destruct (shape_p (c_kw c) f fg ws HK HKN HF hp hs hd VP VS VD) as [_ HC1].
    destruct (shape_s f fg ws HF 0 hs hd VS VD) as [_ HC2].
    destruct (shape_d f fg ws HF 0 hd VD) as (_ & _ & HC3). split; [|split].
    - unfold hw. destruct (starts hp); [|discriminate]. destruct (c_kw c); [congruence|discriminate].
    - unfold hw. repeat (apply allc_app; split); auto. now apply kw_head.
    - intros E. rewrite head_parts_eq in E. apply app_eq_nil in E as [E1 E]. apply app_eq_nil in E as [E2 E3].
      unfold hw. rewrite E1 in VP. rewrite E2 in VS. rewrite E3 in VD. inversion VP; inversion VS; inversion VD. apply app_nil_r.
  Qed.

  Lemma shaped_text o : construct ex fm c (map to_arg vs) = Ok o ->
    o = combine (map a_name (c_attrs c)) vs /\ head_text (c_kw c) (texts o) = hw /\ obj_text c (texts o) = hw ++ [sp] ++ join [sp] ws.
  Proof.
    intros HX. assert (HN : map a_name (c_attrs c) = hnames f ++ map a_name fa).
    { rewrite HA, map_app. f_equal. unfold hnames. rewrite <- (map_map fst fst (head_parts f)), <- HH, map_map. reflexivity. }
    assert (HFN' : Forall (fun n => head_attr n = false) (map a_name fa)) by (apply Forall_map; exact HFN).
    assert (EO : o = combine (map a_name (c_attrs c)) vs).
    { apply construct_combine in HX; auto. rewrite HA. apply Forall2_app; auto.
      apply (read_heads ex fm (head_parts f)); auto using head_parts_in. rewrite head_parts_eq. auto using Forall2_app. }
    split; auto. rewrite EO, texts_combine. unfold vs.
    split; [now rewrite HN, map_app, head_written by auto|]. unfold obj_text. destruct HE as [HE0|HE0]; rewrite HE0;
      rewrite HN, map_app, head_written, value_written by auto; rewrite HJ; reflexivity.
  Qed.

  Lemma shaped_read : exists o, re_match (compile true (c_pat c)) (join [sp] (hw :: ws)) = Some o /\ mtext o = join [sp] (hw :: ws) /\
    read_cls ex fm c o = construct ex fm c (map to_arg vs).
  Proof.
    destruct (shape_p (c_kw c) f fg ws HK HKN HF hp hs hd VP VS VD) as [HB _].
    rewrite HP, form_body. destruct (parsed_match _ _ _ HB) as (o & E & ET & EG).
    exists o. rewrite <- spaced_join. unfold hw. rewrite <- !app_assoc. split; [exact E|]. split; [exact ET|].
    unfold read_cls. erewrite read_attrs_ok; [reflexivity|exact EG|..].
    + rewrite HA, !app_assoc, <- !map_app, combine_app'.
      2:{ rewrite map_length, <- (map_length (fun a => (a_name a, a_ty a))), HH, map_length, head_parts_eq, <- !app_assoc, !app_length.
          now rewrite (F2_length _ _ _ VP), (F2_length _ _ _ VS), (F2_length _ _ _ VD). }
      unfold vs. apply Forall2_app; auto.
      rewrite <- !app_assoc. apply (read_heads ex fm (head_parts f)); auto using head_parts_in. rewrite head_parts_eq. auto using Forall2_app.
    + rewrite HA, !app_length, !map_length, HL. rewrite <- (map_length (fun a => (a_name a, a_ty a)) ha), HH, map_length, head_parts_eq, !app_length.
      rewrite (F2_length _ _ _ VP), (F2_length _ _ _ VS), (F2_length _ _ _ VD). lia.
  Qed.

  (** Both depend on the readers only through what they give for these texts. *)
  Lemma shaped_val o : construct ex fm c (map to_arg vs) = Ok o -> obj_val c o = VObj c vs.
  Proof.
    intros HX. destruct (shaped_text o HX) as (EO & _). unfold obj_val. rewrite EO. f_equal.
    assert (HQ : length (c_attrs c) = length vs).
    { unfold vs. rewrite HA, !app_length, (F2_length _ _ _ HC). rewrite <- (map_length (fun a => (a_name a, a_ty a)) ha), HH, map_length, head_parts_eq, !app_length.
      rewrite (F2_length _ _ _ VP), (F2_length _ _ _ VS), (F2_length _ _ _ VD). lia. }
    revert HQ. generalize vs. generalize (c_attrs c). clear. intros l. induction l as [|a l IH]; intros [|v vs] H; try discriminate; auto. cbn. f_equal. apply IH. now injection H.
  Qed.
End Object.
