(** Round trip of cards and options of the regular form. *)

From Coq Require Import Ascii String NArith ZArith Bool Arith List Lia.
From Verif Require Import PyStr Regex RegexParse RegexFacts RegexLang PyNum PyNumFacts Types TypesSpec TypesFacts TypesFacts2 TypesFacts3 TypesFacts4 TypesFacts5 SubFacts CardText CardTextSpec CardTextFacts CardTextFacts2 CardTextFacts3 CardTextFacts4 CardTextFacts5 CardTextFacts6 Cards CardsSpec CardsFacts CardsFacts2 CardsFacts3.
Import ListNotations.
Open Scope char_scope.
Open Scope list_scope.

(** * Constructors *)

Lemma upd_new n v o : ~ In n (map fst o) -> upd n v o = o ++ [(n, v)].
Proof.
  induction o as [|[x w] o IH]; intros H; auto. cbn in *. destruct (String.eqb x n) eqn:E.
  - apply String.eqb_eq in E. subst. tauto.
  - f_equal. apply IH. tauto.
Qed.

Section Construct.
  Variable ext : string -> str -> result val.
  Variable fam : string -> list cls.

  Lemma init_combine l : forall vs o o', Forall2 (fun a v => conv ext fam (a_ty a) (to_arg v) = Ok v) l vs ->
    NoDup (map fst o ++ map a_name l) ->
    init_attrs ext fam (combine l (map to_arg vs)) o = Ok o' -> o' = o ++ combine (map a_name l) vs.
  Proof.
    induction l as [|a l IH]; intros vs o o' HF HN H.
    - inversion HF; subst. cbn in *. rewrite app_nil_r. congruence.
    - inversion HF as [|? v ? vs' H1 H2]; subst. cbn [map combine init_attrs] in *. unfold set_attr in H. rewrite H1 in H.
      destruct (run_checks o v (a_checks a)); try discriminate.
      cbn [map] in HN.
      assert (HX : ~ In (a_name a) (map fst o)).
      { intros HX. apply NoDup_remove_2 in HN. apply HN. apply in_or_app. now left. }
      rewrite upd_new in H by exact HX.
      apply IH in H; auto.
      + rewrite H, <- app_assoc. reflexivity.
      + rewrite map_app, <- app_assoc. exact HN.
  Qed.

  Lemma construct_combine c vs o : Forall2 (fun a v => conv ext fam (a_ty a) (to_arg v) = Ok v) (c_attrs c) vs ->
    NoDup (map a_name (c_attrs c)) ->
    construct ext fam c (map to_arg vs) = Ok o -> o = combine (map a_name (c_attrs c)) vs.
  Proof. intros HF HN H. apply init_combine in H; auto. Qed.

  Lemma val_is_ty t v : val_ok t v -> is_ty fam t v = true.
  Proof. destruct t, v; cbn; tauto. Qed.
  Lemma conv_val a v : aval_ok a v -> conv ext fam a (AVal v) = Ok (Some v).
  Proof.
    destruct a as [t|t]; cbn [aval_ok conv]; auto. destruct v; try contradiction. intros [_ HF]. cbn [items].
    assert (E : mapM (conv_item ext fam t) (map AVal l) = Ok (map (fun v => [v]) l)).
    { induction HF as [|v l H HF IH]; auto. cbn [map mapM conv_item bind]. rewrite (val_is_ty _ _ H). cbn [bind].
      rewrite IH. reflexivity. }
    rewrite E. cbn [bind]. repeat f_equal. clear. induction l; cbn; congruence.
  Qed.

  (** * Reading the groups *)

  Lemma read_attrs_ok l : forall i vs gs o,
    (forall j, j < length gs -> group (i + j) o = nth j gs None) ->
    Forall2 (fun x v => read_attr ext (a_ty (fst x)) (snd x) = Ok v) (combine l gs) vs -> length gs = length l ->
    read_attrs ext i l o = Ok vs.
  Proof.
    induction l as [|a l IH]; intros i vs gs o HG HF HL.
    - destruct gs; [|discriminate]. inversion HF. reflexivity.
    - destruct gs as [|g gs]; [discriminate|]. cbn [combine] in HF. inversion HF as [|? v ? vs' H1 H2]; subst.
      cbn [read_attrs]. rewrite <- (Nat.add_0_r i), (HG 0) by (cbn; lia). cbn [nth fst snd] in *. rewrite H1. cbn [bind].
      rewrite Nat.add_0_r. rewrite (IH (S i) vs' gs o); auto.
      + intros j HJ. replace (S i + j) with (i + S j) by lia. apply (HG (S j)). cbn. lia.
  Qed.
End Construct.

(** * Text *)

Lemma preprocess_exact w ws : clean w -> Forall plain_word ws -> preprocess (join [sp] (w :: ws)) = join [sp] (w :: ws).
Proof.
  intros HW HP.
  assert (HC : Forall clean ws) by (eapply Forall_impl; [|exact HP]; intros v Hv; apply Hv).
  assert (HN : forall v k n, In v ws -> ~ counted k n v).
  { intros v k n HI. rewrite Forall_forall in HP. now apply HP. }
  destruct (expansion w ws (map (fun w => [w]) ws)) as (us & HR & E); auto.
  - clear - HN. induction ws as [|v vs IH]; constructor.
    + apply SF_word. intros k n. apply HN. now left.
    + apply IH. intros; apply HN; now right.
  - intros k _ (u & v & (a & b & E) & _ & _ & [(n & X)|(n & X)]); revert X; apply HN; rewrite E; apply in_or_app; right; simpl; auto.
  - rewrite E. do 2 f_equal. rewrite concat_map_single in HR. clear - HR HP.
    induction HR as [|v u ws us HV HR IH]; auto. inversion HP as [|? ? H1 H2]; subst. f_equal; auto.
    destruct HV as [->|(k & HK & ->)]; auto. symmetry. now apply H1.
Qed.

Lemma card_text_exact w ws : clean w -> length w <= 78 -> Forall plain_word ws ->
  card_preprocess (postprocess (join [sp] (w :: ws))) = (join [sp] (w :: ws), []).
Proof.
  intros HW HL HP. apply write_read_exact; auto.
  - eapply Forall_impl; [|exact HP]. intros v Hv. apply Hv.
  - intros v k n HI. rewrite Forall_forall in HP. now apply HP.
  - intros v k HI. rewrite Forall_forall in HP. now apply HP.
Qed.

Lemma join_app a b : a <> [] -> b <> [] -> join [sp] (a ++ b) = join [sp] a ++ [sp] ++ join [sp] b.
Proof.
  intros HA HB. destruct a as [|w a]; [congruence|]. destruct b as [|v b]; [congruence|]. cbn [app].
  rewrite <- !spaced_join, spaced_app, app_assoc. reflexivity.
Qed.

(** * Objects *)

Definition set_texts (names : list string) (vs : list (option val)) : list str :=
  flat_map (fun x => if head_attr (fst x) then [] else match snd x with Some t => [t] | None => [] end)
           (combine names (map owrite vs)).

Lemma set_texts_join l : forall names vs, Forall (fun x => word_ty (ty_of (fst x)) = true) l -> gapless l vs ->
  length names = length l -> Forall (fun n => head_attr n = false) names ->
  (set_texts names vs = [] <-> all_words l vs = []) /\ join [sp] (set_texts names vs) = join [sp] (all_words l vs).
Proof.
  induction l as [|[a o] l IH]; intros names vs HW HG HL HN.
  - destruct vs; [|destruct HG]. destruct names; [|discriminate]. now split.
  - destruct vs as [|v vs]; [destruct HG|]. destruct names as [|n names]; [discriminate|].
    inversion HN as [|? ? N1 N2]; subst. inversion HW as [|? ? W1 W2]; subst.
    destruct v as [v|]; cbn [gapless] in HG.
    + destruct HG as [H1 H2]. destruct (IH names vs W2 H2) as [E1 E2]; auto.
      destruct (aval_words (fun _ _ => Lib InpError) a v W1 H1) as (A & B & _ & C & _).
      unfold set_texts. cbn [map combine flat_map fst snd owrite option_map]. rewrite N1. cbn [app]. fold (set_texts names vs).
      cbn [all_words]. split.
      * split; [discriminate|]. intros E. apply app_eq_nil in E. tauto.
      * rewrite C. destruct (set_texts names vs) as [|t ts] eqn:ET.
        -- rewrite (proj1 E1 eq_refl), app_nil_r. reflexivity.
        -- rewrite join_app; auto.
           ++ change (join [sp] (join [sp] (fwords a v) :: t :: ts)) with (join [sp] (fwords a v) ++ [sp] ++ join [sp] (t :: ts)).
              now rewrite E2.
           ++ intros E. apply E1 in E. discriminate.
    + cbn [all_words]. assert (E : set_texts (n :: names) (None :: vs) = []).
      { destruct HG as (_ & H & _). unfold set_texts. cbn [map combine flat_map fst snd owrite option_map]. rewrite N1. cbn [app].
        clear - H. revert names. induction H as [|v vs -> H IH]; intros [|m names]; auto. cbn. destruct (head_attr m); apply IH. }
      rewrite E. now split.
Qed.

Lemma F2_length {A B} (P : A -> B -> Prop) a b : Forall2 P a b -> length a = length b.
Proof. induction 1; cbn; congruence. Qed.
Lemma combine_app' {A B} (a1 a2 : list A) (b1 b2 : list B) : length a1 = length b1 ->
  combine (a1 ++ a2) (b1 ++ b2) = combine a1 b1 ++ combine a2 b2.
Proof.
  revert b1. induction a1 as [|x a1 IH]; intros [|y b1] H; try discriminate; auto. cbn. f_equal. apply IH. now injection H.
Qed.
Lemma texts_combine names vs : texts (combine names vs) = combine names (map owrite vs).
Proof.
  unfold texts. revert vs. induction names as [|n names IH]; intros [|v vs]; auto. cbn. f_equal; auto.
Qed.
Lemma assoc_app {A} n (a b : list (string * A)) : assoc n (a ++ b) = match assoc n a with Some x => Some x | None => assoc n b end.
Proof. induction a as [|[x v] a IH]; auto. cbn. destruct (String.eqb x n); auto. Qed.
Lemma assoc_none {A} n (names : list string) (l : list A) : ~ In n names -> assoc n (combine names l) = None.
Proof.
  revert l. induction names as [|x names IH]; intros [|v l] H; auto. cbn. destruct (String.eqb x n) eqn:E.
  - apply String.eqb_eq in E. subst. exfalso. apply H. now left.
  - apply IH. intros HI. apply H. now right.
Qed.

Definition hnames (f : form) : list string := map (fun p => fst (fst p)) (head_parts f).

(** The text around the keyword. *)
Lemma head_written f kw hp hs hd fn ft :
  Forall2 head_ok (p_part f) hp -> Forall2 head_ok (s_part f) hs -> Forall2 head_ok (d_part f) hd ->
  Forall (fun n => head_attr n = false) fn ->
  head_text kw (combine (hnames f ++ fn) (map owrite (hp ++ hs ++ hd) ++ ft)) = starts hp ++ kw ++ starts hs ++ dtext hd.
Proof.
  intros HP HS HD HF.
  assert (HL : forall n, head_attr n = true -> assoc n (combine fn ft) = None).
  { intros n HN. apply assoc_none. intros HI. rewrite Forall_forall in HF. apply HF in HI. congruence. }
  rewrite combine_app'.
  2:{ unfold hnames. rewrite head_parts_eq, !map_length, !app_length.
      rewrite (F2_length _ _ _ HP), (F2_length _ _ _ HS), (F2_length _ _ _ HD). reflexivity. }
  unfold head_text. rewrite !assoc_app, !HL by reflexivity. unfold hnames. rewrite head_parts_eq.
  unfold p_part, s_part, d_part in *.
  destruct (f_prefix f), (f_suffix f) as [o|], (f_desig f) as [o'|];
    repeat match goal with
    | H : Forall2 _ (_ :: _) _ |- _ => inversion H; clear H; subst
    | H : Forall2 _ [] _ |- _ => inversion H; clear H; subst
    end; cbn [map app combine fst snd assoc owrite option_map];
    repeat match goal with v : option val |- _ => destruct v end; cbn [option_map starts dtext]; try reflexivity;
    cbn; rewrite ?app_nil_r; auto.
Qed.

Lemma value_written f hp hs hd fn vs :
  Forall2 head_ok (p_part f) hp -> Forall2 head_ok (s_part f) hs -> Forall2 head_ok (d_part f) hd ->
  value_text (combine (hnames f ++ fn) (map owrite (hp ++ hs ++ hd) ++ map owrite vs)) = join [sp] (set_texts fn vs).
Proof.
  intros HP HS HD. rewrite combine_app'.
  2:{ unfold hnames. rewrite head_parts_eq, !map_length, !app_length.
      rewrite (F2_length _ _ _ HP), (F2_length _ _ _ HS), (F2_length _ _ _ HD). reflexivity. }
  unfold value_text. f_equal. rewrite flat_map_app. unfold set_texts.
  match goal with |- ?x ++ _ = _ => replace x with (@nil str); auto end. symmetry.
  unfold hnames. rewrite head_parts_eq. clear. unfold p_part, s_part, d_part.
  generalize (map owrite (hp ++ hs ++ hd)). intros l.
  destruct (f_prefix f), (f_suffix f) as [o|], (f_desig f) as [o'|]; cbn [map app fst];
    destruct l as [|? [|? [|? l]]]; reflexivity.
Qed.

(** * The round trip *)

Section RoundTrip.
  Variable ext : string -> str -> result val.
  Variable fam : string -> list cls.

  Lemma conv_one t (v : option val) : conv ext fam (One t) (to_arg v) = Ok v.
  Proof. destruct v; reflexivity. Qed.
  Lemma conv_fields l : forall (fa : list attr) vs, gapless l vs -> map a_ty fa = map fst l ->
    Forall2 (fun a v => conv ext fam (a_ty a) (to_arg v) = Ok v) fa vs.
  Proof.
    induction l as [|[a o] l IH]; intros fa vs HG HM.
    - destruct fa; [|discriminate]. destruct vs; [constructor|destruct HG].
    - destruct fa as [|x fa]; [discriminate|]. injection HM as E HM. destruct vs as [|v vs]; [destruct HG|].
      destruct v as [v|]; cbn [gapless] in HG.
      + destruct HG as [H1 H2]. constructor; [|now apply IH]. cbn [fst] in E. rewrite E. cbn [to_arg]. now apply conv_val.
      + destruct HG as (_ & HG & HL).
        assert (HL' : length (x :: fa) = length (@None val :: vs)) by (cbn; rewrite HL, <- (map_length fst l), <- HM, map_length; reflexivity).
        assert (HF : Forall (fun v : option val => v = None) (None :: vs)) by (constructor; auto).
        revert HL' HF. generalize (x :: fa) (@None val :: vs). clear. induction l as [|y l IH]; intros [|v vs] HL HF; try discriminate; constructor.
        * inversion HF; subst. cbn. destruct (a_ty y); reflexivity.
        * apply IH; [now injection HL|now inversion HF].
  Qed.
  Lemma read_fields l : forall (fa : list attr) vs, Forall (fun x => word_ty (ty_of (fst x)) = true) l -> gapless l vs -> map a_ty fa = map fst l ->
    Forall2 (fun x v => read_attr ext (a_ty (fst x)) (snd x) = Ok v) (combine fa (field_groups l vs)) vs.
  Proof.
    induction l as [|[a o] l IH]; intros fa vs HW HG HM.
    - destruct fa; [|discriminate]. destruct vs; [constructor|destruct HG].
    - destruct fa as [|x fa]; [discriminate|]. injection HM as E HM. destruct vs as [|v vs]; [destruct HG|].
      pose proof (Forall_inv HW) as W1; pose proof (Forall_inv_tail HW) as W2. cbn [field_groups combine]. cbn [fst] in *.
      destruct v as [v|]; cbn [gapless] in HG.
      + destruct HG as [H1 H2]. constructor; [|now apply IH]. cbn [fst snd option_map]. rewrite E. now apply read_field.
      + constructor; [reflexivity|]. destruct HG as (_ & HG & HL). clear - HG HL HM.
        revert fa vs HG HL HM. induction l as [|[b p] l IH]; intros [|y fa] [|v vs] HG HL HM; try discriminate; try constructor.
        * inversion HG; subst. reflexivity.
        * apply IH; [now inversion HG|now injection HL|now injection HM].
  Qed.

  Lemma read_head (p : string * aty * bool) a v : In (fst p) [("prefix"%string, One TStr); ("suffix"%string, One TInt); ("designator"%string, One TDesig)] ->
    (a_name a, a_ty a) = fst p -> head_ok p v -> read_attr ext (a_ty a) (owrite v) = Ok v.
  Proof.
    intros HI HA HV. destruct p as [[n t] o]. cbn [fst] in *. injection HA as HN ->. destruct v as [v|]; [|reflexivity]. cbn [owrite option_map].
    unfold read_attr. destruct HI as [E|[E|[E|[]]]]; injection E as <- <-; cbn -[int_seq] in HV.
    - subst v. reflexivity.
    - destruct HV as (k & -> & HV). cbn [write]. pose proof (integer_nonempty (IVal (Z.of_N k))) as N.
      destruct (int_plain _ HV) as [(_ & HS & _) _].
      replace (truthy (Some (integer_to_mcnp (IVal (Z.of_N k))))) with (Some (integer_to_mcnp (IVal (Z.of_N k)))) by (destruct (integer_to_mcnp _); [congruence|reflexivity]).
      rewrite strip_nospace by exact HS. cbn [read_aty read_ty]. now rewrite int_rt by now apply int_seq_ok.
    - destruct HV as (s & -> & HV). destruct (desig_head s HV) as [H1 H2]. cbn [write].
      replace (truthy (Some s)) with (Some s) by (destruct s; [congruence|reflexivity]).
      rewrite strip_nospace by now apply head_nospace. cbn [read_aty read_ty]. now rewrite HV.
  Qed.
  Lemma head_parts_in f : Forall (fun p => In (fst p) [("prefix"%string, One TStr); ("suffix"%string, One TInt); ("designator"%string, One TDesig)]) (head_parts f).
  Proof.
    unfold head_parts. repeat (apply Forall_app; split).
    - destruct (f_prefix f); repeat constructor.
    - destruct (f_suffix f); constructor; [right; left; reflexivity|constructor].
    - destruct (f_desig f); constructor; [right; right; left; reflexivity|constructor].
  Qed.
  Lemma read_heads ps : forall (ha : list attr) hh,
    Forall (fun p => In (fst p) [("prefix"%string, One TStr); ("suffix"%string, One TInt); ("designator"%string, One TDesig)]) ps ->
    map (fun a => (a_name a, a_ty a)) ha = map fst ps -> Forall2 head_ok ps hh ->
    Forall2 (fun x v => read_attr ext (a_ty (fst x)) (snd x) = Ok v) (combine ha (map owrite hh)) hh /\
    Forall2 (fun a v => conv ext fam (a_ty a) (to_arg v) = Ok v) ha hh.
  Proof.
    intros ha hh HI HM HV. revert ha HI HM. induction HV as [|p v ps hh HV HF IH]; intros ha HI HM.
    - destruct ha; [|discriminate]. split; constructor.
    - destruct ha as [|a ha]; [discriminate|]. injection HM as E HM. pose proof (Forall_inv HI) as I1; pose proof (Forall_inv_tail HI) as I2.
      destruct (IH ha I2 HM) as [H1 H2]. split; constructor; auto.
      + cbn [fst snd]. now apply (read_head p).
      + cbn [fst] in *. assert (X : exists t, a_ty a = One t).
        { cbn in I1. rewrite <- E in I1. destruct I1 as [X|[X|[X|[]]]]; injection X as _ X; eauto. }
        destruct X as (t & ->). apply conv_one.
  Qed.

  Lemma regular_object c f vs : has_form c f -> values_ok f vs -> headed c ->
    exists (hw : str) (ws : list str),
      hw <> [] /\ allc head_char hw /\ Forall plain_word ws /\
      (head_parts f = [] -> hw = c_kw c) /\
      (forall o, construct ext fam c (map to_arg vs) = Ok o ->
         o = combine (map a_name (c_attrs c)) vs /\ head_text (c_kw c) (texts o) = hw /\ obj_text c (texts o) = hw ++ [sp] ++ join [sp] ws) /\
      (exists o, re_match (compile true (c_pat c)) (join [sp] (hw :: ws)) = Some o /\ mtext o = join [sp] (hw :: ws) /\
         read_cls ext fam c o = construct ext fam c (map to_arg vs)).
  Proof.
    intros (HP & (ha & fa & HA & HH & HFT & HFN) & HND & HO & HKN & HK) (hh & fs & -> & HV & HG) HE.
    rewrite head_parts_eq in HV. apply Forall2_app_inv_l in HV as (hp & h2 & VP & HV & ->).
    apply Forall2_app_inv_l in HV as (hs & hd & VS & VD & ->).
    exists (starts hp ++ c_kw c ++ starts hs ++ dtext hd), (all_words (f_fields f) fs).
    pose proof (fields_word _ HO) as HW.
    destruct (parsed_p (c_kw c) f fs HK HKN HO HG hp hs hd VP VS VD) as [HB HC1].
    destruct (parsed_s f fs HO HG 0 hs hd VS VD) as [_ HC2].
    destruct (parsed_d f fs HO HG 0 hd VD) as (_ & _ & HC3).
    assert (HN : map a_name (c_attrs c) = hnames f ++ map a_name fa).
    { rewrite HA, map_app. f_equal. unfold hnames. rewrite <- (map_map fst fst (head_parts f)), <- HH, map_map. reflexivity. }
    assert (HLF : length (map a_name fa) = length (f_fields f)) by (rewrite map_length, <- (map_length a_ty), HFT, map_length; reflexivity).
    assert (HFN' : Forall (fun n => head_attr n = false) (map a_name fa)) by (apply Forall_map; exact HFN).
    split; [|split; [|split; [|split; [|split]]]].
    - destruct (starts hp); [|discriminate]. destruct (c_kw c); [congruence|discriminate].
    - repeat (apply allc_app; split); auto. now apply kw_head.
    - now apply gapless_words.
    - intros E. rewrite head_parts_eq in E. apply app_eq_nil in E as [E1 E]. apply app_eq_nil in E as [E2 E3].
      rewrite E1 in VP. rewrite E2 in VS. rewrite E3 in VD. inversion VP; inversion VS; inversion VD. apply app_nil_r.
    - intros o HC.
      assert (EO : o = combine (map a_name (c_attrs c)) ((hp ++ hs ++ hd) ++ fs)).
      { apply construct_combine in HC; auto. rewrite HA.
        apply Forall2_app.
        - apply (read_heads (head_parts f)); auto using head_parts_in. rewrite head_parts_eq. auto using Forall2_app.
        - now apply (conv_fields (f_fields f)). }
      split; auto. rewrite EO, texts_combine.
      split; [now rewrite HN, map_app, head_written by auto|]. unfold obj_text. destruct HE as [HE|HE]; rewrite HE;
        rewrite HN, map_app, head_written, value_written by auto;
        rewrite (proj2 (set_texts_join _ _ _ HW HG HLF HFN')); reflexivity.
    - rewrite HP, form_body.
      destruct (parsed_match _ _ _ HB) as (o & E & ET & EG).
      exists o. rewrite <- spaced_join. rewrite <- !app_assoc. split; [exact E|]. split; [exact ET|].
      unfold read_cls. erewrite read_attrs_ok; [reflexivity|exact EG|..].
      + rewrite HA, !app_assoc, <- !map_app, combine_app'.
        2:{ rewrite map_length, <- (map_length (fun a => (a_name a, a_ty a))), HH, map_length, head_parts_eq, <- !app_assoc, !app_length.
            now rewrite (F2_length _ _ _ VP), (F2_length _ _ _ VS), (F2_length _ _ _ VD). }
        apply Forall2_app; [|now apply read_fields].
        rewrite <- !app_assoc. apply (read_heads (head_parts f)); auto using head_parts_in. rewrite head_parts_eq. auto using Forall2_app.
      + rewrite HA, !app_length, !map_length, (proj2 (gapless_length _ _ HG)).
        rewrite map_length in HLF. rewrite HLF. rewrite <- (map_length (fun a => (a_name a, a_ty a)) ha), HH, map_length, head_parts_eq, !app_length.
        rewrite (F2_length _ _ _ VP), (F2_length _ _ _ VS), (F2_length _ _ _ VD). lia.
  Qed.
End RoundTrip.
