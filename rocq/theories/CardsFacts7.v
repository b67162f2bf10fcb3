(** Reading side of the regular form; gaps; histories of assignments. *)

From Coq Require Import Ascii String NArith ZArith Bool Arith List Lia.
From Verif Require Import PyStr Regex RegexParse RegexFacts RegexLang PyNum Types TypesSpec SubFacts CardText CardTextSpec Cards CardsSpec CardsFacts CardsFacts2 CardsFacts3 CardsFacts4 CardsFacts5.
Import ListNotations.
Open Scope char_scope.
Open Scope list_scope.

(** * Accepted texts fall apart into the texts of the attributes *)

Definition splits (r : re) (g n : nat) (F : list (option str) -> str -> Prop) : Prop :=
  forall s s', M r s s' -> rest s' = [] /\ exists gs c, length gs = n /\ F gs (rest s) /\
    caps s' = c ++ caps s /\ Forall (fun x => g <= fst x) c /\ forall j, j < n -> lookup (g + j) c = nth j gs None.

Lemma lookup_app i c d : lookup i (c ++ d) = match lookup i c with Some x => Some x | None => lookup i d end.
Proof. induction c as [|[j x] c IH]; auto. cbn. destruct (j =? i)%nat; auto. Qed.
Lemma lookup_high i c : above i c -> lookup i c = None.
Proof. intros H. pose proof (lookup_above i c [] H) as E. now rewrite app_nil_r in E. Qed.

(** One part of the text, recorded as group [g]. *)
Definition part (r : re) (g : nat) (last : Prop) (F : option str -> str -> Prop) : Prop :=
  forall s s', M r s s' -> exists og c u, F og u /\ rest s = u ++ rest s' /\ caps s' = c ++ caps s /\
    ((og = None /\ c = []) \/ exists v c', og = Some v /\ c = (g, v) :: c' /\ above g c' /\ (c' = [] \/ last)).

Lemma splits_cons r g n tail FP FT : part r g (n = 0) FP -> splits tail (S g) n FT ->
  splits (RCat r tail) g (S n) (fun gs t => exists og gs' u t', gs = og :: gs' /\ t = u ++ t' /\ FP og u /\ FT gs' t').
Proof.
  intros HP HT s s' (s1 & H1 & H2). destruct (HP _ _ H1) as (og & c & u & A1 & A2 & A3 & A4).
  destruct (HT _ _ H2) as (B0 & gs & d & B1 & B2 & B3 & B4 & B5). split; [exact B0|].
  exists (og :: gs), (d ++ c). split; [cbn; lia|]. split; [exists og, gs, u, (rest s1); auto|].
  split; [now rewrite B3, A3, app_assoc|]. split.
  - apply Forall_app. split.
    + eapply Forall_impl; [|exact B4]. intros x; cbn; lia.
    + destruct A4 as [[_ ->]|(v & c' & _ & -> & A4 & _)]; constructor; cbn; [lia|]. eapply Forall_impl; [|exact A4]. intros x; cbn; lia.
  - intros j HJ. rewrite lookup_app. destruct j as [|j].
    + rewrite Nat.add_0_r. rewrite lookup_high by (eapply Forall_impl; [|exact B4]; intros x; cbn; lia).
      cbn [nth]. destruct A4 as [[-> ->]|(v & c' & -> & -> & _)]; [reflexivity|]. cbn. now rewrite Nat.eqb_refl.
    + replace (g + S j) with (S g + j) by lia. rewrite B5 by lia. cbn [nth]. destruct (nth j gs None); auto.
      destruct A4 as [[_ ->]|(v & c' & _ & -> & _ & [-> | ->])]; [reflexivity| |lia]. cbn.
      replace (g =? S (g + j))%nat with false; auto. symmetry. apply Nat.eqb_neq. lia.
Qed.
Lemma splits_end g : splits REnd g 0 (fun gs t => gs = [] /\ t = []).
Proof.
  intros s s' (H & ->). split; auto. exists [], []. repeat split; auto. intros; lia.
Qed.
Lemma splits_lits kw tail g n F : splits tail g n F ->
  splits (lits_re kw tail) g n (fun gs t => exists u t', t = u ++ t' /\ Forall2 (fun c x => inset (lit_set true c) x = true) kw u /\ F gs t').
Proof.
  intros HT. induction kw as [|c kw IH]; intros s s' H.
  - destruct (HT _ _ H) as (A & gs & d & B1 & B2 & B3). split; auto. exists gs, d. split; auto. split; auto.
    exists [], (rest s). auto.
  - cbn [lits_re fold_right] in H. destruct H as (s1 & (x & t & E & I & ->) & H). fold (lits_re kw tail) in H.
    destruct (IH _ _ H) as (A & gs & d & B1 & (u & t' & B2 & B3 & B4) & B5). cbn [rest caps] in *. split; auto. exists gs, d. split; auto. split; auto.
    exists (x :: u), t'. rewrite E, B2. auto.
Qed.

Definition text_of (og : option str) (u : str) : Prop := u = or_nil og.
Definition desig_of (og : option str) (u : str) : Prop := u = match og with Some v => ":" :: v | None => [] end.

Lemma part_group o g a last : plain a = true -> groups_above g a = true -> (nocap a = true \/ last) ->
  part (opt_re o (RGrp g a)) g last text_of.
Proof.
  intros PL GA NC s s' H.
  assert (P : plain (opt_re o (RGrp g a)) = true) by (destruct o; exact PL).
  apply M_W in H as (u & c & HW & A & _ & C); auto.
  assert (HG : forall u c, W (RGrp g a) u c -> exists c', c = (g, u) :: c' /\ above g c' /\ (c' = [] \/ last)).
  { intros u0 c0 (c' & HW' & ->). exists c'. split; auto. split; [eapply W_above; eauto|]. destruct NC; auto. left. eapply W_nocap; eauto. }
  destruct o.
  - cbn [opt_re W] in HW. destruct HW as (l & HF & _ & HL & EU & EC). cbn in HL.
    destruct l as [|[u1 c1] [|? l]]; [| |cbn in HL; lia].
    + exists None, [], []. cbn in *. subst. repeat split; auto.
    + cbn [map fst snd rev app concat] in *. rewrite app_nil_r in *. subst. inversion HF as [|? ? H1 _]; subst. cbn [fst snd] in H1.
      exists (Some u1), c1, u1. repeat split; auto. right. destruct (HG _ _ H1) as (c' & E1 & E2 & E3). exists u1, c'. auto.
  - exists (Some u), c, u. repeat split; auto. right. destruct (HG _ _ HW) as (c' & E1 & E2 & E3). exists u, c'. auto.
Qed.
Lemma chr_W ch u c : W (chr_re ch) u c -> u = [ch] /\ c = [].
Proof.
  intros (x & -> & I & ->). split; auto. unfold inset, chr_re in I. cbn in I. rewrite ?orb_false_r in I.
  destruct ((code ch <=? code x)%N && (code x <=? code ch)%N)%bool eqn:I0; [|discriminate].
  repeat match goal with H : (_ && _)%bool = true |- _ => apply andb_prop in H as [? ?] end.
  repeat match goal with H : (_ <=? _)%N = true |- _ => apply N.leb_le in H end. f_equal.
  rewrite <- (ascii_N_embedding x), <- (ascii_N_embedding ch). f_equal. unfold code in *. lia.
Qed.
Lemma part_desig g last : part (RRep false 0 (Some 1) (RCat (chr_re ":") (RGrp g nonblank_re))) g last desig_of.
Proof.
  intros s s' H. apply M_W in H as (u & c & HW & A & _ & C); [|reflexivity].
  cbn [W] in HW. destruct HW as (l & HF & _ & HL & EU & EC). cbn in HL.
  destruct l as [|[u1 c1] [|? l]]; [| |cbn in HL; lia].
  - exists None, [], []. cbn in *. subst. repeat split; auto.
  - cbn [map fst snd rev app concat] in *. rewrite app_nil_r in *. subst. inversion HF as [|? ? H1 _]; subst. cbn [fst snd] in H1.
    destruct H1 as (v1 & v2 & d1 & d2 & W1 & W2 & -> & ->). apply chr_W in W1 as [-> ->].
    destruct W2 as (c' & W2 & ->).
    assert (X : c' = []) by (eapply W_nocap; [|exact W2]; reflexivity). subst c'.
    exists (Some v2), [(g, v2)], ([":"] ++ v2). repeat split; auto. right. exists v2, []. repeat split; auto. constructor.
Qed.
Lemma part_desig1 g last : part (RCat (chr_re ":") (RGrp g nonblank_re)) g last desig_of.
Proof.
  intros s s' H. apply M_W in H as (u & c & HW & A & _ & C); [|reflexivity].
  destruct HW as (v1 & v2 & d1 & d2 & W1 & W2 & -> & ->). apply chr_W in W1 as [-> ->].
  destruct W2 as (c' & W2 & ->).
  assert (X : c' = []) by (eapply W_nocap; [|exact W2]; reflexivity). subst c'.
  exists (Some v2), [(g, v2)], ([":"] ++ v2). repeat split; auto. right. exists v2, []. repeat split; auto. constructor.
Qed.

Lemma field_group a g : exists b, field_re g a = RGrp g b /\
  (word_ty (ty_of a) = true -> plain b = true /\ groups_above g b = true /\ nocap b = nocap (ty_re (ty_of a))).
Proof.
  destruct a as [t|t]; cbn [field_re ty_of]; eexists; (split; [reflexivity|]); intros HT; destruct (ty_re_word t HT) as (A & _ & B & _);
    cbn [plain groups_above nocap chr_re]; rewrite plain_shift, nocap_shift, groups_shift by exact B; auto.
Qed.
Lemma nocap_ty t : word_ty t = true -> has_groups t = false -> nocap (ty_re t) = true.
Proof. destruct t; try discriminate; intros; vm_compute; reflexivity. Qed.

Definition fields_text (gs : list (option str)) (t : str) : Prop := t = concat (map or_nil gs).
Lemma splits_fields l : forall g, fields_ok l = true -> splits (fields_re g l) g (length l) fields_text.
Proof.
  induction l as [|[a o] l IH]; intros g HO.
  - intros s s' H. destruct (splits_end g s s' H) as (A & gs & c & B1 & (-> & B2) & B3). split; auto. exists [], c. auto.
  - assert (HT : word_ty (ty_of a) = true) by (pose proof (fields_word _ HO) as X; inversion X; auto).
    assert (HC : nocap (ty_re (ty_of a)) = true \/ length l = 0).
    { destruct l as [|y l]; [now right|left]. cbn [fields_ok] in HO. destruct a as [t|t]; [|discriminate].
      apply andb_prop in HO as [HO _]. apply andb_prop in HO as [_ HO]. apply negb_true_iff in HO. now apply nocap_ty. }
    assert (HO' : fields_ok l = true).
    { destruct l as [|y l]; [reflexivity|]. cbn [fields_ok] in HO. destruct a as [t|t]; [|discriminate].
      now apply andb_prop in HO as [_ HO]. }
    destruct (field_group a g) as (b & E & HB). specialize (HB HT) as (P1 & P2 & P3).
    cbn [fields_re length]. rewrite E. intros s s' H.
    destruct (splits_cons _ g (length l) _ text_of fields_text (part_group o g b (length l = 0) P1 P2 ltac:(rewrite P3; exact HC)) (IH (S g) HO') s s' H)
      as (A & gs & c & B1 & (og & gs' & u & t' & -> & B2 & B4 & B5) & B3).
    split; auto. exists (og :: gs'), c. split; auto. split; auto. unfold fields_text in *. rewrite B2, B4, B5. reflexivity.
Qed.


Lemma splits_weaken r g n (F F' : list (option str) -> str -> Prop) : splits r g n F -> (forall gs t, length gs = n -> F gs t -> F' gs t) -> splits r g n F'.
Proof. intros H HI s s' HM. destruct (H s s' HM) as (A & gs & c & B1 & B2 & B3). split; auto. exists gs, c. auto. Qed.

Section HeadSplit.
  Variables (kw : str) (f : form).
  Hypothesis HO : fields_ok (f_fields f) = true.
  Let nf := length (f_fields f).

  Definition d_text (hd : list (option str)) (fs : list (option str)) (t : str) : Prop :=
    length hd = present (f_desig f) /\ length fs = nf /\
    t = match hd with Some v :: _ => ":" :: v | _ => [] end ++ concat (map or_nil fs).
  Lemma splits_d n2 : splits (tail_d f n2) n2 (present (f_desig f) + nf) (fun gs t => exists hd fs, gs = hd ++ fs /\ d_text hd fs t).
  Proof.
    unfold tail_d, d_text. destruct (f_desig f) as [[]|] eqn:ED; cbn [present Nat.add].
    - eapply splits_weaken; [apply splits_cons; [apply (part_desig n2)|]; rewrite Nat.add_1_r; apply splits_fields, HO|].
      intros gs t HL (og & gs' & u & t' & -> & -> & H1 & H2). exists [og], gs'. cbn in HL. injection HL as HL. repeat split; auto.
      unfold desig_of in H1. now rewrite H1, H2.
    - assert (X : splits (RCat (RCat (chr_re ":") (RGrp n2 nonblank_re)) (fields_re (n2 + 1) (f_fields f))) n2 (S nf)
        (fun gs t => exists hd fs, gs = hd ++ fs /\ length hd = 1 /\ length fs = nf /\
           t = match hd with Some v :: _ => ":" :: v | _ => [] end ++ concat (map or_nil fs))).
      { eapply splits_weaken; [apply splits_cons; [apply (part_desig1 n2)|]; rewrite Nat.add_1_r; apply splits_fields, HO|].
        intros gs t HL (og & gs' & u & t' & -> & -> & H1 & H2). exists [og], gs'. cbn in HL. injection HL as HL. repeat split; auto.
        unfold desig_of in H1. now rewrite H1, H2. }
      intros s s' (s0 & H0 & s1 & H1 & H2). apply (X s s'). exists s1. split; auto. exists s0. auto.
    - eapply splits_weaken; [rewrite Nat.add_0_r; apply splits_fields, HO|].
      intros gs t HL H. exists [], gs. auto.
  Qed.
  Definition s_text (hs hd : list (option str)) (fs : list (option str)) (t : str) : Prop :=
    length hs = present (f_suffix f) /\
    exists t', t = match hs with Some v :: _ => v | _ => [] end ++ t' /\ d_text hd fs t'.
  Lemma splits_s n1 : splits (tail_s f n1) n1 (present (f_suffix f) + (present (f_desig f) + nf))
    (fun gs t => exists hs hd fs, gs = hs ++ hd ++ fs /\ s_text hs hd fs t).
  Proof.
    unfold tail_s, s_text. destruct (f_suffix f) as [o|] eqn:ES; cbn [present Nat.add].
    - eapply splits_weaken; [apply splits_cons; [apply (part_group o n1 digits_re _ eq_refl eq_refl (or_introl eq_refl))|]; rewrite Nat.add_1_r; apply splits_d|].
      intros gs t HL (og & gs' & u & t' & -> & -> & H1 & hd & fs & -> & H2). exists [og], hd, fs. repeat split; auto.
      exists t'. split; auto. f_equal. exact H1.
    - eapply splits_weaken; [rewrite Nat.add_0_r; apply splits_d|]. intros gs t HL (hd & fs & -> & H). exists [], hd, fs. repeat split; auto.
      exists t. auto.
  Qed.
  Lemma splits_body : splits (body kw f) 1 (length (p_part f) + (present (f_suffix f) + (present (f_desig f) + nf)))
    (fun gs t => exists hp hs hd fs kw', gs = hp ++ hs ++ hd ++ fs /\ length hp = length (p_part f) /\
       Forall2 (fun c x => inset (lit_set true c) x = true) kw kw' /\
       exists t', t = match hp with Some v :: _ => v | _ => [] end ++ kw' ++ t' /\ s_text hs hd fs t').
  Proof.
    unfold body, p_part. destruct (f_prefix f) eqn:EP; cbn [length Nat.add].
    - eapply splits_weaken; [apply splits_cons; [apply (part_group true 1 (chr_re "*") _ eq_refl eq_refl (or_introl eq_refl))|]; apply splits_lits, splits_s|].
      intros gs t HL (og & gs' & u & t' & -> & -> & H1 & kw' & t'' & -> & H2 & hs & hd & fs & -> & H3).
      exists [og], hs, hd, fs, kw'. repeat split; auto. exists t''. split; auto. f_equal. exact H1.
    - eapply splits_weaken; [apply splits_lits, splits_s|].
      intros gs t HL (kw' & t' & -> & H2 & hs & hd & fs & -> & H3). exists [], hs, hd, fs, kw'. repeat split; auto. exists t'. auto.
  Qed.
End HeadSplit.

Lemma lits_lower kw u : forallb kw_char kw = true -> Forall2 (fun c x => inset (lit_set true c) x = true) kw u -> slower u = slower kw.
Proof.
  intros HK H. induction H as [|c x kw u H HF IH]; auto. cbn [forallb] in HK. apply andb_prop in HK as [K1 K2].
  cbn [slower map]. f_equal; [now apply lit_lower|]. now apply IH.
Qed.

Lemma read_attrs_inv ext l : forall i mo vs, read_attrs ext i l mo = Ok vs ->
  Forall2 (fun x v => read_attr ext (a_ty (fst x)) (snd x) = Ok v) (combine l (map (fun j => group j mo) (seq i (length l)))) vs.
Proof.
  induction l as [|a l IH]; intros i mo vs H; cbn [read_attrs length seq map combine] in *.
  - injection H as <-. constructor.
  - destruct (read_attr ext (a_ty a) (group i mo)) eqn:E; try discriminate. cbn [bind] in H.
    destruct (read_attrs ext (S i) l mo) eqn:E2; try discriminate. injection H as <-. constructor; auto.
Qed.

(** Reading a text of a class of the regular form. *)
Lemma regular_read ext fam c f t mo o : has_form c f -> re_match (compile true (c_pat c)) t = Some mo -> read_cls ext fam c mo = Ok o ->
  exists kw hs fs vs, slower kw = slower (c_kw c) /\ length hs = length (head_parts f) /\ length fs = length (f_fields f) /\
    t = assembled f kw hs fs /\
    Forall2 (fun x v => read_attr ext (a_ty (fst x)) (snd x) = Ok v) (combine (c_attrs c) (hs ++ fs)) vs /\
    construct ext fam c (map to_arg vs) = Ok o.
Proof.
  intros (HP & (ha & fa & HA & HH & HFT & HFN) & HND & HO & HKN & HK) HM HR.
  rewrite HP, form_body in HM. unfold re_match, match_at in HM.
  destruct (m _ _ _) as [s'|] eqn:E; [|discriminate]. injection HM as <-.
  apply m_sound in E as (s2 & (s1 & [_ ->] & HM) & [= ->]).
  destruct (splits_body (c_kw c) f HO _ _ HM) as (HE & gs & cp & HL & (hp & hs & hd & fs & kw' & -> & L1 & HW & t' & ET & L2 & t2 & ET2 & L3 & L4 & ET3) & HC & _ & HG).
  cbn [rest caps] in *. rewrite app_nil_r in HC.
  exists kw', (hp ++ hs ++ hd), fs.
  unfold read_cls in HR. destruct (read_attrs ext 1 (c_attrs c) _) as [vs| |] eqn:ER; try discriminate. cbn [bind] in HR.
  exists vs. assert (LH : length (hp ++ hs ++ hd) = length (head_parts f)).
  { rewrite head_parts_eq, !app_length, L1, L2, L3. unfold s_part, d_part. destruct (f_suffix f), (f_desig f); reflexivity. }
  split; [now apply lits_lower|]. split; [exact LH|]. split; [exact L4|]. split; [|split; [|exact HR]].
  - rewrite ET, ET2, ET3. unfold assembled. rewrite !app_assoc. f_equal. unfold head_text.
    rewrite head_parts_eq. unfold p_part, s_part, d_part in *.
    destruct (f_prefix f), (f_suffix f) as [q|], (f_desig f) as [q'|]; cbn [length present] in *;
    destruct hp as [|hp [|? ?]]; try discriminate; destruct hs as [|hs [|? ?]]; try discriminate; destruct hd as [|hd [|? ?]]; try discriminate;
    cbn; rewrite ?app_nil_r; try destruct hp; try destruct hs; try destruct hd; cbn; rewrite ?app_nil_r, <- ?app_assoc; reflexivity.
  - apply read_attrs_inv in ER. 
    match type of ER with Forall2 _ (combine _ ?x) _ => replace ((hp ++ hs ++ hd) ++ fs) with x; [exact ER|] end.
    assert (LA : length (c_attrs c) = length ((hp ++ hs ++ hd) ++ fs)).
    { rewrite HA, (app_length ha fa), (app_length _ fs), LH, L4. rewrite <- (map_length (fun a => (a_name a, a_ty a)) ha), HH, map_length.
      now rewrite <- (map_length a_ty fa), HFT, map_length. }
    apply nth_ext with (d := None) (d' := None); [now rewrite map_length, seq_length|].
    intros j HJ. rewrite map_length, seq_length in HJ.
    match goal with |- context [map ?F _] => rewrite (nth_indep _ None (F 0)), (map_nth F) by (rewrite map_length, seq_length; lia) end.
    rewrite seq_nth by lia. unfold group. cbn [Nat.add mcaps]. rewrite HC. etransitivity; [apply (HG j)|now rewrite <- !app_assoc].
    rewrite <- HL, !app_length. rewrite !app_length in LA. lia.
Qed.
