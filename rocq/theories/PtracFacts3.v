(** I, N, V and L lines. *)

From Coq Require Import Ascii String NArith ZArith Bool Arith List Lia.
From Verif Require Import PyStr Regex RegexParse RegexFacts RegexLang PyNum PyNumFacts Types TypesSpec TypesFacts TypesFacts2 TypesFacts3 TypesFacts4 CardsFacts CardsFacts2 CardsFacts7 Ptrac PtracSpec PtracFacts PtracFacts2.
Import ListNotations.
Open Scope char_scope.

(** A text that can be read is read, in some way. *)
Lemma match_ex r s c : plain r = true -> accc r s c ->
  exists o, re_match (whole r) s = Some o /\ mtext o = s /\ W r s (mcaps o).
Proof.
  intros PL HA. destruct (re_match (whole r) s) as [o|] eqn:E.
  - exists o. split; auto. now apply match_whole_inv.
  - exfalso. unfold re_match, match_at in E.
    destruct (m (whole r) (mkst [] s []) Some) eqn:EM; [discriminate|].
    eapply (m_complete _ (whole r) (mkst [] s []) (mkst (rev s ++ []) [] (c ++ [])) Some); auto; [|discriminate].
    cbn. exists (mkst [] s []). split; auto. apply M_snoc_end. split; auto.
    specialize (HA [] [] []). rewrite app_nil_r in HA. exact HA.
Qed.

(** ** I lines *)

Definition opt (a : re) : re := RRep false 0 (Some 1) a.
Definition r_i : re := RCat (RSet cs_ws) (RCat (cell 1 10) (RCat (cell 2 10) (RCat (opt (cell 3 10)) (opt (cell 4 13))))).
Lemma re_i_line : re_i = whole r_i.
Proof. vm_compute. reflexivity. Qed.

Definition ocap (i : nat) (o : option str) : capl := match o with Some u => [(i, u)] | None => [] end.
Definition otext (o : option str) : str := match o with Some u => u | None => [] end.
Definition ofield (w : nat) (o : option str) : Prop := match o with Some u => field w u | None => True end.

Lemma W_opt_cell i w u c : W (opt (cell i w)) u c -> exists o, ofield w o /\ u = otext o /\ c = ocap i o.
Proof.
  intros H. apply W_opt in H as [[-> ->]|H]; [now exists None|].
  apply W_cell in H as (A & B & ->). exists (Some u). repeat split; auto.
Qed.
Lemma accc_opt_cell i w o : 0 < w -> ofield w o -> accc (opt (cell i w)) (otext o) (ocap i o).
Proof.
  intros HW H. destruct o as [u|]; [|apply accc_opt_none]. destruct H as [A B].
  apply accc_opt_some; [now apply accc_cell|]. destruct u; [cbn in A; lia|discriminate].
Qed.

Lemma match_i a b o1 o2 : field 10 a -> field 10 b -> ofield 10 o1 -> ofield 13 o2 ->
  re_match re_i (sp :: a ++ b ++ otext o1 ++ otext o2)
  = Some {| mpre := []; mtext := sp :: a ++ b ++ otext o1 ++ otext o2; mrest := [];
            mcaps := ocap 4 o2 ++ ocap 3 o1 ++ [(2, b); (1, a)] |}.
Proof.
  intros Ha Hb H1 H2. rewrite re_i_line. apply match_whole; [reflexivity| |].
  - destruct Ha as [A1 A2], Hb as [B1 B2]. unfold r_i.
    pose proof (accc_opt_cell 3 10 o1 ltac:(lia) H1) as R1.
    pose proof (accc_opt_cell 4 13 o2 ltac:(lia) H2) as R2.
    pose proof (accc_cat _ _ _ _ _ _ R1 R2) as R3.
    pose proof (accc_cat _ _ _ _ _ _ (accc_cell 2 10 b B1 B2) R3) as R4.
    pose proof (accc_cat _ _ _ _ _ _ (accc_cell 1 10 a A1 A2) R4) as R5.
    pose proof (accc_cat _ _ _ _ _ _ (accc_set cs_ws sp eq_refl) R5) as R6.
    eapply accc_ext; [exact R6|reflexivity|]. now rewrite app_nil_r, <- !app_assoc.
  - intros c HW. unfold r_i in HW.
    destruct HW as (u0 & t0 & c0 & d0 & (x & -> & _ & ->) & HW & E0 & ->).
    destruct HW as (u1 & t1 & c1 & d1 & HA & HW & -> & ->). apply W_cell in HA as (A1 & A2 & ->).
    destruct HW as (u2 & t2 & c2 & d2 & HA & HW & -> & ->). apply W_cell in HA as (B1 & B2 & ->).
    destruct HW as (u3 & u4 & c3 & c4 & HA & HB & -> & ->).
    apply W_opt_cell in HA as (q1 & Q1 & -> & ->). apply W_opt_cell in HB as (q2 & Q2 & -> & ->).
    cbn [app] in E0. inversion E0 as [[Ex E]].
    destruct Ha as [La _], Hb as [Lb _].
    apply app_inj_len in E as [-> E]; [|congruence]. apply app_inj_len in E as [-> E]; [|congruence].
    assert (EL : length (otext o1 ++ otext o2) = length (otext q1 ++ otext q2)) by now rewrite E.
    rewrite !app_length in EL.
    assert (L1 : forall w o, ofield w o -> length (otext o) = match o with Some _ => w | None => 0 end)
      by (intros w [u|]; cbn; [intros [? _]; auto|auto]).
    rewrite (L1 10 o1), (L1 13 o2), (L1 10 q1), (L1 13 q2) in EL by auto.
    assert (E1 : o1 = q1 /\ o2 = q2).
    { destruct o1, o2, q1, q2; try lia; cbn [otext] in E; rewrite ?app_nil_r in E; cbn [app] in E; try (subst; auto; fail).
      destruct H1 as [M1 _], Q1 as [M2 _]. apply app_inj_len in E as [-> ->]; [auto|congruence]. }
    destruct E1 as [-> ->]. now rewrite app_nil_r, <- !app_assoc.
Qed.

Definition i_number_field (i : idata) : option str := option_map (int_field 10) (id_number i).
Definition i_tfc_field (i : idata) : option str := option_map (P_field 5) (id_tfc i).
Lemma i_text_fields i : i_text i = sp :: int_field 10 (id_nps i) ++ rjust 10 (id_type i) ++ otext (i_number_field i) ++ otext (i_tfc_field i).
Proof. unfold i_text, i_number_field, i_tfc_field. destruct (id_number i), (id_tfc i); reflexivity. Qed.
Lemma i_fields_ok i : i_data_ok i -> field 10 (int_field 10 (id_nps i)) /\ field 10 (rjust 10 (id_type i)) /\
  ofield 10 (i_number_field i) /\ ofield 13 (i_tfc_field i).
Proof.
  intros (HN & HT & HC & HR). apply code_length in HT as [T1 T2]. repeat split.
  - now apply int_field_length.
  - apply int_field_notnl.
  - now apply rjust_length.
  - now apply rjust_notnl.
  - unfold i_number_field. destruct (id_number i); cbn [option_map ofield]; auto. split; [now apply int_field_length|apply int_field_notnl].
  - unfold i_tfc_field. destruct (id_tfc i); cbn [option_map ofield]; auto. split; [now rewrite P_field_length|now apply P_field_notnl].
Qed.

Theorem i_read i : i_data_ok i -> i_from_mcnp (i_text i) = Ok (i_value i).
Proof.
  intros H. destruct (i_fields_ok i H) as (F1 & F2 & F3 & F4).
  unfold i_from_mcnp. rewrite i_text_fields, match_i by auto. destruct H as (HN & HT & HC & HR).
  assert (G : forall k, group (S k) {| mpre := []; mtext := sp :: int_field 10 (id_nps i) ++ rjust 10 (id_type i) ++ otext (i_number_field i) ++ otext (i_tfc_field i);
      mrest := []; mcaps := ocap 4 (i_tfc_field i) ++ ocap 3 (i_number_field i) ++ [(2, rjust 10 (id_type i)); (1, int_field 10 (id_nps i))] |}
    = lookup (S k) (ocap 4 (i_tfc_field i) ++ ocap 3 (i_number_field i) ++ [(2, rjust 10 (id_type i)); (1, int_field 10 (id_nps i))])) by reflexivity.
  unfold grp. rewrite !G. clear G.
  assert (G : forall k, lookup k (ocap 4 (i_tfc_field i) ++ ocap 3 (i_number_field i) ++ [(2, rjust 10 (id_type i)); (1, int_field 10 (id_nps i))])
    = match k with 1 => Some (int_field 10 (id_nps i)) | 2 => Some (rjust 10 (id_type i)) | 3 => i_number_field i | 4 => i_tfc_field i | _ => None end).
  { intros k. destruct (i_tfc_field i), (i_number_field i); do 5 (destruct k as [|k]; [reflexivity|]); reflexivity. }
  rewrite !G. rewrite int_field_int by (auto; lia). cbn [bind].
  rewrite event_type_rt; auto; [|now apply code_length in HT as [A _]]. cbn [bind].
  assert (O1 : opt_field integer_from_mcnp (i_number_field i) = Ok (option_map IVal (id_number i))).
  { unfold opt_field, i_number_field. destruct (id_number i) as [z|]; [|reflexivity]. cbn [option_map].
    assert (NE : truthy (Some (int_field 10 z)) = Some (int_field 10 z)).
    { pose proof (int_field_length 10 z HC). now destruct (int_field 10 z). }
    rewrite NE, int_field_int by (auto; lia). reflexivity. }
  assert (O2 : opt_field real_from_mcnp (i_tfc_field i) = Ok (option_map (sci_value 5) (id_tfc i))).
  { unfold opt_field, i_tfc_field. destruct (id_tfc i) as [z|]; [|reflexivity]. cbn [option_map].
    assert (NE : truthy (Some (P_field 5 z)) = Some (P_field 5 z)) by reflexivity.
    rewrite NE, P_field_real by (auto; lia). reflexivity. }
  rewrite O1. cbn [bind]. rewrite O2. reflexivity.
Qed.

Theorem i_write i : i_data_ok i -> i_nonzero i -> i_to_mcnp (i_value i) = Ok (i_text i).
Proof.
  intros (HN & HT & HC & HR) [Z1 Z2]. unfold i_to_mcnp, i_value. cbn [tfc inumber nps event_type].
  assert (E1 : match option_map (sci_value 5) (id_tfc i) with
        | None => Ok []
        | Some r => bind (real_bool r) (fun b => if b then bind (real_format 5 0 r) (fun t => Ok (sp :: t)) else Ok [])
        end = Ok (match id_tfc i with Some x => P_field 5 x | None => [] end)).
  { destruct (id_tfc i) as [x|]; [|reflexivity]. cbn [option_map]. unfold sci_value at 1. cbn [real_bool bind].
    apply N.eqb_neq in Z2. rewrite Z2. cbn [negb]. rewrite P_format by (auto; lia). reflexivity. }
  rewrite E1. cbn [bind].
  assert (E2 : match option_map IVal (id_number i) with
        | None => Ok []
        | Some n => bind (int_bool n) (fun b => Ok (if b then rjust 10 (integer_to_mcnp n) else []))
        end = Ok (match id_number i with Some z => int_field 10 z | None => [] end)).
  { destruct (id_number i) as [z|]; [|reflexivity]. cbn [option_map int_bool bind].
    assert (NZ : z <> 0%Z) by congruence. apply Z.eqb_neq in NZ. rewrite NZ. reflexivity. }
  rewrite E2. reflexivity.
Qed.

(** ** N line *)

Definition r_n : re := RCat (RSet cs_ws) (cells 1 5 20 (RSet cs_nl)).
Lemma re_n_line : re_n = whole r_n.
Proof. vm_compute. reflexivity. Qed.

Theorem n_read l : n_data_ok l -> n_from_mcnp (n_text l) = Ok (n_value l).
Proof.
  intros [HL HF]. unfold n_from_mcnp. rewrite re_n_line.
  assert (FF : Forall (field 5) (map (int_field 5) l)).
  { apply Forall_map. revert HF. apply Forall_impl. intros z Hz. split; [now apply int_field_length|apply int_field_notnl]. }
  assert (LL : length (map (int_field 5) l) = 20) by now rewrite map_length.
  assert (E : re_match (whole r_n) (n_text l) = Some {| mpre := []; mtext := n_text l; mrest := []; mcaps := caps_of 1 (map (int_field 5) l) |}).
  { apply match_whole; [reflexivity| |].
    - pose proof (accc_cells 5 (RSet cs_nl) (map (int_field 5) l) [nl] [] FF (accc_set cs_nl nl eq_refl) 1) as A.
      rewrite LL in A. pose proof (accc_cat _ _ _ _ _ _ (accc_set cs_ws sp eq_refl) A) as B.
      eapply accc_ext; [exact B|reflexivity|]. apply app_nil_r.
    - intros c HW. destruct HW as (u0 & t0 & c0 & d0 & (x & -> & _ & ->) & HW & E0 & ->).
      apply W_cells in HW as (us & v & d & U1 & U2 & (y & -> & Hy & ->) & -> & ->).
      unfold n_text in E0. cbn [app] in E0. inversion E0 as [[Ex E]].
      apply fields_unique with (w := 5) in E as [<- _]; auto; [|congruence]. now rewrite app_nil_r. }
  rewrite E. eapply read_fields_caps with (us := map (int_field 5) l); try reflexivity.
  - now rewrite LL.
  - rewrite <- HL. unfold n_value. clear - HF. induction HF as [|z l Hz HF IH]; cbn [map length repeat combine]; constructor; auto.
    cbn [fst snd]. unfold fval_from_mcnp. now rewrite int_field_int by (auto; lia).
  - unfold n_value. rewrite map_length, repeat_length. exact HL.
  - intros j Hj. cbn [Nat.add group mcaps]. now rewrite (lookup_caps 1).
Qed.
Lemma n_write l : n_to_mcnp (n_value l) = n_text l.
Proof. unfold n_to_mcnp, n_value, n_text. rewrite map_map. reflexivity. Qed.

(** ** Scanning numbers separated by blanks and line ends *)

Definition gapc (c : ascii) : Prop := c = sp \/ c = nl.
Definition wnd (t : str) : Prop := t = [] \/ exists c t', t = c :: t' /\ gapc c.

Lemma no_digm' w t p cp A (k : st -> option A) :
  allc (fun c => negb (inset (cs_ic 109 77) c)) w -> wnd t ->
  m (RCat (RRep false 0 None (RSet cs_dig)) (one_letter 109 77)) (mkst p (w ++ t) cp) k = None.
Proof.
  intros Hw Ht. apply m_none. intros s' HM. exfalso.
  apply M_W in HM as (u & c & HW & E & _ & _); [|reflexivity]. cbn [rest] in E.
  destruct HW as (u1 & u2 & c1 & c2 & H1 & (x & -> & Hx & ->) & -> & ->).
  apply W_rep_set in H1 as (A1 & _ & _ & ->).
  assert (HA : allc (fun c => negb (ceqb c sp || ceqb c nl)) (u1 ++ [x])).
  { apply allc_app. split.
    - revert A1. apply allc_impl. vm_compute. reflexivity.
    - constructor; [|constructor].
      pose proof (all_ascii (fun c => implb (inset (cs_ic 109 77) c) (negb (ceqb c sp || ceqb c nl))) eq_refl x) as Q.
      cbv beta in Q. now rewrite Hx in Q. }
  assert (HI : In x w).
  { rewrite <- app_assoc in E. clear - E Ht HA. revert w E. induction u1 as [|a u1 IH]; intros w E.
    - destruct w as [|b w]; cbn [app] in E; [|inversion E; subst; now left].
      destruct Ht as [->|(g & t' & -> & [->| ->])]; [discriminate| |]; inversion E; subst;
      inversion HA; subst; discriminate.
    - destruct w as [|b w]; cbn [app] in E.
      + destruct Ht as [->|(g & t' & -> & [->| ->])]; [discriminate| |]; inversion E; subst; inversion HA; subst; discriminate.
      + inversion E; subst. right. inversion HA; subst. apply IH; auto. }
  unfold allc in Hw. rewrite Forall_forall in Hw. apply Hw in HI. rewrite Hx in HI. discriminate.
Qed.

Lemma wnd_out (P : ascii -> bool) t : P sp = false -> P nl = false -> wnd t -> t = [] \/ exists c t', t = c :: t' /\ P c = false.
Proof. intros H H' [->|(c & t' & -> & [->| ->])]; [now left|right; eauto|right; eauto]. Qed.

Lemma reads_plain' w p t : plain_number w -> wnd t ->
  match_at r_number p (w ++ t) = Some {| mpre := p; mtext := w; mrest := t; mcaps := [] |}.
Proof.
  intros (c & w' & -> & Hc & Hw) Ht.
  pose proof (all_ascii (fun c => implb (is_digit c || ceqb c "-")
     (negb (inset (cs_ic 106 74) c) && negb (inset (cs_ic 108 76) c) && negb (inset (cs_ic 105 73) c)
      && negb (inset (cs_ic 114 82) c) && inset cs_num1 c && negb (inset (cs_ic 109 77) c))) eq_refl c) as Q.
  cbv beta in Q. rewrite Hc in Q. cbn [implb] in Q.
  repeat (apply andb_prop in Q; destruct Q as [Q ?]). rewrite negb_true_iff in *.
  unfold match_at.
  assert (E : m r_number (mkst p ((c :: w') ++ t) []) Some = Some (mkst (rev (c :: w') ++ p) t [])).
  { unfold r_number.
    change (m (RAlt (one_letter 106 74) ?x) ?s ?k) with
      (match m (one_letter 106 74) s k with Some y => Some y | None => m x s k end).
    cbn [m rest pre caps app r_log r_ilog].
    rewrite Q, ?H, ?H0, ?H1, ?H2, ?H3.
    pose proof (no_digm' (c :: w') t p [] _ (@Some st)) as ND. cbn [m app] in ND.
    rewrite ND; auto.
    2:{ constructor; [now rewrite H|]. revert Hw. apply allc_impl. vm_compute. reflexivity. }
    unfold r_numrun. cbn [m rest pre caps]. rewrite H0.
    pose proof (m_star_run _ cs_num (@Some st) w' t (c :: p) [] (mkst (rev (c :: w') ++ p) t [])) as R.
    cbn [m] in R. apply R.
    - revert Hw. apply allc_impl. vm_compute. reflexivity.
    - now apply wnd_out.
    - cbn [rev]. now rewrite <- app_assoc. }
  rewrite E. cbn [rest caps]. now rewrite firstn_text.
Qed.

Inductive scans : str -> list str -> Prop :=
| sc_nil : scans [] []
| sc_gap c t ws : gapc c -> scans t ws -> scans (c :: t) ws
| sc_word w t ws : plain_number w -> wnd t -> scans t ws -> scans (w ++ t) (w :: ws).

Lemma scans_finditer t ws : scans t ws -> forall fuel p, length t < fuel -> map mtext (finditer_f fuel r_number p t) = ws.
Proof.
  induction 1 as [|c t ws G H IH|w t ws HP HW H IH]; intros fuel p HL; (destruct fuel as [|f]; [lia|]).
  - reflexivity.
  - assert (E : search r_number p (c :: t) = search r_number (c :: p) t).
    { cbn [search]. assert (N : match_at r_number p (c :: t) = None) by (destruct G as [->| ->]; reflexivity). now rewrite N. }
    cbn [finditer_f]. rewrite E. change (map mtext (finditer_f (S f) r_number (c :: p) t) = ws).
    apply IH. cbn in HL. lia.
  - cbn [finditer_f].
    assert (ES : search r_number p (w ++ t) = Some {| mpre := p; mtext := w; mrest := t; mcaps := [] |}).
    { pose proof (reads_plain' w p t HP HW) as R. destruct (w ++ t); cbn [search]; now rewrite R. }
    rewrite ES. cbn [mtext mrest mpre]. destruct w as [|a w]; [destruct HP as (? & ? & ? & _); discriminate|].
    cbn [map mtext]. f_equal. apply IH. rewrite app_length in HL. cbn in HL. lia.
Qed.

Lemma mapM_mtext {A} (conv : str -> result A) os : mapM (fun o => conv (mtext o)) os = mapM conv (map mtext os).
Proof. induction os as [|o os IH]; auto. cbn [mapM map]. now rewrite IH. Qed.
Lemma scans_tuple {A} (conv : str -> result A) t ws : scans t ws -> tuple_from_mcnp pat_number conv t = mapM conv ws.
Proof.
  intros H. unfold tuple_from_mcnp. rewrite mapM_mtext, number_pat. f_equal. apply scans_finditer; auto.
Qed.
Lemma mapM_ok {A B C} (f : B -> result C) (g : A -> B) (h : A -> C) l : (forall x, In x l -> f (g x) = Ok (h x)) ->
  mapM f (map g l) = Ok (map h l).
Proof.
  induction l as [|x l IH]; intros H; auto. cbn [map mapM]. rewrite H by now left. cbn [bind].
  rewrite IH; auto. intros y Hy. apply H. now right.
Qed.

Lemma scans_blanks n t ws : scans t ws -> scans (blanks n ++ t) ws.
Proof. intros H. induction n; auto. cbn. constructor; auto. now left. Qed.
Lemma wnd_blanks n t : wnd (blanks (S n) ++ t).
Proof. right. eexists _, _. split; [reflexivity|]. now left. Qed.

Lemma removelast_snoc {A} (l : list A) x : removelast (l ++ [x]) = l.
Proof. induction l as [|a l IH]; auto. cbn [app]. destruct (l ++ [x]) eqn:E; [destruct l; discriminate|]. cbn in *. now rewrite IH. Qed.

(** ** V lines *)

Definition P_word (d : nat) (x : sci) : str :=
  sci_body (sneg x) (firstn 1 (digits_field (S d) (mant x))) (skipn 1 (digits_field (S d) (mant x))) (expo x).
Lemma P_word_real d x : d <= 90 -> normal (S d) x -> real_from_mcnp (P_word d x) = Ok (sci_value d x).
Proof.
  intros Hd N. pose proof (P_field_real d x Hd N) as R.
  pose proof (digits_field_length (S d) x ltac:(lia) N) as LD.
  pose proof (digits_field_digits (S d) (mant x)) as DD.
  rewrite <- (firstn_skipn 1 (digits_field (S d) (mant x))) in DD. apply digits_app in DD as [D1 D2].
  rewrite P_field_body, real_sci in R; auto.
  - rewrite <- R. apply (real_sci 0); auto.
    + eapply normal_exp; eauto.
    + destruct (digits_field (S d) (mant x)); discriminate.
    + rewrite firstn_skipn, LD. lia.
  - eapply normal_exp; eauto.
  - destruct (digits_field (S d) (mant x)); discriminate.
  - rewrite firstn_skipn, LD. lia.
Qed.
Lemma P_word_plain d x : normal (S d) x -> plain_number (P_word d x).
Proof.
  intros N. pose proof (digits_field_digits (S d) (mant x)) as DD.
  pose proof (digits_field_length (S d) x ltac:(lia) N) as LD. unfold P_word.
  destruct (digits_field (S d) (mant x)) as [|c ds]; [discriminate|]. inversion DD; subst.
  assert (A : allc is_numchar (sci_body (sneg x) [c] ds (expo x))).
  { apply sci_body_chars; auto; [eapply normal_exp; eauto|repeat constructor; auto]. }
  cbn [firstn skipn]. unfold sci_body, mant_text in *. destruct (sneg x); cbn [sgn app] in *.
  - eexists "-", _. split; [reflexivity|]. split; [reflexivity|]. now inversion A.
  - eexists c, _. split; [reflexivity|]. split; [now rewrite H1|]. now inversion A.
Qed.
Lemma scans_P d x t ws : normal (S d) x -> wnd t -> scans t ws -> scans (P_field d x ++ t) (P_word d x :: ws).
Proof.
  intros N HW H. rewrite P_field_body, <- app_assoc. apply scans_blanks. constructor; auto. now apply P_word_plain.
Qed.
Lemma scans_Ps d l t ws : Forall (normal (S d)) l -> wnd t -> scans t ws ->
  scans (concat (map (P_field d) l) ++ t) (map (P_word d) l ++ ws) /\ wnd (concat (map (P_field d) l) ++ t).
Proof.
  intros HF HW H. induction HF as [|x l N HF [IH1 IH2]]; cbn [map concat app]; auto.
  rewrite <- app_assoc. split; [now apply scans_P|]. rewrite P_field_body, <- app_assoc. destruct (sneg x); apply wnd_blanks.
Qed.
Lemma scans_v rows : Forall (fun row => length row = 10 /\ Forall (normal 5) row) rows ->
  scans (v_text rows) (map (P_word 4) (concat rows)).
Proof.
  induction 1 as [|row rows [_ N] HF IH]; [constructor|]. unfold v_text in *. cbn [map concat].
  rewrite map_app. cbn [app]. constructor; [now left|]. rewrite <- app_assoc. cbn [app].
  apply scans_Ps; auto.
  - right. eexists _, _. split; [reflexivity|]. now right.
  - constructor; [now right|auto].
Qed.

Definition r_vrow : re := RCat (RRep true 5 (Some 121) (RSet cs_dot)) (RSet cs_nl).
Definition r_v : re := RGrp 1 (RRep false 1 None r_vrow).
Lemma re_v_line : re_v = whole r_v.
Proof. vm_compute. reflexivity. Qed.

Lemma match_grp1 r s c : plain r = true -> accc r s c -> exists o, re_match (whole (RGrp 1 r)) s = Some o /\ grp 1 o = s.
Proof.
  intros PL HA. destruct (match_ex (RGrp 1 r) s ((1, s) :: c)) as (o & E & _ & HW); auto.
  - now apply accc_grp.
  - exists o. split; auto. destruct HW as (c' & _ & HC). unfold grp. cbn [group]. rewrite HC. reflexivity.
Qed.

Lemma accc_rows r (rows : list str) : rows <> [] -> Forall (fun x => accc r x [] /\ x <> []) rows ->
  accc (RRep false 1 None r) (concat rows) [].
Proof.
  intros HN HF. pose proof (accc_rep false 1 None r (map (fun x => (x, [])) rows)) as H.
  rewrite (map_map _ fst), (map_map _ snd), map_length in H. cbn [fst snd] in H. rewrite map_id in H.
  eapply accc_ext; [apply H|reflexivity|]; auto.
  - apply Forall_map. exact HF.
  - destruct rows; [congruence|cbn; lia].
  - clear. induction rows as [|x rows IH]; auto. cbn. rewrite concat_app, IH. reflexivity.
Qed.

Lemma P_row_line d row : Forall (normal (S d)) row -> length (concat (map (P_field d) row)) = length row * (d + 8) /\ allc notnl (concat (map (P_field d) row)).
Proof.
  induction 1 as [|x row N HF [IH1 IH2]]; [split; auto; constructor|]. cbn [map concat length]. split.
  - rewrite app_length, IH1, P_field_length by auto. lia.
  - apply allc_app. split; auto. now apply P_field_notnl.
Qed.

Lemma v_rows_accc rows : v_data_ok rows -> accc (RRep false 1 None r_vrow) (v_text rows) [].
Proof.
  intros [HN HF]. unfold v_text. apply accc_rows.
  - destruct rows; [congruence|discriminate].
  - apply Forall_map. revert HF. apply Forall_impl. intros row [HL N]. split; [|discriminate].
    destruct (P_row_line 4 row N) as [A B]. rewrite HL in A.
    eapply accc_ext; [apply accc_cat; [apply (accc_rep_set true 5 (Some 121) cs_dot (sp :: concat (map (P_field 4) row)))|apply (accc_set cs_nl nl); reflexivity]|reflexivity|reflexivity].
    + apply allc_dot. constructor; auto.
    + cbn [length]. lia.
    + cbn [length]. lia.
Qed.

Theorem v_read rows : v_data_ok rows -> v_from_mcnp (v_text rows) = Ok (v_value rows).
Proof.
  intros H. unfold v_from_mcnp. rewrite re_v_line. unfold r_v.
  destruct (match_grp1 (RRep false 1 None r_vrow) (v_text rows) []) as (o & -> & ->); [reflexivity|now apply v_rows_accc|].
  destruct H as [_ HF]. rewrite (scans_tuple _ _ _ (scans_v rows HF)). apply mapM_ok.
  intros x Hx. apply in_concat in Hx as (row & HR & Hx). rewrite Forall_forall in HF. apply HF in HR as [_ N].
  rewrite Forall_forall in N. apply P_word_real; auto. lia.
Qed.

Lemma mod10 q j : S j <= 10 -> ((S (q * 10 + j) mod 10 =? 0) = (S j =? 10))%nat.
Proof.
  intros H. destruct (Nat.eqb_spec (S j) 10) as [E|NE].
  - replace (S (q * 10 + j)) with ((S q) * 10) by lia. now rewrite Nat.mod_mul.
  - replace (S (q * 10 + j)) with (S j + q * 10) by lia. rewrite Nat.mod_add, Nat.mod_small by lia. reflexivity.
Qed.
Lemma v_loop_row q xs l r : Forall (normal 5) xs -> forall j, j + length xs <= 10 -> xs <> [] ->
  v_loop (q * 10 + (j + length xs)) l = Ok r ->
  v_loop (q * 10 + j) (map (sci_value 4) xs ++ l)
  = Ok (concat (map (P_field 4) xs) ++ (if (j + length xs =? 10)%nat then [nl; sp] else []) ++ r).
Proof.
  induction 1 as [|x xs N HF IH]; intros j HL NE HR; [congruence|]. cbn [map app v_loop].
  rewrite P_format by (auto; lia). cbn [bind length] in *. rewrite mod10 by lia.
  replace (q * 10 + j =? 0)%nat with ((q =? 0) && (j =? 0))%nat.
  2:{ destruct q, j; reflexivity. }
  destruct xs as [|y xs].
  - cbn [length map app concat] in *. replace (S (q * 10 + j)) with (q * 10 + (j + 1)) by lia. rewrite HR. cbn [bind].
    rewrite app_nil_r. replace (j + 1) with (S j) by lia.
    destruct (Nat.eqb_spec (S j) 10) as [E|NE']; [|reflexivity].
    assert (j = 9) by lia. subst j. cbn [Nat.eqb]. rewrite andb_false_r. reflexivity.
  - replace (S (q * 10 + j)) with (q * 10 + S j) by lia. rewrite IH.
    + cbn [bind]. assert (NE' : S j <> 10) by (cbn [length] in HL; lia). apply Nat.eqb_neq in NE'. rewrite NE'. cbn [andb].
      replace (S j + length (y :: xs)) with (j + S (length (y :: xs))) by lia. cbn [app].
      cbn [map concat]. change (P_field 4 x) with (sp :: tl (P_field 4 x)) at 2. now rewrite <- !app_assoc.
    + lia.
    + discriminate.
    + now replace (S j + length (y :: xs)) with (j + S (length (y :: xs))) by lia.
Qed.
Lemma v_loop_rows rows : Forall (fun row => length row = 10 /\ Forall (normal 5) row) rows -> forall q,
  exists t, v_loop (q * 10) (map (sci_value 4) (concat rows)) = Ok t /\ sp :: t = v_text rows ++ [sp].
Proof.
  induction 1 as [|row rows [HL N] HF IH]; intros q; [exists []; auto|].
  destruct (IH (S q)) as (t & E1 & E2). cbn [concat]. rewrite map_app.
  pose proof (v_loop_row q row (map (sci_value 4) (concat rows)) t N 0) as V.
  rewrite HL, !Nat.add_0_r in V. cbn [Nat.add Nat.eqb] in V. rewrite V; auto.
  - eexists. split; [reflexivity|]. unfold v_text in *. cbn [map concat app]. f_equal.
    rewrite <- !app_assoc. cbn [app]. f_equal. f_equal. now rewrite E2.
  - destruct row; [discriminate|congruence].
  - replace (q * 10 + 10) with (S q * 10) by lia. exact E1.
Qed.
Theorem v_write rows : v_data_ok rows -> v_to_mcnp (v_value rows) = Ok (v_text rows).
Proof.
  intros [_ HF]. unfold v_to_mcnp, v_value. destruct (v_loop_rows rows HF 0) as (t & E1 & E2).
  cbn [Nat.mul] in E1. rewrite E1. cbn [bind]. now rewrite E2, removelast_snoc.
Qed.

(** ** L lines *)

Lemma int_field_gap w z t : length (str_of_Z z) < w -> exists n, int_field w z ++ t = blanks (S n) ++ str_of_Z z ++ t.
Proof.
  intros H. exists (w - length (str_of_Z z) - 1). unfold int_field. rewrite rjust_blanks, <- app_assoc. do 2 f_equal. lia.
Qed.
Lemma scans_ints l t ws : Forall (fits 3) l -> wnd t -> scans t ws ->
  scans (concat (map (int_field 4) l) ++ t) (map str_of_Z l ++ ws) /\ wnd (concat (map (int_field 4) l) ++ t).
Proof.
  intros HF HW H. induction HF as [|x l N HF [IH1 IH2]]; cbn [map concat app]; auto.
  unfold fits in N. rewrite <- app_assoc.
  destruct (int_field_gap 4 x (concat (map (int_field 4) l) ++ t)) as (n & ->); [lia|].
  split; [|apply wnd_blanks]. apply scans_blanks. constructor; auto. apply plain_int.
Qed.
Lemma scans_lrow row t ws : Forall (fits 3) row -> scans t ws -> scans (l_row row ++ t) (map str_of_Z row ++ ws).
Proof.
  intros HF H. unfold l_row. cbn [app]. constructor; [now left|]. rewrite <- app_assoc. cbn [app].
  apply scans_ints; auto.
  - right. eexists _, _. split; [reflexivity|]. now right.
  - constructor; [now right|auto].
Qed.
Lemma scans_l rows last : Forall (Forall (fits 3)) (rows ++ [last]) ->
  scans (l_text rows last) (map str_of_Z (concat rows ++ last)).
Proof.
  intros H. apply Forall_app in H as [HR HL]. apply Forall_inv in HL. unfold l_text.
  induction HR as [|row rows N HR IH]; cbn [map concat app].
  - rewrite <- (app_nil_r (l_row last)), <- (app_nil_r (map str_of_Z last)). apply scans_lrow; auto. constructor.
  - rewrite <- !app_assoc, map_app. apply scans_lrow; auto.
Qed.

Definition r_lrow : re := RCat (RSet cs_ws) (RCat (RRep false 1 None (run 4)) (RSet cs_nl)).
Definition r_l : re := RGrp 1 (RRep false 1 None r_lrow).
Lemma re_l_line : re_l = whole r_l.
Proof. vm_compute. reflexivity. Qed.

Lemma fits_field4 l : Forall (fits 3) l -> Forall (field 4) (map (int_field 4) l).
Proof.
  intros H. apply Forall_map. revert H. apply Forall_impl. unfold fits. intros z Hz.
  split; [apply int_field_length; unfold fits; lia|apply int_field_notnl].
Qed.
Lemma lrow_accc row : row <> [] -> Forall (fits 3) row -> accc r_lrow (l_row row) [].
Proof.
  intros HN HF. unfold l_row, r_lrow.
  assert (A : accc (RRep false 1 None (run 4)) (concat (map (int_field 4) row)) []).
  { apply accc_rows; [destruct row; [congruence|discriminate]|].
    apply fits_field4 in HF. revert HF. apply Forall_impl. intros u [A B]. split; [now apply accc_run|].
    destruct u; discriminate. }
  pose proof (accc_cat _ _ _ _ _ _ A (accc_set cs_nl nl eq_refl)) as B.
  exact (accc_cat _ _ _ _ _ _ (accc_set cs_ws sp eq_refl) B).
Qed.
Lemma l_rows_accc rows last : l_data_ok rows last -> accc (RRep false 1 None r_lrow) (l_text rows last) [].
Proof.
  intros (H30 & HL & HF). unfold l_text.
  assert (E : concat (map l_row rows) ++ l_row last = concat (map l_row (rows ++ [last]))).
  { rewrite map_app, concat_app. cbn. now rewrite app_nil_r. }
  rewrite E. apply accc_rows; [destruct rows; discriminate|]. apply Forall_map.
  rewrite Forall_forall in *. intros row HR. split; [|discriminate]. apply lrow_accc; [|now apply HF].
  apply in_app_or in HR as [HR|[<-|[]]].
  - apply H30 in HR. destruct row; [discriminate|congruence].
  - destruct last; [cbn in HL; lia|congruence].
Qed.

Theorem l_read rows last : l_data_ok rows last -> l_from_mcnp (l_text rows last) = Ok (l_value rows last).
Proof.
  intros H. unfold l_from_mcnp. rewrite re_l_line. unfold r_l.
  destruct (match_grp1 (RRep false 1 None r_lrow) (l_text rows last) []) as (o & -> & ->); [reflexivity|now apply l_rows_accc|].
  destruct H as (_ & _ & HF). rewrite (scans_tuple _ _ _ (scans_l rows last HF)). apply mapM_ok.
  intros z Hz. assert (FZ : fits 3 z).
  { apply Forall_app in HF as [H1 H2]. apply Forall_inv in H2. apply in_app_or in Hz as [Hz|Hz].
    - apply in_concat in Hz as (row & HR & Hz). rewrite Forall_forall in H1. apply H1 in HR. rewrite Forall_forall in HR. auto.
    - rewrite Forall_forall in H2. auto. }
  assert (E : str_of_Z z = int_field (length (str_of_Z z)) z).
  { unfold int_field. rewrite rjust_blanks, Nat.sub_diag. reflexivity. }
  rewrite E. apply int_field_int; [unfold fits; lia|]. unfold fits in FZ. lia.
Qed.

Lemma mod30 q j : S j <= 30 -> ((S (q * 30 + j) mod 30 =? 0) = (S j =? 30))%nat.
Proof.
  intros H. destruct (Nat.eqb_spec (S j) 30) as [E|NE].
  - replace (S (q * 30 + j)) with ((S q) * 30) by lia. now rewrite Nat.mod_mul.
  - replace (S (q * 30 + j)) with (S j + q * 30) by lia. rewrite Nat.mod_add, Nat.mod_small by lia. reflexivity.
Qed.
Lemma l_loop_row q xs l : forall j, j + length xs <= 30 -> xs <> [] ->
  l_loop (q * 30 + j) (map IVal xs ++ l)
  = concat (map (int_field 4) xs) ++ (if (j + length xs =? 30)%nat then [nl; sp] else []) ++ l_loop (q * 30 + (j + length xs)) l.
Proof.
  induction xs as [|x xs IH]; intros j HL NE; [congruence|]. cbn [map app l_loop].
  cbn [length] in *. rewrite mod30 by lia.
  replace (q * 30 + j =? 0)%nat with ((q =? 0) && (j =? 0))%nat by (destruct q, j; reflexivity).
  change (rjust 4 (integer_to_mcnp (IVal x))) with (int_field 4 x).
  destruct xs as [|y xs].
  - cbn [length map app concat] in *. replace (S (q * 30 + j)) with (q * 30 + (j + 1)) by lia.
    rewrite app_nil_r. replace (j + 1) with (S j) by lia.
    destruct (Nat.eqb_spec (S j) 30) as [E|NE']; [|reflexivity].
    assert (j = 29) by lia. subst j. cbn [Nat.eqb]. rewrite andb_false_r. reflexivity.
  - replace (S (q * 30 + j)) with (q * 30 + S j) by lia. rewrite IH; [|lia|discriminate].
    assert (NE' : S j <> 30) by (cbn [length] in HL; lia). apply Nat.eqb_neq in NE'. rewrite NE'. cbn [andb].
    replace (S j + length (y :: xs)) with (j + S (length (y :: xs))) by lia. cbn [app].
    cbn [map concat]. now rewrite <- !app_assoc.
Qed.
Theorem l_write rows last : l_data_ok rows last -> l_to_mcnp (l_value rows last) = l_text rows last.
Proof.
  intros (H30 & HL & _). unfold l_to_mcnp, l_value.
  assert (G : forall q, sp :: l_loop (q * 30) (map IVal (concat rows ++ last)) ++ [nl] = l_text rows last); [|exact (G 0)].
  unfold l_text. induction H30 as [|row rows HR HF IH]; intros q; cbn [concat map app].
  - pose proof (l_loop_row q last [] 0) as E. rewrite !app_nil_r, Nat.add_0_r in E. cbn [Nat.add] in E. rewrite E.
    + destruct (Nat.eqb_spec (length last) 30); [lia|]. cbn [app l_loop]. rewrite app_nil_r. reflexivity.
    + lia.
    + destruct last; [cbn in HL; lia|congruence].
  - rewrite <- app_assoc, map_app. pose proof (l_loop_row q row (map IVal (concat rows ++ last)) 0) as E.
    rewrite Nat.add_0_r in E. cbn [Nat.add] in E. rewrite HR in E. cbn [Nat.eqb] in E. rewrite E.
    + unfold l_row at 1. cbn [app]. f_equal. rewrite <- !app_assoc. cbn [app]. f_equal. f_equal.
      replace (q * 30 + 30) with (S q * 30) by lia. apply IH.
    + lia.
    + destruct row; [discriminate|congruence].
Qed.
