(** The header and the whole file. *)

From Coq Require Import Ascii String NArith ZArith Bool Arith List Lia.
From Verif Require Import PyStr Regex RegexParse RegexFacts RegexLang PyNum PyNumFacts Types TypesSpec TypesFacts TypesFacts2 TypesFacts3 TypesFacts4 SubFacts CardsFacts CardsFacts2 CardsFacts7 GeometryFacts3 Ptrac PtracSpec PtracFacts PtracFacts2 PtracFacts3 PtracFacts4.
Import ListNotations.
Open Scope char_scope.

(** ** Rows *)

Definition r_row (n : nat) : re := RCat (RSet cs_ws) (RCat (run n) (RSet cs_nl)).
Lemma W_row n u c : W (r_row n) u c -> exists x v, u = x :: v ++ [nl] /\ allc notnl v /\ length v = n /\ c = [].
Proof.
  intros (u1 & u2 & c1 & c2 & (x & -> & _ & ->) & (u3 & u4 & c3 & c4 & H & HN & -> & ->) & -> & ->).
  apply W_run in H as (A & B & ->). apply W_set_nl in HN as [-> ->]. exists x, u3. auto.
Qed.
Lemma row_accc n s : ln s -> length s = S n -> accc (r_row n) (s ++ [nl]) [].
Proof.
  intros (v & -> & A) HL. cbn in HL. unfold r_row.
  pose proof (accc_cat _ _ _ _ _ _ (accc_run n v ltac:(lia) A) (accc_set cs_nl nl eq_refl)) as B.
  exact (accc_cat _ _ _ _ _ _ (accc_set cs_ws sp eq_refl) B).
Qed.
Lemma W_lrow u c : W r_lrow u c -> exists x v, u = x :: v ++ [nl] /\ allc notnl v /\ length v mod 4 = 0 /\ c = [].
Proof.
  intros (u1 & u2 & c1 & c2 & (x & -> & _ & ->) & (u3 & u4 & c3 & c4 & H & HN & -> & ->) & -> & ->).
  apply W_set_nl in HN as [-> ->]. destruct H as (l & HF & _ & _ & -> & ->). exists x, (concat (map fst l)).
  assert (G : allc notnl (concat (map fst l)) /\ length (concat (map fst l)) mod 4 = 0 /\ concat (rev (map snd l)) = []).
  { induction HF as [|[u c] l H HF IH]; [repeat split; constructor|]. destruct IH as (I1 & I2 & I3).
    cbn [fst snd] in H. apply W_run in H as (A & B & ->). cbn [map concat fst snd rev]. split; [now apply allc_app|]. split.
    - rewrite app_length, A. rewrite Nat.add_mod by lia. rewrite I2. reflexivity.
    - rewrite concat_app, I3. reflexivity. }
  destruct G as (G1 & G2 & G3). repeat split; auto. now rewrite G3.
Qed.

Lemma v_row_ln row : length row = 10 -> Forall (normal 5) row -> ln (sp :: concat (map (P_field 4) row)) /\ length (sp :: concat (map (P_field 4) row)) = 121.
Proof.
  intros HL N. destruct (P_row_line 4 row N) as [A B]. split; [eexists; eauto|]. cbn [length]. rewrite A, HL. reflexivity.
Qed.
Lemma n_row_ln l : n_data_ok l -> ln (sp :: concat (map (int_field 5) l)) /\ length (sp :: concat (map (int_field 5) l)) = 101.
Proof.
  intros [HL HF].
  assert (FF : Forall (field 5) (map (int_field 5) l)).
  { apply Forall_map. revert HF. apply Forall_impl. intros z Hz. split; [now apply int_field_length|apply int_field_notnl]. }
  split.
  - eexists. split; [reflexivity|]. clear - FF. induction FF as [|u us [_ H] HF IH]; cbn [concat]; [constructor|]. apply allc_app. auto.
  - cbn [length]. rewrite (fields_length 5) by auto. now rewrite map_length, HL.
Qed.
Lemma l_row_ln row : Forall (fits 3) row -> ln (sp :: concat (map (int_field 4) row)) /\ length (sp :: concat (map (int_field 4) row)) = 1 + length row * 4.
Proof.
  intros HF. apply fits_field4 in HF. split.
  - eexists. split; [reflexivity|]. clear - HF. induction HF as [|u us [_ H] HF IH]; cbn [concat]; [constructor|]. apply allc_app. auto.
  - cbn [length]. rewrite (fields_length 4) by auto. now rewrite map_length.
Qed.

(** The V rows and the N row can be told apart in one way. *)
Definition v_row (row : list sci) : str := sp :: concat (map (P_field 4) row).
Lemma v_text_rows rows : v_text rows = concat (map (fun row => v_row row ++ [nl]) rows).
Proof. reflexivity. Qed.
Definition v_rows_ok (rows : list (list sci)) : Prop := Forall (fun row => length row = 10 /\ Forall (normal 5) row) rows.

Lemma vn_unique rows l s u c v d t : v_rows_ok rows -> n_data_ok l ->
  W (RRep false 1 None (r_row 120)) u c -> W (r_row 100) v d ->
  v_text rows ++ n_text l ++ s = u ++ v ++ t -> u = v_text rows /\ v = n_text l /\ c = [] /\ d = [].
Proof.
  intros HV HN (ps & HF & _ & _ & -> & ->) HW. apply W_row in HW as (y & w & -> & W1 & W2 & ->).
  assert (C0 : concat (rev (map snd ps)) = []).
  { clear - HF. induction HF as [|[u c] ps H HF IH]; auto. cbn. rewrite concat_app, IH. apply W_row in H as (? & ? & _ & _ & _ & E). cbn [snd] in E. now rewrite E. }
  rewrite C0. clear C0. destruct (n_row_ln l HN) as [LN LL].
  assert (EN : forall s, n_text l ++ s = (sp :: concat (map (int_field 5) l)) ++ nl :: s).
  { intros s0. unfold n_text. cbn [app]. now rewrite <- app_assoc. }
  assert (EY : forall s, (y :: w ++ [nl]) ++ s = (y :: w) ++ nl :: s).
  { intros s0. cbn [app]. now rewrite <- app_assoc. }
  rewrite EN, EY.
  revert ps HF. rewrite v_text_rows.
  induction HV as [|row rows [HR N] HV IH]; intros ps HF E.
  - destruct HF as [|[u c] ps H HF]; cbn [map concat fst] in E |- *.
    + change ((sp :: concat (map (int_field 5) l)) ++ nl :: s = (y :: w) ++ nl :: t) in E.
      apply line_cut in E as [E _]; [|auto|eauto]. inversion E. auto.
    + exfalso. cbn [fst snd] in H. apply W_row in H as (x & v & -> & V1 & V2 & _).
      assert (E2 : (sp :: concat (map (int_field 5) l)) ++ nl :: s = (x :: v) ++ nl :: concat (map fst ps) ++ (y :: w) ++ nl :: t).
      { cbn [app] in E |- *. rewrite <- !app_assoc in E. exact E. }
      apply line_cut in E2 as [E2 _]; [|auto|eauto]. rewrite E2 in LL. cbn in LL. lia.
  - destruct (v_row_ln row HR N) as [LR L121]. fold (v_row row) in *. cbn [map concat] in E |- *. rewrite <- !app_assoc in E. cbn [app] in E.
    destruct HF as [|[u c] ps H HF]; cbn [map concat fst] in E |- *.
    + exfalso. change (v_row row ++ nl :: concat (map (fun row => v_row row ++ [nl]) rows) ++ (sp :: concat (map (int_field 5) l)) ++ nl :: s = (y :: w) ++ nl :: t) in E.
      apply line_cut in E as [E _]; [|auto|eauto]. rewrite E in L121. cbn in L121. lia.
    + cbn [fst snd] in H. apply W_row in H as (x & v & -> & V1 & V2 & _).
      assert (E2 : v_row row ++ nl :: concat (map (fun row => v_row row ++ [nl]) rows) ++ (sp :: concat (map (int_field 5) l)) ++ nl :: s
        = (x :: v) ++ nl :: concat (map fst ps) ++ (y :: w) ++ nl :: t).
      { cbn [app] in E |- *. rewrite <- !app_assoc in E. exact E. }
      apply line_cut in E2 as [E1 E2]; [|auto|eauto].
      destruct (IH ps HF E2) as (I1 & I2 & _). rewrite E1, I1, I2. auto.
Qed.

(** ** The header *)

Fixpoint lits (s : str) (k : re) : re := match s with [] => k | c :: t => RCat (RSet (cs_chr (code c))) (lits t k) end.
Definition r_vn (k : re) : re := k.
Definition hd_line : str := L "   -1" ++ [nl].
Definition r_header : re :=
  lits hd_line (RCat (cell 1 8) (RCat (cell 2 25) (RCat (cell 3 9) (RCat (cell 4 18) (RCat (RSet cs_nl) (RCat (cell 5 80) (RCat (RSet cs_nl)
    (RCat (RGrp 6 (RRep false 1 None (r_row 120))) (RCat (RGrp 7 (r_row 100)) (RGrp 8 (RRep false 1 None r_lrow))))))))))).
Lemma re_header_eq : re_header = whole r_header.
Proof. vm_compute. reflexivity. Qed.

Lemma W_lits s k u c : W (lits s k) u c -> exists v, u = s ++ v /\ W k v c.
Proof.
  revert u c. induction s as [|a s IH]; cbn [lits]; intros u c H; [exists u; auto|].
  destruct H as (u1 & u2 & c1 & c2 & (x & -> & Hx & ->) & H & -> & ->). apply IH in H as (v & -> & H).
  rewrite inset_chr_ceqb in Hx. apply ceqb_eq in Hx. subst. exists v. split; auto. now rewrite app_nil_r.
Qed.
Lemma accc_lits s k v c : accc k v c -> accc (lits s k) (s ++ v) c.
Proof.
  intros H. induction s as [|a s IH]; auto. cbn [lits app]. eapply accc_ext.
  - apply accc_cat; [apply (accc_set _ a)|exact IH]. rewrite inset_chr_ceqb. now apply ceqb_eq.
  - reflexivity.
  - apply app_nil_r.
Qed.

Lemma v_text_accc rows : v_data_ok rows -> accc (RRep false 1 None (r_row 120)) (v_text rows) [].
Proof.
  intros [HN HF]. rewrite v_text_rows. apply accc_rows; [destruct rows; [congruence|discriminate]|].
  apply Forall_map. revert HF. apply Forall_impl. intros row [HL N]. split; [|discriminate].
  destruct (v_row_ln row HL N) as [A B]. now apply row_accc.
Qed.
Lemma n_text_accc l : n_data_ok l -> accc (r_row 100) (n_text l) [].
Proof. intros H. destruct (n_row_ln l H) as [A B]. exact (row_accc 100 _ A B). Qed.

Theorem header_read k : header_data_ok k -> header_from_mcnp (header_text k) = Ok (header_value k).
Proof.
  intros (L1 & L2 & L3 & L4 & L5 & HO & HV & HN & HL).
  assert (O : forall s, In s [kd_code k; kd_version k; kd_date k; kd_run k; kd_title k] -> allc notnl s)
    by (rewrite Forall_forall in HO; exact HO).
  pose proof (O (kd_code k) ltac:(cbn; tauto)) as O1.
  pose proof (O (kd_version k) ltac:(cbn; tauto)) as O2.
  pose proof (O (kd_date k) ltac:(cbn; tauto)) as O3.
  pose proof (O (kd_run k) ltac:(cbn; tauto)) as O4.
  pose proof (O (kd_title k) ltac:(cbn; tauto)) as O5. clear O HO.
  assert (AC : accc r_header (header_text k) ([(8, l_text (kd_l k) (kd_last k)); (7, n_text (kd_n k)); (6, v_text (kd_v k)); (5, kd_title k); (4, kd_run k); (3, kd_date k); (2, kd_version k); (1, kd_code k)])).
  { unfold r_header, header_text.
    pose proof (accc_grp 8 _ _ _ (l_rows_accc _ _ HL)) as A.
    pose proof (accc_cat _ _ _ _ _ _ (accc_grp 7 _ _ _ (n_text_accc _ HN)) A) as A7. clear A.
    pose proof (accc_cat _ _ _ _ _ _ (accc_grp 6 _ _ _ (v_text_accc _ HV)) A7) as A. clear A7.
    pose proof (accc_cat _ _ _ _ _ _ (accc_set cs_nl nl eq_refl) A) as A7. clear A.
    pose proof (accc_cat _ _ _ _ _ _ (accc_cell 5 80 _ L5 O5) A7) as A. clear A7.
    pose proof (accc_cat _ _ _ _ _ _ (accc_set cs_nl nl eq_refl) A) as A7. clear A.
    pose proof (accc_cat _ _ _ _ _ _ (accc_cell 4 18 _ L4 O4) A7) as A. clear A7.
    pose proof (accc_cat _ _ _ _ _ _ (accc_cell 3 9 _ L3 O3) A) as A7. clear A.
    pose proof (accc_cat _ _ _ _ _ _ (accc_cell 2 25 _ L2 O2) A7) as A. clear A7.
    pose proof (accc_cat _ _ _ _ _ _ (accc_cell 1 8 _ L1 O1) A) as A7. clear A.
    exact (accc_lits hd_line _ _ _ A7). }
  destruct (match_ex r_header (header_text k) _ eq_refl AC) as (o & E & _ & HW).
  unfold header_from_mcnp. rewrite re_header_eq, E.
  assert (EC : mcaps o = [(8, l_text (kd_l k) (kd_last k)); (7, n_text (kd_n k)); (6, v_text (kd_v k)); (5, kd_title k); (4, kd_run k); (3, kd_date k); (2, kd_version k); (1, kd_code k)]).
  { apply W_lits in HW as (v & ET & HW). unfold header_text in ET.
    change (L "   -1" ++ nl :: ?x) with (hd_line ++ x) in ET. apply app_inv_head in ET. subst v.
    destruct HW as (u1 & t1 & c1 & d1 & H & HW & ET & ->). apply W_cell in H as (M1 & _ & ->).
    apply app_inj_len in ET as [<- ET]; [|congruence].
    destruct HW as (u2 & t2 & c2 & d2 & H & HW & -> & ->). apply W_cell in H as (M2 & _ & ->).
    apply app_inj_len in ET as [<- ET]; [|congruence].
    destruct HW as (u3 & t3 & c3 & d3 & H & HW & -> & ->). apply W_cell in H as (M3 & _ & ->).
    apply app_inj_len in ET as [<- ET]; [|congruence].
    destruct HW as (u4 & t4 & c4 & d4 & H & HW & -> & ->). apply W_cell in H as (M4 & _ & ->).
    apply app_inj_len in ET as [<- ET]; [|congruence].
    destruct HW as (u5 & t5 & c5 & d5 & H & HW & -> & ->). apply W_set_nl in H as [-> ->].
    cbn [app] in ET. injection ET as ET.
    destruct HW as (u6 & t6 & c6 & d6 & H & HW & -> & ->). apply W_cell in H as (M6 & _ & ->).
    apply app_inj_len in ET as [<- ET]; [|congruence].
    destruct HW as (u7 & t7 & c7 & d7 & H & HW & -> & ->). apply W_set_nl in H as [-> ->].
    cbn [app] in ET. injection ET as ET.
    destruct HW as (u8 & t8 & c8 & d8 & (e8 & H8 & ->) & HW & -> & ->).
    destruct HW as (u9 & t9 & c9 & d9 & (e9 & H9 & ->) & (e10 & H10 & ->) & -> & ->).
    destruct HV as [_ HV].
    destruct (vn_unique _ _ _ _ _ _ _ _ HV HN H8 H9 ET) as (-> & -> & -> & ->).
    apply (app_inv_head (v_text (kd_v k))) in ET. apply (app_inv_head (n_text (kd_n k))) in ET. subst t9.
    assert (e10 = []).
    { eapply W_nocap; [|exact H10]. reflexivity. }
    subst. reflexivity. }
  unfold grp. cbn [group]. rewrite EC. cbn [lookup Nat.eqb]. rewrite v_read, n_read, l_read by auto. reflexivity.
Qed.

Lemma ljust_full w s : length s = w -> ljust w s = s.
Proof. intros <-. unfold ljust. rewrite Nat.sub_diag. apply app_nil_r. Qed.
Theorem header_write k : header_data_ok k -> header_to_mcnp (header_value k) = Ok (header_text k).
Proof.
  intros (L1 & L2 & L3 & L4 & L5 & HO & HV & HN & HL). unfold header_to_mcnp, header_value.
  cbn [v_line n_line l_line code_name version code_date run_datetime htitle].
  rewrite v_write by auto. cbn [bind]. rewrite !ljust_full by auto. rewrite n_write, l_write by auto. reflexivity.
Qed.

(** ** The file *)

Definition f_line (n : nat) : re := RCat (RSet cs_ws) (run n).
Definition f_ev : re :=
  RCat (RAlt (RCat (RAlt (f_line 50) (RAlt (f_line 60) (RAlt (f_line 60) (RAlt (f_line 70) (RAlt (f_line 60) (RAlt (f_line 70) (RAlt (f_line 70) (f_line 80))))))))
              (RCat (RSet cs_nl) (f_line 39))) (f_line 117)) (RSet cs_nl).
Definition f_hist : re := RCat r_any (RCat (RSet cs_nl) (RRep false 1 None f_ev)).
Definition f_pre : list re :=
  map (fun c => RSet (cs_chr (code c))) hd_line ++ [run 60; RSet cs_nl; run 80; RSet cs_nl; RRep false 1 None (r_row 120); RSet cs_ws; run 100; RSet cs_nl].
Definition f_lrows : re := RRep true 1 None r_lrow.
Definition f_file : re := RCat (RGrp 1 (fold_right RCat f_lrows f_pre)) (RGrp 2 (RRep false 1 None f_hist)).
Lemma re_ptrac_eq : re_ptrac = whole f_file.
Proof. vm_compute. reflexivity. Qed.

Lemma W_fline n u c : W (f_line n) u c -> exists x v, u = x :: v /\ allc notnl v /\ length v = n /\ c = [].
Proof.
  intros (u1 & u2 & c1 & c2 & (x & -> & _ & ->) & H & -> & ->). apply W_run in H as (A & B & ->). exists x, u2. auto.
Qed.
Lemma fline_accc n s : ln s -> length s = S n -> accc (f_line n) s [].
Proof.
  intros (v & -> & A) HL. cbn in HL. exact (accc_cat _ _ _ _ _ _ (accc_set cs_ws sp eq_refl) (accc_run n v ltac:(lia) A)).
Qed.
Lemma W_fev u c : W f_ev u c ->
  (exists j p, u = j ++ nl :: p ++ [nl] /\ lnx [50; 60; 70; 80] j /\ lnx [39] p) \/ (exists p, u = p ++ [nl] /\ lnx [117] p).
Proof.
  intros (u1 & u2 & c1 & c2 & H & HN & -> & ->). apply W_set_nl in HN as [-> ->].
  assert (G : forall n ns u c, W (f_line n) u c -> In n ns -> lnx ns u).
  { intros n ns u c HW HI. apply W_fline in HW as (x & v & -> & A & B & _). exists x, v. subst. auto. }
  destruct H as [H|H].
  - left. destruct H as (j & t & c3 & c4 & HJ & (u3 & p & c5 & c6 & HN & HP & -> & ->) & -> & ->).
    apply W_set_nl in HN as [-> ->]. exists j, p. split; [cbn [app]; now rewrite <- app_assoc|]. split.
    + repeat (destruct HJ as [HJ|HJ]; [eapply G; [exact HJ|cbn; tauto]|]). eapply G; [exact HJ|cbn; tauto].
    + eapply G; [exact HP|cbn; tauto].
  - right. exists u1. split; auto. eapply G; [exact H|cbn; tauto].
Qed.
Lemma f_ev_accc e : e_data_ok 0 e -> accc f_ev (e_text e) [].
Proof.
  intros (HJ & HI & HP). destruct (j_text_ln _ HJ) as [A B]. destruct (p_text_ln _ _ HP) as [C D].
  unfold e_text, f_ev. 
  assert (AJ : accc (RAlt (f_line 50) (RAlt (f_line 60) (RAlt (f_line 60) (RAlt (f_line 70) (RAlt (f_line 60) (RAlt (f_line 70) (RAlt (f_line 70) (f_line 80)))))))) (j_text (ed_j e)) []).
  { destruct HI as [E|[E|[E|[E|[]]]]]; rewrite <- E in B; cbn [j_types length] in B.
    - apply accc_altl, fline_accc; auto.
    - apply accc_altr, accc_altl, fline_accc; auto.
    - do 3 apply accc_altr. apply accc_altl, fline_accc; auto.
    - do 7 apply accc_altr. apply fline_accc; auto. }
  pose proof (accc_cat _ _ _ _ _ _ (accc_set cs_nl nl eq_refl) (fline_accc 39 _ C D)) as A1.
  pose proof (accc_cat _ _ _ _ _ _ AJ A1) as A2. apply (accc_altl _ (f_line 117)) in A2.
  pose proof (accc_cat _ _ _ _ _ _ A2 (accc_set cs_nl nl eq_refl)) as A3.
  eapply accc_ext; [exact A3| |reflexivity]. rewrite <- !app_assoc. cbn [app]. reflexivity.
Qed.
Lemma f_hist_accc h : h_data_ok h -> Forall (fun x => fst x = 0) (hd_events h) -> accc f_hist (h_text h) [].
Proof.
  intros (HI & HZ & HN & HE) H0. destruct (i_text_ln _ HI) as [LI _].
  assert (A : accc (RRep false 1 None f_ev) (events_text (hd_events h)) []).
  { apply accc_rows; [destruct (hd_events h); [congruence|discriminate]|]. apply Forall_map.
    rewrite Forall_forall in *. intros [k e] Hx. pose proof (H0 _ Hx) as K0. apply HE in Hx as [_ He]. cbn [fst snd] in *. subst k.
    split; [now apply f_ev_accc|apply e_text_nonempty]. }
  pose proof (accc_cat _ _ _ _ _ _ (accc_set cs_nl nl eq_refl) A) as A1.
  exact (accc_cat _ _ _ _ _ _ (accc_any (i_text (hd_i h)) ltac:(discriminate) (ln_notnl _ LI)) A1).
Qed.

(** A part without groups that can be read in one way. *)
Lemma m_pre {A} r u t p cp (k : st -> option A) : plain r = true -> nocap r = true -> accc r u [] ->
  (forall u' t' c, W r u' c -> u ++ t = u' ++ t' -> u' = u) ->
  m r (mkst p (u ++ t) cp) k = k (mkst (rev u ++ p) t cp).
Proof.
  intros PL NC HA HU.
  assert (HS : forall s1, M r (mkst p (u ++ t) cp) s1 -> s1 = mkst (rev u ++ p) t cp).
  { intros s1 HM. apply M_W in HM as (u' & c' & HW & E1 & E2 & E3); auto. cbn [rest pre caps] in *.
    pose proof (HU _ _ _ HW E1) as ->. apply app_inv_head in E1. apply W_nocap in HW; auto. subst c'.
    destruct s1 as [p1 r1 k1]; cbn [Regex.rest Regex.pre Regex.caps] in *. now subst. }
  destruct (k (mkst (rev u ++ p) t cp)) as [x|] eqn:EK.
  - eapply m_unique; [apply HA|exact EK|]. intros s1 y HM EY. apply HS in HM. subst. congruence.
  - apply m_none. intros s1 HM. apply HS in HM. now subst.
Qed.

Lemma m_list {A} rs r s (k : st -> option A) : m (fold_right RCat r rs) s k = m (fold_right RCat REps rs) s (fun s' => m r s' k).
Proof. revert s. induction rs as [|a rs IH]; intros s; [reflexivity|]. cbn [fold_right m]. apply m_ext. intros s1. apply IH. Qed.

(** Lazy repetition: stops at the first point where the rest can be read. *)
Fixpoint piecewise (r : re) (us : list str) (t : str) : Prop :=
  match us with
  | [] => True
  | u :: us' => u <> [] /\ accc r u [] /\
      (forall u' t' c, W r u' c -> u ++ concat us' ++ t = u' ++ t' -> u' = u) /\ piecewise r us' t
  end.
Lemma loopl_pieces {A} r (k : st -> option A) us t x cp : plain r = true -> nocap r = true -> piecewise r us t ->
  forall fuel p, length (concat us ++ t) < fuel ->
  (forall us1 us2, us = us1 ++ us2 -> us2 <> [] -> k (mkst (rev (concat us1) ++ p) (concat us2 ++ t) cp) = None) ->
  k (mkst (rev (concat us) ++ p) t cp) = Some x ->
  loopl (fun s k => m r s k) k fuel None (mkst p (concat us ++ t) cp) = Some x.
Proof.
  intros PL NC. induction us as [|u us IH]; intros HP fuel p HL HN HK; (destruct fuel as [|f]; [lia|]).
  - cbn [concat app rev loopl] in *. now rewrite HK.
  - cbn [piecewise] in HP. destruct HP as (NU & HA & HU & HP). cbn [concat] in *. rewrite <- app_assoc in *.
    cbn [loopl czero cdec]. pose proof (HN [] (u :: us) eq_refl ltac:(discriminate)) as N0. cbn [concat rev app] in N0.
    rewrite <- app_assoc in N0. rewrite N0. rewrite m_pre by auto.
    assert (PR : progress (mkst p (u ++ concat us ++ t) cp) (mkst (rev u ++ p) (concat us ++ t) cp) = true) by now apply progress_app.
    rewrite PR. apply IH; auto.
    + rewrite app_length in HL. destruct u; [congruence|cbn in HL; lia].
    + intros us1 us2 -> NE. specialize (HN (u :: us1) us2 eq_refl NE). cbn [concat] in HN. now rewrite rev_app_distr, <- app_assoc in HN.
    + now rewrite rev_app_distr, <- app_assoc in HK.
Qed.
Lemma m_lazy {A} r (k : st -> option A) us t x p cp : plain r = true -> nocap r = true -> us <> [] -> piecewise r us t ->
  (forall us1 us2, us = us1 ++ us2 -> us1 <> [] -> us2 <> [] -> k (mkst (rev (concat us1) ++ p) (concat us2 ++ t) cp) = None) ->
  k (mkst (rev (concat us) ++ p) t cp) = Some x ->
  m (RRep true 1 None r) (mkst p (concat us ++ t) cp) k = Some x.
Proof.
  intros PL NC NE HP HN HK. destruct us as [|u us]; [congruence|]. cbn [piecewise] in HP. destruct HP as (NU & HA & HU & HP).
  cbn [m need maxleft concat]. rewrite <- app_assoc, m_pre by auto. cbn [rest].
  apply loopl_pieces; auto.
  - intros us1 us2 -> NE2. specialize (HN (u :: us1) us2 eq_refl ltac:(discriminate) NE2). cbn [concat] in HN.
    now rewrite rev_app_distr, <- app_assoc in HN.
  - cbn [concat] in HK. now rewrite rev_app_distr, <- app_assoc in HK.
Qed.

(** L rows are read one at a time. *)
Definition lrow_ok (row : list Z) : Prop := row <> [] /\ Forall (fits 3) row.
Lemma lrow_line row : l_row row = (sp :: concat (map (int_field 4) row)) ++ [nl].
Proof. reflexivity. Qed.
Lemma lrow_cut row s u t c : Forall (fits 3) row -> W r_lrow u c -> l_row row ++ s = u ++ t -> u = l_row row.
Proof.
  intros HF HW E. destruct (l_row_ln row HF) as [A _]. apply W_lrow in HW as (x & v & -> & V & _ & _).
  rewrite lrow_line in *. rewrite <- app_assoc in E. rewrite app_comm_cons, <- app_assoc in E. cbn [app] in E.
  change (x :: v ++ nl :: t) with ((x :: v) ++ nl :: t) in E.
  apply (line_cut (sp :: concat (map (int_field 4) row))) in E as [E _]; [|auto|eauto]. now rewrite E.
Qed.
Lemma lrows_piecewise rows t : Forall lrow_ok rows -> piecewise r_lrow (map l_row rows) t.
Proof.
  induction 1 as [|row rows [NE HF] H IH]; cbn [map piecewise]; auto. split; [discriminate|].
  split; [now apply lrow_accc|]. split; auto. intros u' t' c HW E. eapply lrow_cut; eauto.
Qed.

(** The histories cannot start at an L row. *)
Definition line_at (s : str) (n : nat) (t : str) : Prop := exists a, ln a /\ length a = n /\ s = a ++ nl :: t.
Lemma line_at_lnx s n t j t' ns : line_at s n t -> lnx ns j -> s = j ++ nl :: t' -> In (pred n) ns /\ t' = t.
Proof.
  intros (a & LA & <- & ->) (x & v & -> & V & HI) E.
  apply (line_cut _ (x :: v)) in E as [-> <-]; [|auto|eauto]. cbn. auto.
Qed.
(** What follows the first L row: another one, or an I line. *)
Definition after_l (s : str) : Prop := exists n t, line_at s n t /\ (In n [21; 31; 34; 44] \/ (n mod 4 = 1 /\ exists n' t', line_at t n' t' /\ (In n' [21; 31; 34; 44] \/ n' mod 4 = 1))).
Lemma no_hist_at_l a s u t c : ln a -> after_l s -> W f_hist u c -> a ++ nl :: s = u ++ t -> False.
Proof.
  intros LA HS (l & t1 & c1 & c2 & HA & HW & -> & ->) E. apply W_any in HA as (NE & NA & ->).
  destruct HW as (n1 & es & c3 & c4 & HN & HW & -> & ->). apply W_set_nl in HN as [-> ->].
  rewrite <- app_assoc in E. cbn [app] in E. apply (split_unique notnl) in E as (_ & _ & E); auto; [|now apply ln_notnl].
  destruct HW as (ps & HF & HL & _ & -> & _). destruct HF as [|[e ce] ps He HF]; [cbn in HL; lia|].
  cbn [map concat fst snd] in *. destruct HS as (n & s' & LN & HC).
  apply W_fev in He as [(j & p & -> & XJ & XP)|(p & -> & XP)]; rewrite <- !app_assoc in E; cbn [app] in E.
  - rewrite <- !app_assoc in E. cbn [app] in E.
    pose proof (line_at_lnx _ _ _ _ _ _ LN XJ E) as [I1 E2]. destruct HC as [HC|(HC & n' & t' & LN' & HC')].
    + cbn in I1, HC. lia.
    + symmetry in E2. pose proof (line_at_lnx _ _ _ _ _ _ LN' XP E2) as [I2 _]. cbn in I2.
      destruct I2 as [I2|[]]. destruct HC' as [HC'|HC']; [cbn in HC'; lia|].
      assert (n' = 40) by lia. subst. discriminate.
  - pose proof (line_at_lnx _ _ _ _ _ _ LN XP E) as [I1 _]. cbn in I1. destruct I1 as [I1|[]].
    destruct HC as [HC|(HC & _)]; [cbn in HC; lia|]. assert (n = 118) by lia. subst. discriminate.
Qed.

Lemma lrow_at row s : lrow_ok row -> exists n, line_at (l_row row ++ s) n s /\ n mod 4 = 1.
Proof.
  intros [NE HF]. destruct (l_row_ln row HF) as [A B]. exists (1 + length row * 4). split.
  - eexists. split; [exact A|]. split; [exact B|]. rewrite lrow_line. now rewrite <- app_assoc.
  - rewrite Nat.mod_add by lia. reflexivity.
Qed.
Lemma itail_at t : tail_ok t -> t <> [] -> exists n s, line_at t n s /\ In n [21; 31; 34; 44].
Proof.
  intros [->|(i & s & HI & ->)] NE; [congruence|]. destruct (i_text_ln _ HI) as [A B].
  exists (length (i_text i)), s. split; auto. exists (i_text i). auto.
Qed.
Lemma after_rows rows t : Forall lrow_ok rows -> tail_ok t -> t <> [] -> after_l (concat (map l_row rows) ++ t).
Proof.
  intros HR HT NE. destruct (itail_at t HT NE) as (n & s & A & B).
  destruct HR as [|r1 rows H1 HR]; cbn [map concat app]; [exists n, s; auto|].
  destruct (lrow_at r1 (concat (map l_row rows) ++ t) H1) as (n1 & A1 & B1). rewrite <- app_assoc.
  exists n1, (concat (map l_row rows) ++ t). split; auto. right. split; auto.
  destruct HR as [|r2 rows H2 HR]; cbn [map concat app]; [exists n, s; auto|].
  destruct (lrow_at r2 (concat (map l_row rows) ++ t) H2) as (n2 & A2 & B2). rewrite <- app_assoc. exists n2. eauto.
Qed.

Definition pre_text (k : header_data) : str :=
  hd_line ++ (kd_code k ++ kd_version k ++ kd_date k ++ kd_run k) ++ nl :: kd_title k ++ nl :: v_text (kd_v k) ++ n_text (kd_n k).
Lemma W_list_sets s rs u c : W (fold_right RCat REps (map (fun c => RSet (cs_chr (code c))) s ++ rs)) u c ->
  exists v, u = s ++ v /\ W (fold_right RCat REps rs) v c.
Proof.
  revert u c. induction s as [|a s IH]; cbn [map app fold_right]; intros u c H; [exists u; auto|].
  destruct H as (u1 & u2 & c1 & c2 & (x & -> & Hx & ->) & H & -> & ->). apply IH in H as (v & -> & H).
  rewrite inset_chr_ceqb in Hx. apply ceqb_eq in Hx. subst. exists v. split; auto. now rewrite app_nil_r.
Qed.
Lemma pre_unique k t u t' c : header_data_ok k -> W (fold_right RCat REps f_pre) u c -> pre_text k ++ t = u ++ t' -> u = pre_text k.
Proof.
  intros (L1 & L2 & L3 & L4 & L5 & HO & HV & HN & HL) HW E. unfold f_pre in HW.
  apply W_list_sets in HW as (v & -> & HW). unfold pre_text in *. rewrite <- !app_assoc in E. apply app_inv_head in E. f_equal.
  cbn [fold_right] in HW.
  destruct HW as (u1 & t1 & c1 & d1 & H & HW & -> & ->). apply W_run in H as (M1 & _ & ->).
  destruct HW as (u2 & t2 & c2 & d2 & H & HW & -> & ->). apply W_set_nl in H as [-> ->].
  destruct HW as (u3 & t3 & c3 & d3 & H & HW & -> & ->). apply W_run in H as (M3 & _ & ->).
  destruct HW as (u4 & t4 & c4 & d4 & H & HW & -> & ->). apply W_set_nl in H as [-> ->].
  destruct HW as (u5 & t5 & c5 & d5 & H5 & HW & -> & ->).
  destruct HW as (u6 & t6 & c6 & d6 & H6 & HW & -> & ->).
  destruct HW as (u7 & t7 & c7 & d7 & H7 & HW & -> & ->).
  destruct HW as (u8 & t8 & c8 & d8 & H8 & HW & -> & ->). destruct HW as [-> ->].
  assert (HR : W (r_row 100) (u6 ++ u7 ++ u8) ((c8 ++ c7) ++ c6)).
  { exists u6, (u7 ++ u8), c6, (c8 ++ c7). repeat split; auto. exists u7, u8, c7, c8. auto. }
  rewrite !app_nil_r. cbn [app] in *. rewrite <- !app_assoc in E.
  rewrite !(app_assoc (kd_code k)), !(app_assoc (kd_code k ++ _)), !(app_assoc ((kd_code k ++ _) ++ _)) in E.
  assert (LL : length (((kd_code k ++ kd_version k) ++ kd_date k) ++ kd_run k) = 60) by (rewrite !app_length; lia).
  apply app_inj_len in E as [E1 E]; [|congruence]. cbn [app] in E. injection E as E.
  rewrite <- !app_assoc in E. apply app_inj_len in E as [E3 E]; [|congruence]. cbn [app] in E. injection E as E.
  destruct HV as [_ HV]. rewrite <- !app_assoc in E.
  assert (E' : v_text (kd_v k) ++ n_text (kd_n k) ++ t = u5 ++ (u6 ++ u7 ++ u8) ++ t').
  { unfold n_text. cbn [app]. rewrite <- !app_assoc. exact E. }
  clear E. rename E' into E.
  destruct (vn_unique _ _ _ _ _ _ _ _ HV HN H5 HR E) as (-> & EN & _ & _).
  rewrite <- E1, <- E3, EN, <- !app_assoc. reflexivity.
Qed.
Lemma accc_list_sets s rs v c : accc (fold_right RCat REps rs) v c ->
  accc (fold_right RCat REps (map (fun c => RSet (cs_chr (code c))) s ++ rs)) (s ++ v) c.
Proof.
  intros H. induction s as [|a s IH]; auto. cbn [map app fold_right]. eapply accc_ext.
  - apply accc_cat; [apply (accc_set _ a)|exact IH]. rewrite inset_chr_ceqb. now apply ceqb_eq.
  - reflexivity.
  - apply app_nil_r.
Qed.
Lemma accc_eps : accc REps [] [].
Proof. intros p t cp. reflexivity. Qed.
Lemma pre_accc k : header_data_ok k -> accc (fold_right RCat REps f_pre) (pre_text k) [].
Proof.
  intros (L1 & L2 & L3 & L4 & L5 & HO & HV & HN & HL).
  assert (O : forall s, In s [kd_code k; kd_version k; kd_date k; kd_run k; kd_title k] -> allc notnl s)
    by (rewrite Forall_forall in HO; exact HO).
  unfold f_pre, pre_text. apply accc_list_sets. cbn [fold_right].
  destruct (n_row_ln _ HN) as [(nv & EN & AN) LN]. injection EN as EN.
  assert (R1 : accc (run 60) (kd_code k ++ kd_version k ++ kd_date k ++ kd_run k) []).
  { apply accc_run; [rewrite !app_length; lia|]. repeat (apply allc_app; split); apply O; cbn; tauto. }
  assert (R2 : accc (run 80) (kd_title k) []) by (apply accc_run; auto; apply O; cbn; tauto).
  assert (R3 : accc (run 100) (concat (map (int_field 5) (kd_n k))) []).
  { apply accc_run; [cbn [length] in LN; lia|]. now rewrite EN. }
  pose proof (accc_cat _ _ _ _ _ _ (accc_set cs_nl nl eq_refl) accc_eps) as A.
  pose proof (accc_cat _ _ _ _ _ _ R3 A) as B. clear A.
  pose proof (accc_cat _ _ _ _ _ _ (accc_set cs_ws sp eq_refl) B) as A. clear B.
  pose proof (accc_cat _ _ _ _ _ _ (v_text_accc _ HV) A) as B. clear A.
  pose proof (accc_cat _ _ _ _ _ _ (accc_set cs_nl nl eq_refl) B) as A. clear B.
  pose proof (accc_cat _ _ _ _ _ _ R2 A) as B. clear A.
  pose proof (accc_cat _ _ _ _ _ _ (accc_set cs_nl nl eq_refl) B) as A. clear B.
  exact (accc_cat _ _ _ _ _ _ R1 A).
Qed.

Lemma header_split k : header_text k = pre_text k ++ l_text (kd_l k) (kd_last k).
Proof.
  unfold header_text, pre_text. change (L "   -1" ++ nl :: ?x) with (hd_line ++ x).
  generalize (l_text (kd_l k) (kd_last k)) (n_text (kd_n k)) (v_text (kd_v k)). intros x y z.
  repeat (rewrite <- app_assoc; cbn [app]). reflexivity.
Qed.

Lemma l_rows_ok rows last : l_data_ok rows last -> Forall lrow_ok (rows ++ [last]).
Proof.
  intros (H30 & HL & HF). rewrite Forall_forall in *. intros row HR. split; [|now apply HF].
  apply in_app_or in HR as [HR|[<-|[]]].
  - apply H30 in HR. destruct row; [discriminate|congruence].
  - destruct last; [cbn in HL; lia|congruence].
Qed.

Lemma m_two a b s0 : pre s0 = [] ->
  m (whole (RCat (RGrp 1 a) (RGrp 2 b))) s0 Some = m a s0 (fun s' => m (RCat (RGrp 2 b) REnd) (addcap 1 s0 s') Some).
Proof. intros E. unfold whole. cbn [snoc_end]. destruct s0 as [p r c]. cbn [pre] in E. subst p. reflexivity. Qed.

Theorem match_file f : file_data_ok f -> exists o, re_match re_ptrac (file_text f) = Some o /\
  grp 1 o = header_text (fd_header f) /\ grp 2 o = concat (map h_text (fd_histories f)).
Proof.
  intros (HK & HN & HH). set (k := fd_header f) in *. set (hs := concat (map h_text (fd_histories f))).
  assert (HD : Forall h_data_ok (fd_histories f)) by (revert HH; apply Forall_impl; tauto).
  assert (HT : tail_ok hs) by now apply hists_tail.
  assert (NH : hs <> []). { unfold hs. destruct (fd_histories f); [congruence|discriminate]. }
  assert (AH : accc (RRep false 1 None f_hist) hs []).
  { apply accc_rows; [destruct (fd_histories f); [congruence|discriminate]|]. apply Forall_map. revert HH. apply Forall_impl.
    intros h [H0 H1]. split; [now apply f_hist_accc|discriminate]. }
  assert (HL : l_data_ok (kd_l k) (kd_last k)) by (destruct HK as (_ & _ & _ & _ & _ & _ & _ & _ & H); exact H).
  set (rows := kd_l k ++ [kd_last k]). pose proof (l_rows_ok _ _ HL) as HR. fold rows in HR.
  assert (EL : l_text (kd_l k) (kd_last k) = concat (map l_row rows)).
  { unfold rows, l_text. rewrite map_app, concat_app. cbn. now rewrite app_nil_r. }
  (* the state after the header, the continuation *)
  set (s0 := mkst [] (file_text f) []).
  set (K := fun s' => m (RCat (RGrp 2 (RRep false 1 None f_hist)) REnd) (addcap 1 s0 s') Some).
  set (s1 := mkst (rev (header_text k)) hs []).
  set (s2 := addcap 1 s0 s1).
  assert (EF : file_text f = header_text k ++ hs) by reflexivity.
  assert (C2 : caps s2 = [(1, header_text k)]).
  { unfold s2, addcap, s0, s1. cbn [caps rest]. now rewrite EF, firstn_text. }
  assert (EK : exists cp, K s1 = Some (mkst (rev hs ++ rev (header_text k)) [] cp) /\ cp = [(2, hs); (1, header_text k)]).
  { exists [(2, hs); (1, header_text k)]. split; auto. unfold K. fold s2. apply m_unique with (s' := mkst (rev hs ++ rev (header_text k)) [] [(2, hs); (1, header_text k)]).
    - cbn [M]. exists (mkst (rev hs ++ rev (header_text k)) [] [(2, hs); (1, header_text k)]). split; [|auto].
      pose proof (accc_grp 2 _ _ _ AH (rev (header_text k)) [] [(1, header_text k)]) as A. rewrite app_nil_r in A. cbn [M] in A.
      unfold s2, addcap. cbn [pre rest s1]. change (caps s2) in C2 |- * || idtac. 
      replace (mkst (rev (header_text k)) hs ((1, firstn (length (rest s0) - length hs) (rest s0)) :: caps s1)) with (mkst (rev (header_text k)) hs [(1, header_text k)]); [exact A|].
      rewrite <- C2. reflexivity.
    - reflexivity.
    - intros s3 y (s4 & HM & HE) [= <-]. cbn [M] in HE. destruct HE as [HE ->].
      apply M_W in HM as (u & c & HW & E1 & E2 & E3); [|reflexivity]. rewrite HE in E1. cbn [rest s2 addcap s1] in E1.
      rewrite app_nil_r in E1. subst u. destruct HW as (c' & HW & ->). apply W_nocap in HW; [|reflexivity]. subst c'.
      rewrite C2 in E3. cbn [pre s2 addcap s1] in E2. destruct s4 as [p4 r4 k4]; cbn [pre rest caps] in *. now subst. }
  destruct EK as (cp & EK & EC).
  assert (EM : m re_ptrac s0 Some = Some (mkst (rev hs ++ rev (header_text k)) [] cp)).
  { rewrite re_ptrac_eq. unfold f_file. rewrite m_two by reflexivity. fold K.
    assert (ES : s0 = mkst [] (pre_text k ++ concat (map l_row rows) ++ hs) []).
    { unfold s0. now rewrite EF, header_split, EL, <- app_assoc. }
    rewrite m_list, ES, m_pre.
    - unfold f_lrows. apply m_lazy; [reflexivity|reflexivity| | | |].
      + unfold rows. destruct (kd_l k); discriminate.
      + now apply lrows_piecewise.
      + intros us1 us2 EU N1 N2. unfold K. apply m_none. intros s3 (s4 & HM & HE). exfalso.
        apply M_W in HM as (u & c & HW & E1 & _); [|reflexivity]. cbn [rest addcap] in E1.
        destruct HW as (c' & (ps & HF & HL1 & _ & EU2 & _) & _). destruct HF as [|[h ch] ps Hh HF]; [cbn in HL1; lia|].
        cbn [map concat fst snd] in *. subst u. rewrite <- !app_assoc in E1.
        assert (ER : exists r1 row r2, rows = r1 ++ row :: r2 /\ us2 = l_row row :: map l_row r2).
        { clear - EU N2. revert us1 EU. induction rows as [|row rows IH]; intros us1 EU.
          - symmetry in EU. apply app_eq_nil in EU as [_ ->]. congruence.
          - destruct us1 as [|u us1]; cbn [map app] in EU.
            + exists [], row, rows. auto.
            + injection EU as _ EU. apply IH in EU as (r1 & row' & r2 & -> & E). exists (row :: r1), row', r2. auto. }
        destruct ER as (r1 & row & r2 & ER & ->). rewrite ER in HR. apply Forall_app in HR as [_ HR].
        inversion HR as [|? ? [_ HRow] HR2]; subst. cbn [concat] in E1. rewrite lrow_line, <- !app_assoc in E1. cbn [app] in E1.
        destruct (l_row_ln row HRow) as [LR _].
        eapply (no_hist_at_l (sp :: concat (map (int_field 4) row))); [exact LR|apply (after_rows r2 hs); auto|exact Hh|exact E1].
      + rewrite <- EK. f_equal. unfold s1. f_equal. rewrite header_split, EL, rev_app_distr, app_nil_r. reflexivity.
    - reflexivity.
    - reflexivity.
    - now apply pre_accc.
    - intros u' t' c HW E. eapply pre_unique; eauto. }
  unfold re_match, match_at. fold s0. rewrite EM. eexists. split; [reflexivity|]. unfold grp. cbn [group mcaps caps].
  rewrite EC. split; reflexivity.
Qed.

Theorem file_write f : file_data_ok f -> ptrac_to_mcnp (file_value f) = Ok (file_text f).
Proof.
  intros (HK & HN & HH). unfold ptrac_to_mcnp, file_value. cbn [pheader histories]. rewrite header_write by auto. cbn [bind].
  rewrite (mapM_ok history_to_mcnp h_value h_text); [reflexivity|].
  intros h Hh. rewrite Forall_forall in HH. apply history_write. now apply HH.
Qed.
Theorem file_read f : file_data_ok f -> ptrac_from_mcnp (file_text f) = Ok (file_value f).
Proof.
  intros H. destruct (match_file f H) as (o & E & G1 & G2). unfold ptrac_from_mcnp. rewrite E, G1, G2.
  destruct H as (HK & HN & HH). rewrite header_read by auto. cbn [bind].
  rewrite hists_read; [|revert HH; apply Forall_impl; tauto]. cbn [bind].
  rewrite (mapM_ok history_to_mcnp h_value h_text); [reflexivity|].
  intros h Hh. rewrite Forall_forall in HH. apply history_write. now apply HH.
Qed.

(** ** Exceptions *)

Lemma read_reals_no_py o n : forall i, (forall j, j < n -> grp (i + j) o <> []) -> is_py (read_fields o i (repeat true n)) = false.
Proof.
  induction n as [|n IH]; intros i H; [reflexivity|]. cbn [repeat read_fields]. unfold fval_from_mcnp.
  pose proof (real_no_py (grp i o)) as R. specialize (R ltac:(specialize (H 0 ltac:(lia)); now rewrite Nat.add_0_r in H)).
  destruct (real_from_mcnp (grp i o)) as [v|e|e]; cbn [bind]; auto; try discriminate.
  specialize (IH (S i)). assert (G : forall j, j < n -> grp (S i + j) o <> []).
  { intros j Hj. replace (S i + j) with (i + S j) by lia. apply H. lia. }
  apply IH in G. destruct (read_fields o (S i) (repeat true n)) as [vs|e|e]; cbn [bind]; auto.
Qed.
Theorem p_no_py k s : k <= 1 -> is_py (p_from_mcnp k s) = false.
Proof.
  intros HK. unfold p_from_mcnp. change (p_count k) with (p_numbers k). rewrite re_p_line by auto. 
  assert (PC : 1 <= p_numbers k) by (destruct k as [|[|k]]; cbn; lia).
  destruct (re_match _ s) as [o|] eqn:E; [|reflexivity].
  apply match_whole_inv in E as [_ HW]; [|apply line_plain]. apply W_line in HW as (x & us & _ & HL & HF & _ & EC).
  pose proof (read_reals_no_py o (p_numbers k) 1) as R.
  destruct (read_fields o 1 (repeat true (p_numbers k))) as [vs|e|e]; cbn [bind]; auto. exfalso.
  enough (true = false) by discriminate. apply R. intros j Hj.
  unfold grp. cbn [Nat.add group]. rewrite EC, (lookup_caps 1) by lia.
  assert (HI : In (nth j us []) us) by (apply nth_In; lia). rewrite Forall_forall in HF. destruct (HF _ HI) as [HN _].
  destruct (nth j us []); [discriminate|congruence].
Qed.
Lemma match_at_W r p s o : plain r = true -> match_at r p s = Some o -> W r (mtext o) (mcaps o).
Proof.
  intros PL. unfold match_at. destruct (m r (mkst p s []) Some) as [s'|] eqn:E; [|discriminate].
  intros [= <-]. apply m_sound in E as (s1 & HM & [= ->]). apply M_W in HM as (u & c & HW & E1 & _ & E3); auto.
  cbn [rest caps] in *. rewrite E3, app_nil_r. cbn [mtext mcaps]. subst s. now rewrite firstn_text.
Qed.
Lemma search_at r : forall s p o, search r p s = Some o -> exists p' s', match_at r p' s' = Some o.
Proof.
  induction s as [|c s IH]; intros p o H; cbn [search] in H; destruct (match_at r p _) eqn:E; try discriminate.
  - injection H as <-. eauto.
  - injection H as <-. eauto.
  - eauto.
Qed.
Lemma finditer_W r s o : plain r = true -> In o (finditer r s) -> W r (mtext o) (mcaps o).
Proof.
  intros PL. unfold finditer. generalize (S (length s)) as f, (@nil ascii) as p. intros f. revert s.
  induction f as [|f IH]; intros s p H; cbn [finditer_f] in H; [destruct H|].
  destruct (search r p s) as [x|] eqn:E; [|destruct H].
  assert (G : W r (mtext x) (mcaps x)) by (apply search_at in E as (p' & s' & E); eapply match_at_W; eauto).
  destruct (mtext x) eqn:ET; [destruct (mrest x)|]; destruct H as [H|H]; subst; try rewrite ET in *; auto; try (now destruct H); eauto.
Qed.
Lemma numbers_no_py {A} (f : str -> result A) s : (forall u, u <> [] -> allc no_n u -> is_py (f u) = false) ->
  is_py (tuple_from_mcnp pat_number f s) = false.
Proof.
  intros HF. unfold tuple_from_mcnp. change (compile true (slice 2 2 pat_number)) with r_number.
  assert (G : forall o, In o (finditer r_number s) -> is_py (f (mtext o)) = false).
  { intros o Ho. apply finditer_W in Ho; [|reflexivity]. apply HF.
    - apply (must_W {| cneg := true; cranges := [] |}) in Ho; [|vm_compute; reflexivity]. intros E. rewrite E in Ho. inversion Ho.
    - apply W_alpha in Ho. revert Ho. apply allc_impl. vm_compute. reflexivity. }
  induction (finditer r_number s) as [|x l IH]; [reflexivity|]. cbn [mapM].
  apply is_py_bind; [apply G; now left|]. intros a _. apply is_py_bind; [|reflexivity]. apply IH. intros o Ho. apply G. now right.
Qed.
Theorem v_no_py s : is_py (v_from_mcnp s) = false.
Proof.
  unfold v_from_mcnp. destruct (re_match re_v s) as [o|]; [|reflexivity]. apply numbers_no_py. intros u N _. now apply real_no_py.
Qed.
Theorem l_no_py s : is_py (l_from_mcnp s) = false.
Proof.
  unfold l_from_mcnp. destruct (re_match re_l s) as [o|]; [|reflexivity]. apply numbers_no_py. apply integer_no_py.
Qed.
