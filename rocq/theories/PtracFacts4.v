(** Events and histories. *)

From Coq Require Import Ascii String NArith ZArith Bool Arith List Lia.
From Verif Require Import PyStr Regex RegexParse RegexFacts RegexLang PyNum PyNumFacts Types TypesSpec TypesFacts TypesFacts2 TypesFacts3 TypesFacts4 SubFacts CardsFacts CardsFacts2 CardsFacts7 GeometryFacts3 Ptrac PtracSpec PtracFacts PtracFacts2 PtracFacts3.
Import ListNotations.
Open Scope char_scope.

(** ** Texts cut at line ends *)

(** A line that starts with a blank. *)
Definition ln (s : str) : Prop := exists v, s = sp :: v /\ allc notnl v.
Lemma ln_notnl s : ln s -> allc notnl s.
Proof. intros (v & -> & H). constructor; auto. Qed.
Lemma line_cut a b s t : ln a -> (exists x v, b = x :: v /\ allc notnl v) -> a ++ nl :: s = b ++ nl :: t -> a = b /\ s = t.
Proof.
  intros (u & -> & HU) (x & v & -> & HV) E. cbn [app] in E. inversion E as [[Ex E']].
  apply (split_unique notnl) in E' as (-> & _ & ->); auto.
Qed.

(** ** Events *)

Fixpoint j_alts (i n : nat) (ns : list nat) : re :=
  match ns with [] => line i 10 (pred n) | n' :: ns' => RAlt (line i 10 (pred n)) (j_alts (i + n) n' ns') end.
Definition r_jalts (i : nat) : re := j_alts (S i) 5 [6; 6; 7; 6; 7; 7; 8].
Definition r_palts (i : nat) : re := RAlt (line (i + 54) 13 2) (line (i + 57) 13 8).
Definition r_ev (i : nat) : re :=
  RCat (RGrp i (r_jalts i)) (RCat (RSet cs_nl) (RCat (RGrp (i + 53) (r_palts i)) (RSet cs_nl))).
Lemma re_event_eq : re_event = whole (r_ev 1).
Proof. vm_compute. reflexivity. Qed.
Lemma re_event_inner : compile true (slice 2 2 pat_event) = r_ev 1.
Proof. vm_compute. reflexivity. Qed.

Definition lnx (ns : list nat) (s : str) : Prop := exists x v, s = x :: v /\ allc notnl v /\ In (length v) ns.
Lemma W_linex i w n ns u c : W (line i w n) u c -> In (S n * w) ns -> lnx ns u.
Proof.
  intros H HI. apply W_line in H as (x & us & _ & HL & HF & -> & _). exists x, (concat us). split; auto.
  split; [|rewrite (fields_length w), HL; auto].
  clear - HF. induction HF as [|u us [_ H] HF IH]; cbn; [constructor|]. apply allc_app. auto.
Qed.
Lemma W_jalts i u c : W (r_jalts i) u c -> lnx [50; 60; 70; 80] u.
Proof.
  unfold r_jalts. cbn [j_alts]. intros H.
  repeat (destruct H as [H|H]; [eapply W_linex; [exact H|cbn; tauto]|]). eapply W_linex; [exact H|cbn; tauto].
Qed.
Lemma W_palts i u c : W (r_palts i) u c -> lnx [39; 117] u.
Proof. intros [H|H]; (eapply W_linex; [exact H|cbn; tauto]). Qed.

Lemma W_set_nl u c : W (RSet cs_nl) u c -> u = [nl] /\ c = [].
Proof.
  intros (x & -> & Hx & ->). split; auto.
  pose proof (all_ascii (fun c => implb (inset cs_nl c) (ceqb c nl)) eq_refl x) as Q. cbv beta in Q. rewrite Hx in Q.
  apply ceqb_eq in Q. now rewrite Q.
Qed.
Lemma W_ev i u c : W (r_ev i) u c -> exists j p cj cp, u = j ++ nl :: p ++ [nl] /\ W (r_jalts i) j cj /\ W (r_palts i) p cp /\
  c = ((i + 53, p) :: cp) ++ (i, j) :: cj.
Proof.
  intros (j & t1 & c1 & d1 & (cj & HJ & ->) & H & -> & ->).
  destruct H as (n1 & t2 & c2 & d2 & HN & H & -> & ->). apply W_set_nl in HN as [-> ->].
  destruct H as (p & n2 & c3 & d3 & (cp & HP & ->) & HN & -> & ->). apply W_set_nl in HN as [-> ->].
  exists j, p, cj, cp. split; auto. split; auto. split; auto. now rewrite app_nil_r.
Qed.

Lemma groups_line i w n g : g < i -> groups_above g (line i w n) = true.
Proof.
  intros H. unfold line. cbn [groups_above andb]. assert (HK : g < i + n) by lia. revert HK. generalize (i + n) as k. intros k HK.
  revert i H. induction n as [|n IH]; intros i H; cbn [cells cell run groups_above].
  - apply Nat.ltb_lt in HK. now rewrite HK.
  - rewrite IH by lia. apply Nat.ltb_lt in H. now rewrite H.
Qed.
Lemma groups_palts i : groups_above i (r_palts i) = true.
Proof. unfold r_palts. cbn [groups_above]. rewrite !groups_line; auto; lia. Qed.
Lemma ev_plain i : plain (r_ev i) = true.
Proof. unfold r_ev, r_jalts, r_palts. cbn [plain j_alts]. now rewrite !line_plain. Qed.

Lemma j_text_ln j : j_data_ok j -> ln (j_text j) /\ length (j_text j) = 1 + S (length (j_types (jd_form j))) * 10.
Proof.
  intros H. destruct (j_fields_ok j H) as [HL HF]. rewrite j_text_fields. split.
  - exists (concat (j_fields j)). split; auto. clear - HF. induction HF as [|u us [_ H] HF IH]; cbn; [constructor|]. apply allc_app. auto.
  - cbn [length]. rewrite (fields_length 10) by auto. now rewrite HL.
Qed.
Lemma p_text_ln k l : p_data_ok k l -> ln (p_text l) /\ length (p_text l) = 1 + p_numbers k * 13.
Proof.
  intros [HL HF]. apply E_fields_ok in HF. unfold p_text. split.
  - eexists. split; [reflexivity|]. revert HF. generalize (map (E_field 5) l). clear. intros us HF.
    induction HF as [|u us [_ H] HF IH]; cbn; [constructor|]. apply allc_app. auto.
  - cbn [length]. rewrite (fields_length 13) by auto. now rewrite map_length, HL.
Qed.
Lemma i_text_ln i : i_data_ok i -> ln (i_text i) /\ In (length (i_text i)) [21; 31; 34; 44].
Proof.
  intros H. destruct (i_fields_ok i H) as (F1 & F2 & F3 & F4). rewrite i_text_fields.
  assert (N : forall w o, ofield w o -> allc notnl (otext o) /\ length (otext o) = match o with Some _ => w | None => 0 end).
  { intros w [u|]; cbn; [intros [A B]; auto|split; auto; constructor]. }
  apply N in F3 as [A3 L3]. apply N in F4 as [A4 L4]. destruct F1 as [L1 A1], F2 as [L2 A2]. split.
  - eexists. split; [reflexivity|].
    apply allc_app; split; [exact A1|]. apply allc_app; split; [exact A2|]. now apply allc_app.
  - cbn [length]. rewrite !app_length, L1, L2, L3, L4. destruct (i_number_field i), (i_tfc_field i); cbn; tauto.
Qed.

Lemma e_text_cut e k s u t c : e_data_ok k e -> W (r_ev 1) u c \/ (exists i, W (r_ev i) u c) -> e_text e ++ s = u ++ t -> u = e_text e.
Proof.
  intros (HJ & _ & HP) HW E. assert (HW' : exists i, W (r_ev i) u c) by (destruct HW; eauto). clear HW. destruct HW' as [i HW].
  apply W_ev in HW as (j & p & cj & cp & -> & WJ & WP & _).
  apply W_jalts in WJ as (x & v & -> & V1 & V2). apply W_palts in WP as (y & w & -> & W1 & W2).
  destruct (j_text_ln _ HJ) as [LJ _]. destruct (p_text_ln _ _ HP) as [LP _].
  unfold e_text in *. rewrite <- !app_assoc in E. cbn [app] in E. rewrite <- !app_assoc in E. cbn [app] in E.
  apply (line_cut _ (x :: v)) in E as [-> E]; [|auto|eauto].
  apply (line_cut _ (y :: w)) in E as [-> E]; [|auto|eauto]. reflexivity.
Qed.

Lemma p_forms k : In k [0; 1] -> k <= 1.
Proof. cbn. lia. Qed.
Lemma j_accc i j : j_data_ok j -> In (jd_form j) [0; 1; 3; 7] -> exists c, accc (r_jalts i) (j_text j) c.
Proof.
  intros H HI. destruct (j_fields_ok j H) as [HL HF]. rewrite j_text_fields. unfold r_jalts. cbn [j_alts].
  destruct HI as [E|[E|[E|[E|[]]]]]; rewrite <- E in HL; cbn [j_types length] in HL; eexists.
  - apply accc_altl. apply accc_line; auto.
  - apply accc_altr, accc_altl. apply accc_line; auto.
  - do 3 apply accc_altr. apply accc_altl. apply accc_line; auto.
  - do 7 apply accc_altr. apply accc_line; auto.
Qed.
Lemma p_accc i k l : In k [0; 1] -> p_data_ok k l -> exists c, accc (r_palts i) (p_text l) c.
Proof.
  intros HK [HL HF]. apply E_fields_ok in HF. unfold p_text, r_palts.
  assert (LL : length (map (E_field 5) l) = p_numbers k) by now rewrite map_length.
  destruct HK as [<-|[<-|[]]]; eexists.
  - apply accc_altl. apply accc_line; auto.
  - apply accc_altr. apply accc_line; auto.
Qed.
Lemma e_accc i k e : In k [0; 1] -> e_data_ok k e -> exists c, accc (r_ev i) (e_text e) c.
Proof.
  intros HK (HJ & HF & HP). destruct (j_accc i _ HJ HF) as [cj AJ]. destruct (p_accc i k _ HK HP) as [cp AP].
  eexists. unfold e_text, r_ev.
  pose proof (accc_cat _ _ _ _ _ _ (accc_grp (i + 53) _ _ _ AP) (accc_set cs_nl nl eq_refl)) as A1.
  pose proof (accc_cat _ _ _ _ _ _ (accc_set cs_nl nl eq_refl) A1) as A2.
  exact (accc_cat _ _ _ _ _ _ (accc_grp i _ _ _ AJ) A2).
Qed.

Lemma j_wrong k s : k <= 7 -> length s <> 1 + S (length (j_types k)) * 10 -> j_from_mcnp k s = Lib PtracError.
Proof. intros HK HL. unfold j_from_mcnp. rewrite re_j_line, match_line_none; auto. Qed.
Lemma p_wrong k s : k <= 1 -> length s <> 1 + p_numbers k * 13 -> p_from_mcnp k s = Lib PtracError.
Proof. intros HK HL. unfold p_from_mcnp. rewrite re_p_line, match_line_none; auto. destruct k as [|[|k]]; cbn in *; lia. Qed.

Lemma first_form_hit {A} (read : nat -> result A) before k after x :
  (forall i, In i before -> read i = Lib PtracError) -> read k = Ok x ->
  first_form read (before ++ k :: after) = Ok (Some x).
Proof.
  induction before as [|i l IH]; intros HB HK; cbn [app first_form].
  - now rewrite HK.
  - rewrite HB by now left. apply IH; auto. intros j Hj. apply HB. now right.
Qed.

Lemma first_j j : j_data_ok j -> In (jd_form j) [0; 1; 3; 7] ->
  first_form (fun k => j_from_mcnp k (j_text j)) [0; 1; 2; 3; 4; 5; 6; 7] = Ok (Some (j_value j)).
Proof.
  intros H HI. pose proof (j_read j H) as R. destruct (j_text_ln j H) as [_ LJ].
  assert (HW : forall k, k <= 7 -> length (j_types k) <> length (j_types (jd_form j)) -> j_from_mcnp k (j_text j) = Lib PtracError).
  { intros k HK NE. apply j_wrong; auto. lia. }
  destruct HI as [E|[E|[E|[E|[]]]]]; rewrite <- E in *.
  - apply (first_form_hit _ [] 0 [1; 2; 3; 4; 5; 6; 7]); auto. intros ? [].
  - apply (first_form_hit _ [0] 1 [2; 3; 4; 5; 6; 7]); auto. intros i [<-|[]]. apply HW; cbn; lia.
  - apply (first_form_hit _ [0; 1; 2] 3 [4; 5; 6; 7]); auto.
    intros i [<-|[<-|[<-|[]]]]; apply HW; cbn; lia.
  - apply (first_form_hit _ [0; 1; 2; 3; 4; 5; 6] 7 []); auto.
    intros i [<-|[<-|[<-|[<-|[<-|[<-|[<-|[]]]]]]]]; apply HW; cbn; lia.
Qed.
Lemma first_p k l : In k [0; 1] -> p_data_ok k l ->
  first_form (fun k => p_from_mcnp k (p_text l)) [0; 1] = Ok (Some (p_value k l)).
Proof.
  intros HK H. destruct (p_text_ln k l H) as [_ LP].
  pose proof (p_read k l (p_forms k HK) H) as R.
  destruct HK as [E|[E|[]]]; rewrite <- E in *.
  - apply (first_form_hit _ [] 0 [1]); auto. intros ? [].
  - apply (first_form_hit _ [0] 1 []); auto. intros i [<-|[]]. apply p_wrong; cbn in *; lia.
Qed.

Theorem event_read k e : In k [0; 1] -> e_data_ok k e -> event_from_mcnp (e_text e) = Ok (e_value k e).
Proof.
  intros HK H. destruct (e_accc 1 k e HK H) as [c0 A].
  destruct (match_ex (r_ev 1) (e_text e) c0 (ev_plain 1) A) as (o & E & _ & HW).
  unfold event_from_mcnp. rewrite re_event_eq, E.
  apply W_ev in HW as (j & p & cj & cp & ET & WJ & WP & EC).
  assert (EJ : j = j_text (ed_j e) /\ p = p_text (ed_p e)).
  { pose proof H as (HJ & _ & HP). destruct (j_text_ln _ HJ) as [LJ _]. destruct (p_text_ln _ _ HP) as [LP _].
    apply W_jalts in WJ as (x & v & -> & V1 & V2). apply W_palts in WP as (y & w & -> & W1 & W2).
    unfold e_text in ET.
    apply (line_cut _ (x :: v)) in ET as [-> ET]; [|auto|eauto].
    apply (line_cut _ (y :: w)) in ET as [-> _]; [|auto|eauto]. auto. }
  destruct EJ as [-> ->].
  assert (G1 : grp 1 o = j_text (ed_j e)).
  { unfold grp. cbn [group]. rewrite EC. rewrite lookup_above; [reflexivity|].
    constructor; [cbn; lia|]. eapply W_above; [apply groups_palts|exact WP]. }
  assert (G2 : grp 54 o = p_text (ed_p e)).
  { unfold grp. cbn [group]. rewrite EC. reflexivity. }
  rewrite G1, G2. destruct H as (HJ & HI & HP). rewrite first_j, (first_p k) by auto. reflexivity.
Qed.
Theorem event_write k e : In k [0; 1] -> e_data_ok k e -> event_to_mcnp (e_value k e) = Ok (e_text e).
Proof.
  intros HK (HJ & HI & HP & HN). unfold event_to_mcnp, e_value. cbn [p_line j_line]. rewrite p_write; auto.
  - cbn [bind]. rewrite j_write; [reflexivity|]. now destruct HJ as (_ & _ & HL & _).
  - destruct (ed_p e); [|congruence]. destruct k as [|[|k]]; discriminate.
Qed.

(** ** Histories *)

Definition r_any : re := RRep false 1 None (RSet cs_dot).
Definition r_hist : re := RCat (RGrp 1 r_any) (RCat (RSet cs_nl) (RGrp 2 (RRep false 1 None (r_ev 3)))).
Lemma re_history_eq : re_history = whole r_hist.
Proof. vm_compute. reflexivity. Qed.
Lemma re_history_inner : compile false (slice 2 2 pat_history) = r_hist.
Proof. vm_compute. reflexivity. Qed.

Lemma accc_some_rows r (us : list str) : us <> [] -> Forall (fun u => (exists c, accc r u c) /\ u <> []) us ->
  exists c, accc (RRep false 1 None r) (concat us) c.
Proof.
  intros HN HF.
  assert (HL : exists l : list (str * capl), map fst l = us /\ Forall (fun x => accc r (fst x) (snd x) /\ fst x <> []) l).
  { clear HN. induction HF as [|u us [[c A] NU] HF (l & E & IH)]; [exists []; auto|].
    exists ((u, c) :: l). cbn. split; [congruence|]. constructor; auto. }
  destruct HL as (l & <- & HL). eexists. apply accc_rep; auto. destruct l; [now destruct HN|cbn; lia].
Qed.

Definition events_text (l : list (nat * edata)) : str := concat (map (fun x => e_text (snd x)) l).
Definition events_ok (l : list (nat * edata)) : Prop := Forall (fun x => In (fst x) [0; 1] /\ e_data_ok (fst x) (snd x)) l.
Lemma e_text_nonempty e : e_text e <> [].
Proof. discriminate. Qed.
Lemma events_accc i l : l <> [] -> events_ok l -> exists c, accc (RRep false 1 None (r_ev i)) (events_text l) c.
Proof.
  intros HN HF. apply accc_some_rows; [destruct l; [congruence|discriminate]|].
  apply Forall_map. revert HF. apply Forall_impl. intros [k e] [HK HE]. split; [|apply e_text_nonempty].
  now apply (e_accc i k).
Qed.
Lemma accc_any u : u <> [] -> allc notnl u -> accc r_any u [].
Proof. intros HN HA. apply accc_rep_set; auto; [now apply allc_dot|destruct u; [congruence|cbn; lia]]. Qed.
Lemma W_any u c : W r_any u c -> u <> [] /\ allc notnl u /\ c = [].
Proof.
  intros H. apply W_rep_set in H as (A & B & _ & ->). split; [destruct u; [cbn in B; lia|discriminate]|].
  split; auto. now apply allc_dot.
Qed.

Lemma groups_ev g i : g < i -> groups_above g (r_ev i) = true.
Proof.
  intros H. unfold r_ev, r_jalts, r_palts. cbn [groups_above j_alts]. rewrite !groups_line by lia.
  assert (E1 : (g <? i)%nat = true) by (apply Nat.ltb_lt; lia).
  assert (E2 : (g <? i + 53)%nat = true) by (apply Nat.ltb_lt; lia). now rewrite E1, E2.
Qed.
Lemma hist_plain : plain r_hist = true.
Proof. unfold r_hist. cbn [plain]. now rewrite ev_plain. Qed.

Lemma match_ev i e k p s : In k [0; 1] -> e_data_ok k e -> exists c,
  match_at (r_ev i) p (e_text e ++ s) = Some {| mpre := p; mtext := e_text e; mrest := s; mcaps := c |}.
Proof.
  intros HK H. destruct (e_accc i k e HK H) as [c0 A]. unfold match_at.
  destruct (m (r_ev i) (mkst p (e_text e ++ s) []) Some) as [s1|] eqn:E.
  - apply m_sound in E as (s2 & HM & [= ->]). apply M_W in HM as (u & c & HW & E1 & E2 & E3); [|apply ev_plain].
    cbn [rest pre caps] in *. pose proof (e_text_cut e k s u (rest s1) c H (or_intror (ex_intro _ i HW)) E1) as ->.
    apply app_inv_head in E1. subst s. exists (caps s1). now rewrite firstn_text.
  - exfalso. eapply m_complete; [apply (A p s [])| |exact E]. discriminate.
Qed.

Lemma events_cut l : events_ok l -> cut (r_ev 1) (map (fun x => e_text (snd x)) l).
Proof.
  induction 1 as [|[k e] l [HK HE] HF IH]; cbn [map cut]; auto. split; [apply e_text_nonempty|]. split; auto.
  intros p. now apply (match_ev 1 e k).
Qed.
Theorem events_read l : events_ok l -> events_from_mcnp (events_text l) = Ok (map (fun x => e_value (fst x) (snd x)) l).
Proof.
  intros H. unfold events_from_mcnp. rewrite re_event_inner.
  rewrite (mapM_mtext (fun s => bind (event_from_mcnp s) (fun e => bind (event_to_mcnp e) (fun _ => Ok e)))).
  unfold events_text. rewrite finditer_cut; [|reflexivity|now apply events_cut].
  apply mapM_ok. intros [k e] Hx. unfold events_ok in H. rewrite Forall_forall in H. apply H in Hx as [HK HE]. cbn [fst snd] in *.
  rewrite (event_read k e HK HE). cbn [bind]. rewrite (event_write k e HK HE). reflexivity.
Qed.

Theorem history_read h : h_data_ok h -> history_from_mcnp (h_text h) = Ok (h_value h).
Proof.
  intros (HI & HZ & HN & HE). destruct (i_text_ln _ HI) as [LI _]. destruct (events_accc 3 _ HN HE) as [c0 A].
  pose proof (accc_any (i_text (hd_i h)) ltac:(discriminate) (ln_notnl _ LI)) as A0.
  pose proof (accc_cat _ _ _ _ _ _ (accc_set cs_nl nl eq_refl) (accc_grp 2 _ _ _ A)) as A1.
  pose proof (accc_cat _ _ _ _ _ _ (accc_grp 1 _ _ _ A0) A1) as A2.
  destruct (match_ex r_hist (h_text h) _ hist_plain A2) as (o & E & _ & HW).
  unfold history_from_mcnp. rewrite re_history_eq, E.
  destruct HW as (u & t1 & c1 & d1 & (ca & HA & ->) & HW & ET & EC). apply W_any in HA as (_ & NA & ->).
  destruct HW as (n1 & v & c2 & d2 & HNL & (ce & HV & ->) & -> & ->). apply W_set_nl in HNL as [-> ->].
  unfold h_text in ET. cbn [app] in ET.
  apply (split_unique notnl) in ET as (<- & _ & <-); auto; [|now apply ln_notnl].
  assert (G1 : grp 1 o = i_text (hd_i h)).
  { unfold grp. cbn [group]. rewrite EC, app_nil_r, lookup_above; [reflexivity|].
    constructor; [cbn; lia|]. eapply (W_above 1 _); [|exact HV]. cbn [groups_above]; apply groups_ev; lia. }
  assert (G2 : grp 2 o = events_text (hd_events h)).
  { unfold grp. cbn [group]. rewrite EC. reflexivity. }
  rewrite G1, G2, i_read by auto. cbn [bind]. rewrite events_read by auto. reflexivity.
Qed.
Theorem history_write h : h_data_ok h -> history_to_mcnp (h_value h) = Ok (h_text h).
Proof.
  intros (HI & HZ & HN & HE). unfold history_to_mcnp, h_value. cbn [i_line events]. rewrite i_write by auto. cbn [bind].
  rewrite (mapM_ok event_to_mcnp (fun x => e_value (fst x) (snd x)) (fun x => e_text (snd x))).
  - reflexivity.
  - intros [k e] Hx. rewrite Forall_forall in HE. apply HE in Hx as [HK H]. now apply event_write.
Qed.

(** ** Greedy repetition of pieces that can be read in one way *)

Fixpoint greedy (r : re) (us : list str) (t : str) : Prop :=
  match us with
  | [] => forall u t' c, W r u c -> t = u ++ t' -> False
  | u :: us' => u <> [] /\ (exists c, accc r u c) /\
      (forall u' t' c, W r u' c -> u ++ concat us' ++ t = u' ++ t' -> u' = u) /\ greedy r us' t
  end.

Lemma piece_run {A} r u s (k : st -> option A) p cp : plain r = true -> (exists c, accc r u c) ->
  (forall u' t' c, W r u' c -> u ++ s = u' ++ t' -> u' = u) -> (forall cp', k (mkst (rev u ++ p) s cp') <> None) ->
  exists cp', m r (mkst p (u ++ s) cp) k = k (mkst (rev u ++ p) s cp').
Proof.
  intros PL [c HA] HU HK. destruct (m r (mkst p (u ++ s) cp) k) as [x|] eqn:E.
  - apply m_sound in E as (s1 & HM & EK). apply M_W in HM as (u' & c' & HW & E1 & E2 & E3); auto. cbn [rest pre caps] in *.
    pose proof (HU _ _ _ HW E1) as ->. apply app_inv_head in E1. exists (caps s1). rewrite <- EK, E1, <- E2. now destruct s1.
  - exfalso. eapply m_complete; [apply (HA p s cp)| |exact E]. apply HK.
Qed.

Lemma loopg_greedy {A} r (k : st -> option A) us t : plain r = true -> (forall s, k s <> None) -> greedy r us t ->
  forall fuel p cp, length (concat us ++ t) < fuel ->
  exists cp', loopg (fun s k => m r s k) k fuel None (mkst p (concat us ++ t) cp) = k (mkst (rev (concat us) ++ p) t cp').
Proof.
  intros PL HK. induction us as [|u us IH]; cbn [greedy]; intros HG fuel p cp HL; (destruct fuel as [|f]; [lia|]).
  - exists cp. cbn [concat app rev loopg czero].
    replace (m r (mkst p t cp) _) with (@None A); auto. symmetry. apply m_none. intros s1 HM. exfalso.
    apply M_W in HM as (u' & c' & HW & E1 & _); auto. eapply HG; eauto.
  - destruct HG as (NU & HA & HU & HG). cbn [concat] in *. rewrite <- app_assoc in *.
    cbn [loopg czero cdec].
    set (k' := fun s' => if progress (mkst p (u ++ concat us ++ t) cp) s' then loopg (fun s k => m r s k) k f None s' else k s').
    assert (KT : forall s', k' s' <> None).
    { intros s'. unfold k'. destruct (progress _ _); auto. generalize f as f'. intros f' Hf'. revert s' Hf'. induction f' as [|f' IHf]; intros s'; cbn [loopg czero].
      - apply HK.
      - destruct (m r s' _); [discriminate|apply HK]. }
    destruct (piece_run r u (concat us ++ t) k' p cp PL HA HU) as (cp1 & E1); [intros; apply KT|].
    rewrite E1. unfold k' at 1.
    assert (PR : progress (mkst p (u ++ concat us ++ t) cp) (mkst (rev u ++ p) (concat us ++ t) cp1) = true) by now apply progress_app.
    rewrite PR. destruct (IH HG f (rev u ++ p) cp1) as (cp2 & E2).
    { rewrite app_length in HL. destruct u; [congruence|cbn in HL; lia]. }
    rewrite E2. rewrite rev_app_distr, <- app_assoc. exists cp2.
    destruct (k (mkst (rev (concat us) ++ rev u ++ p) t cp2)) eqn:EK; [reflexivity|]. now apply HK in EK.
Qed.
Lemma m_greedy {A} r (k : st -> option A) us t p cp : plain r = true -> (forall s, k s <> None) -> us <> [] -> greedy r us t ->
  exists cp', m (RRep false 1 None r) (mkst p (concat us ++ t) cp) k = k (mkst (rev (concat us) ++ p) t cp').
Proof.
  intros PL HK HN HG. destruct us as [|u us]; [congruence|]. cbn [greedy] in HG. destruct HG as (NU & HA & HU & HG).
  cbn [m need maxleft concat]. rewrite <- app_assoc.
  set (k' := fun s => loopg (fun s k => m r s k) k (S (length (rest s))) None s).
  assert (KT : forall s', k' s' <> None).
  { intros s'. unfold k'. generalize (S (length (rest s'))) as f'. intros f'. revert s'. induction f' as [|f' IHf]; intros s'; cbn [loopg czero].
    - apply HK.
    - destruct (m r s' _); [discriminate|apply HK]. }
  destruct (piece_run r u (concat us ++ t) k' p cp PL HA HU) as (cp1 & E1); [intros; apply KT|].
  change (exists cp', m r (mkst p (u ++ concat us ++ t) cp) k' = k (mkst (rev (u ++ concat us) ++ p) t cp')).
  rewrite E1. unfold k'. cbn [rest].
  destruct (loopg_greedy r k us t PL HK HG (S (length (concat us ++ t))) (rev u ++ p) cp1 ltac:(lia)) as (cp2 & E2).
  exists cp2. now rewrite E2, rev_app_distr, <- app_assoc.
Qed.

(** What may follow a history: nothing or another I line. *)
Definition tail_ok (t : str) : Prop := t = [] \/ exists i s, i_data_ok i /\ t = i_text i ++ nl :: s.
Lemma events_greedy i l t : events_ok l -> tail_ok t -> greedy (r_ev i) (map (fun x => e_text (snd x)) l) t.
Proof.
  intros H HT. induction H as [|[k e] l [HK HE] HF IH]; cbn [map greedy].
  - intros u t' c HW E. apply W_ev in HW as (j & p & cj & cp & -> & WJ & WP & _).
    apply W_jalts in WJ as (x & v & -> & V1 & V2).
    destruct HT as [->|(d & s & Hd & ->)]; [discriminate|]. destruct (i_text_ln _ Hd) as [LI LL].
    rewrite <- app_assoc in E. cbn [app] in E.
    apply (line_cut _ (x :: v)) in E as [E _]; [|auto|eauto]. rewrite E in LL. cbn [length] in LL.
    cbn in V2, LL. lia.
  - split; [apply e_text_nonempty|]. split; [now apply (e_accc i k)|]. split; auto.
    intros u' t' c HW E. cbn [snd] in *. eapply e_text_cut; [exact HE|right; exists i; exact HW|exact E].
Qed.

Lemma match_hist h p t : h_data_ok h -> tail_ok t -> exists c,
  match_at r_hist p (h_text h ++ t) = Some {| mpre := p; mtext := h_text h; mrest := t; mcaps := c |}.
Proof.
  intros (HI & HZ & HN & HE) HT. destruct (i_text_ln _ HI) as [LI _].
  unfold match_at. unfold h_text. rewrite <- app_assoc. cbn [app]. fold (events_text (hd_events h)).
  set (s0 := mkst p (i_text (hd_i h) ++ nl :: events_text (hd_events h) ++ t) []).
  set (s1 := mkst (rev (i_text (hd_i h)) ++ p) (nl :: events_text (hd_events h) ++ t) []).
  set (s2 := mkst (nl :: rev (i_text (hd_i h)) ++ p) (events_text (hd_events h) ++ t) (caps (addcap 1 s0 s1))).
  destruct (m_greedy (r_ev 3) (fun s' => Some (addcap 2 s2 s')) (map (fun x => e_text (snd x)) (hd_events h)) t
     (pre s2) (caps s2)) as (cp' & E); [apply ev_plain|discriminate|destruct (hd_events h); [congruence|discriminate]|now apply events_greedy|].
  assert (EM : m r_hist s0 Some = Some (addcap 2 s2 (mkst (rev (events_text (hd_events h)) ++ pre s2) t cp'))).
  { unfold r_hist.
    change (m r_any s0 (fun s' => m (RCat (RSet cs_nl) (RGrp 2 (RRep false 1 None (r_ev 3)))) (addcap 1 s0 s') Some)
      = Some (addcap 2 s2 (mkst (rev (events_text (hd_events h)) ++ pre s2) t cp'))).
    unfold s0 at 1. rewrite <- (app_nil_l (nl :: events_text (hd_events h) ++ t)) at 1.
    apply m_plus_run.
    - discriminate.
    - rewrite app_nil_r. apply allc_dot. now apply ln_notnl.
    - right. exists nl, (events_text (hd_events h) ++ t). split; reflexivity.
    - exact E.
    - intros v1 v2 E' NV. destruct v1; [congruence|discriminate]. }
  rewrite EM. cbn [rest caps addcap]. eexists. f_equal. f_equal.
  replace (i_text (hd_i h) ++ nl :: events_text (hd_events h) ++ t)
    with ((i_text (hd_i h) ++ nl :: events_text (hd_events h)) ++ t) by now rewrite <- app_assoc.
  apply firstn_text.
Qed.

Lemma h_text_tail h s : h_data_ok h -> tail_ok (h_text h ++ s).
Proof. intros (HI & _). right. exists (hd_i h), (events_text (hd_events h) ++ s). split; auto. unfold h_text. now rewrite <- app_assoc. Qed.
Lemma hists_tail hs : Forall h_data_ok hs -> tail_ok (concat (map h_text hs)).
Proof. intros H. destruct H; [now left|]. cbn. now apply h_text_tail. Qed.
Lemma hists_cut hs : Forall h_data_ok hs -> cut r_hist (map h_text hs).
Proof.
  induction 1 as [|h hs H HF IH]; cbn [map cut]; auto. split; [discriminate|]. split; auto.
  intros p. apply match_hist; auto. now apply hists_tail.
Qed.
Theorem hists_read hs : Forall h_data_ok hs ->
  mapM (fun x => history_from_mcnp (mtext x)) (finditer (compile false (slice 2 2 pat_history)) (concat (map h_text hs)))
  = Ok (map h_value hs).
Proof.
  intros H. rewrite re_history_inner, (mapM_mtext history_from_mcnp), finditer_cut; [|reflexivity|now apply hists_cut].
  apply mapM_ok. intros h Hh. rewrite Forall_forall in H. apply history_read. auto.
Qed.
