(** Cells come back: the pattern of a cell card. *)

From Coq Require Import Ascii String NArith ZArith Bool Arith Lia List.
From Verif Require Import PyStr Regex RegexParse RegexFacts RegexLang PyNum PyNumFacts Types TypesSpec TypesFacts TypesFacts2 TypesFacts3 TypesFacts4 TypesFacts5 SubFacts CardText CardTextSpec CardTextFacts CardTextFacts2 CardTextFacts3 CardTextFacts4 CardTextFacts5 CardTextFacts6
  Cards Tables CardsSpec CardsFacts CardsFacts2 CardsFacts3 CardsFacts4 CardsFacts5 CardsFacts6 RegexDer Geometry Numbered Problem InpFile InpSpec InpSpec2 InpFacts InpFacts2 InpFacts5 InpFacts6 InpFacts7 InpFacts8 InpFacts9 InpFacts10 OptSpec OptFacts OptFacts2 OptFacts3 OptFacts4 OptFacts5.
Import ListNotations.
Open Scope char_scope.
Open Scope list_scope.

Definition cell_opts : list (aty * bool) := [(options_ty, true)].
Definition nonletter : cset := {| cneg := true; cranges := [(97, 122)%N; (65, 90)%N] |}.
Definition void_re : re := RBehind false [ {| cneg := false; cranges := [(48, 48)%N] |}; {| cneg := false; cranges := [(32, 32)%N] |} ].
Definition full_re : re := RCat (RBehind true [ {| cneg := false; cranges := [(48, 48)%N] |}; {| cneg := false; cranges := [(32, 32)%N] |} ]) (RCat re_blank re_word).
Definition tail5 : re := fields_re 5 cell_opts.
Definition tail4 : re := RCat (RGrp 4 (RCat re_blank (RRep false 1 None (RSet nonletter)))) tail5.
Definition tail3 : re := RCat (RGrp 3 (RAlt full_re void_re)) tail4.
Definition tail2 : re := RCat (RGrp 2 (RCat re_blank re_word)) tail3.
Lemma cell_re : re_cell = RCat RBeg (RCat (RGrp 1 re_word) tail2).
Proof. vm_cast_no_check (eq_refl re_cell). Qed.

Lemma blank_step A (k : st -> option A) p t cp : m re_blank (mkst p (sp :: t) cp) k = k (mkst (sp :: p) t cp).
Proof. reflexivity. Qed.
Lemma blank_fail A (k : st -> option A) s : hd "x" (rest s) <> sp -> m re_blank s k = None.
Proof.
  destruct s as [p r cp]. cbn [rest]. unfold re_blank. destruct r as [|c r]; [reflexivity|]. cbn [hd m rest]. intros H.
  pose proof (all_ascii (fun c => implb (inset {| cneg := false; cranges := [(32, 32)%N] |} c) (Ascii.eqb c sp)) eq_refl c) as Q. cbv beta in Q.
  destruct (inset {| cneg := false; cranges := [(32, 32)%N] |} c); [|reflexivity]. apply Ascii.eqb_eq in Q. congruence.
Qed.

(** Options begin with a blank, and take everything. *)
Lemma tail5_fail p c t cp : c <> sp -> m tail5 (mkst p (c :: t) cp) (@Some st) = None.
Proof.
  intros HC. unfold tail5, cell_opts, options_ty. cbn [fields_re field_re opt_re]. rewrite m_catE, m_optE, m_grp. cbn [m need].
  match goal with |- context [RSet ?x] => idtac | _ => idtac end.
  assert (E : forall (k : st -> option st) cp', m (chr_re sp) (mkst p (c :: t) cp') k = None) by (intros k cp'; apply (blank_fail _ k (mkst p (c :: t) cp')); exact HC).
  cbn [m] in E. rewrite E. reflexivity.
Qed.

(** The text after the geometry: nothing, or options, whose first letter is in their first word. *)
Definition options_after (txt : str) (o : option str) : Prop :=
  (txt = [] /\ o = None) \/ (o = Some txt /\ exists y c z, txt = sp :: y ++ c :: z /\ allc (inset nonletter) y /\ ~ In sp y /\ inset nonletter c = false /\ CardsFacts3.parsed tail5 5 [Some txt] txt).
Lemma options_parsed txt o : options_after txt o -> CardsFacts3.parsed tail5 5 [o] txt.
Proof. intros [[-> ->]|(-> & _ & _ & _ & _ & _ & _ & _ & H)]; [apply parsed_none|exact H]. Qed.
Lemma letter_not_sp c : inset nonletter c = false -> c <> sp.
Proof. intros H ->. discriminate. Qed.
Lemma addcap_text n p w t cp : addcap n (mkst p (w ++ t) cp) (mkst (rev w ++ p) t cp) = mkst (rev w ++ p) t ((n, w) :: cp).
Proof. unfold addcap. cbn [pre rest caps]. now rewrite firstn_consumed. Qed.
Lemma tail4_parsed G txt o : G <> [] -> allc (inset nonletter) G -> options_after txt o -> CardsFacts3.parsed tail4 4 [Some (sp :: G); o] ((sp :: G) ++ txt).
Proof.
  intros NG HG HO. apply (parsed_some tail5); [now apply options_parsed|]. intros p cp x H.
  unfold tail4. rewrite m_catE, m_grp, m_catE. cbn [app]. rewrite blank_step.
  assert (HK : (fun s' => m tail5 (addcap 4 (mkst p (sp :: G ++ txt) cp) s') (@Some st)) (mkst (rev G ++ sp :: p) txt cp) = Some x).
  { pose proof (addcap_text 4 p (sp :: G) txt cp) as E. cbn [rev app] in E, H. rewrite <- app_assoc in E, H. cbn [app] in E, H. rewrite E. exact H. }
  destruct HO as [[-> ->]|(-> & y & c & z & -> & HY & NY & HC & _)].
  - pose proof (m_plus_run _ nonletter (fun s' => m tail5 (addcap 4 (mkst p (sp :: G ++ []) cp) s') (@Some st)) G [] [] (sp :: p) cp x) as R. cbn [app] in R. apply R; auto.
    + now rewrite app_nil_r.
    + intros v1 v2 E. destruct v1; [congruence|discriminate].
  - pose proof (m_plus_run _ nonletter (fun s' => m tail5 (addcap 4 (mkst p (sp :: G ++ sp :: y ++ c :: z) cp) s') (@Some st)) G (sp :: y) (c :: z) (sp :: p) cp x) as R. cbn [app] in R. apply R; auto.
    + apply allc_app. split; auto. constructor; auto.
    + right. eauto.
    + intros v1 v2 E N1. destruct v1 as [|a v1]; [congruence|]. injection E as -> E.
      unfold addcap. cbn [pre caps]. destruct v2 as [|b v2]; cbn [app].
      * apply tail5_fail. now apply letter_not_sp.
      * apply tail5_fail. intros ->. apply NY. rewrite E. apply in_or_app. right. now left.
Qed.

(** The density, which is there unless the material is 0. *)
Lemma word_run n R p w t cp x : w <> [] -> allc (inset nonspace) w -> (t = [] \/ exists t', t = sp :: t') ->
  m R (mkst (rev w ++ sp :: p) t ((n, sp :: w) :: cp)) (@Some st) = Some x ->
  m (RCat re_blank re_word) (mkst p (sp :: w ++ t) cp) (fun s' => m R (addcap n (mkst p (sp :: w ++ t) cp) s') (@Some st)) = Some x.
Proof.
  intros NW HW HT H. rewrite m_catE, blank_step. unfold re_word.
  pose proof (m_plus_run _ nonspace (fun s' => m R (addcap n (mkst p (sp :: w ++ t) cp) s') (@Some st)) w [] t (sp :: p) cp x) as Q. cbn [app] in Q. apply Q; auto.
  - now rewrite app_nil_r.
  - destruct HT as [->|(t' & ->)]; [now left|]. right. exists sp, t'. split; reflexivity.
  - pose proof (addcap_text n p (sp :: w) t cp) as E. cbn [rev app] in E. rewrite <- app_assoc in E. cbn [app] in E. rewrite E. exact H.
  - intros v1 v2 E. destruct v1; [congruence|discriminate].
Qed.
Definition ends_zero (p : str) : bool := behind [ {| cneg := false; cranges := [(48, 48)%N] |}; {| cneg := false; cranges := [(32, 32)%N] |} ] p.
Lemma m_alt A r1 r2 s (k : st -> option A) : m (RAlt r1 r2) s k = match m r1 s k with Some x => Some x | None => m r2 s k end.
Proof. reflexivity. Qed.
Lemma tail3_full w txt gs p cp x : w <> [] -> allc (inset nonspace) w -> (exists t', txt = sp :: t') -> ends_zero p = false -> CardsFacts3.parsed tail4 4 gs txt ->
  m tail4 (mkst (rev w ++ sp :: p) txt ((3, sp :: w) :: cp)) (@Some st) = Some x -> m tail3 (mkst p (sp :: w ++ txt) cp) (@Some st) = Some x.
Proof.
  intros NW HW (t' & HT) HZ _ H. unfold tail3. rewrite m_catE, m_grp, m_alt. unfold full_re at 1. rewrite m_catE.
  assert (E : forall A (k : st -> option A) s, ends_zero (pre s) = false -> m (RBehind true [ {| cneg := false; cranges := [(48, 48)%N] |}; {| cneg := false; cranges := [(32, 32)%N] |} ]) s k = k s).
  { intros A k s Q. cbn [m]. unfold ends_zero in Q. rewrite Q. reflexivity. }
  rewrite E by exact HZ. rewrite (word_run 3 tail4 p w txt cp x); eauto.
Qed.
Lemma tail3_void txt p cp x : ends_zero p = true -> m tail4 (mkst p txt ((3, []) :: cp)) (@Some st) = Some x -> m tail3 (mkst p txt cp) (@Some st) = Some x.
Proof.
  intros HZ H. unfold tail3. rewrite m_catE, m_grp, m_alt. unfold full_re at 1. rewrite m_catE.
  assert (E : forall A (k : st -> option A) s, ends_zero (pre s) = true -> m (RBehind true [ {| cneg := false; cranges := [(48, 48)%N] |}; {| cneg := false; cranges := [(32, 32)%N] |} ]) s k = None).
  { intros A k s Q. cbn [m]. unfold ends_zero in Q. rewrite Q. reflexivity. }
  rewrite E by exact HZ.
  assert (E2 : forall A (k : st -> option A) s, ends_zero (pre s) = true -> m void_re s k = k s).
  { intros A k s Q. unfold void_re. cbn [m]. unfold ends_zero in Q. rewrite Q. reflexivity. }
  rewrite E2 by exact HZ. pose proof (addcap_text 3 p [] txt cp) as EA. cbn [rev app] in EA. rewrite EA. exact H.
Qed.

(** The whole card. *)
Lemma cell_match w1 w2 d G txt o :
  w1 <> [] -> allc (inset nonspace) w1 -> w2 <> [] -> allc (inset nonspace) w2 -> G <> [] -> allc (inset nonletter) G -> options_after txt o ->
  match d with Some w => w <> [] /\ allc (inset nonspace) w /\ w2 <> ["0"] | None => w2 = ["0"] end ->
  exists mo, re_match re_cell (w1 ++ sp :: w2 ++ gap_text d ++ (sp :: G) ++ txt) = Some mo /\
    group 1 mo = Some w1 /\ group 2 mo = Some (sp :: w2) /\ group 3 mo = Some (gap_text d) /\ group 4 mo = Some (sp :: G) /\ group 5 mo = o.
Proof.
  intros N1 H1 N2 H2 NG HG HO HD. pose proof (tail4_parsed G txt o NG HG HO) as P4. set (T4 := (sp :: G) ++ txt) in *.
  assert (HT4 : exists t', T4 = sp :: t') by (eexists; reflexivity).
  destruct (P4 (rev (gap_text d) ++ rev w2 ++ sp :: rev w1) [(3, gap_text d); (2, sp :: w2); (1, w1)]) as (p' & cs & E & HF & HL).
  assert (Z : forall p, ends_zero (rev w2 ++ sp :: p) = true <-> w2 = ["0"]).
  { intros p. unfold ends_zero. split; [|intros ->; reflexivity]. intros H. destruct w2 as [|a w2] using rev_ind; [congruence|]. clear IHw2. rewrite rev_app_distr in H. cbn [rev app behind] in H.
    apply andb_prop in H as [Ha H]. apply allc_app in H2 as [H2 _].
    destruct (rev w2) as [|b r] eqn:ER.
    - assert (w2 = []) by (rewrite <- (rev_involutive w2), ER; reflexivity). subst w2. cbn [app]. f_equal.
      pose proof (all_ascii (fun c => implb (inset {| cneg := false; cranges := [(48, 48)%N] |} c) (Ascii.eqb c "0")) eq_refl a) as Q. cbv beta in Q. rewrite Ha in Q. now apply Ascii.eqb_eq.
    - exfalso. cbn [app] in H. apply andb_prop in H as [Hb _].
      assert (IB : In b w2) by (rewrite <- (rev_involutive w2), ER; apply in_rev; rewrite rev_involutive; now left).
      unfold allc in H2. rewrite Forall_forall in H2. specialize (H2 _ IB).
      pose proof (all_ascii (fun c => negb (inset {| cneg := false; cranges := [(32, 32)%N] |} c && inset nonspace c)) eq_refl b) as Q. cbv beta in Q. rewrite Hb, H2 in Q. discriminate. }
  set (fin := mkst p' [] (cs ++ [(3, gap_text d); (2, sp :: w2); (1, w1)])) in *.
  assert (E3 : m tail3 (mkst (rev w2 ++ sp :: rev w1) (gap_text d ++ T4) [(2, sp :: w2); (1, w1)]) (@Some st) = Some fin).
  { destruct d as [w|]; cbn [gap_text app] in *.
    - destruct HD as (ND & HD & NZ). apply (tail3_full w T4 [Some (sp :: G); o]); auto.
      + destruct (ends_zero (rev w2 ++ sp :: rev w1)) eqn:EZ; auto. apply Z in EZ. congruence.
      + cbn [rev] in E. rewrite <- app_assoc in E. exact E.
    - apply tail3_void; [now apply Z|]. exact E. }
  assert (HG3 : exists t', gap_text d ++ T4 = sp :: t') by (destruct d; cbn; eauto).
  assert (E2 : m tail2 (mkst (rev w1) (sp :: w2 ++ gap_text d ++ T4) [(1, w1)]) (@Some st) = Some fin).
  { unfold tail2. rewrite m_catE, m_grp. apply word_run; auto. }
  assert (E1 : m re_cell (mkst [] (w1 ++ sp :: w2 ++ gap_text d ++ T4) []) (@Some st) = Some fin).
  { rewrite cell_re, m_catE. change (m (RCat (RGrp 1 re_word) tail2) (mkst [] (w1 ++ sp :: w2 ++ gap_text d ++ T4) []) (@Some st) = Some fin).
    rewrite m_catE, m_grp. unfold re_word.
    pose proof (m_plus_run _ nonspace (fun s' => m tail2 (addcap 1 (mkst [] (w1 ++ sp :: w2 ++ gap_text d ++ T4) []) s') (@Some st)) w1 [] (sp :: w2 ++ gap_text d ++ T4) [] [] fin) as Q. cbn [app] in Q. apply Q; auto.
    - now rewrite app_nil_r.
    - right. eexists _, _. split; reflexivity.
    - rewrite (addcap_text 1 [] w1 (sp :: w2 ++ gap_text d ++ T4) []), app_nil_r. exact E2.
    - intros v1 v2 EE. destruct v1; [congruence|discriminate]. }
  unfold re_match, match_at. rewrite E1. eexists. split; [reflexivity|]. unfold group. cbn [mcaps]. unfold fin. cbn [caps].
  assert (LO : forall n, n < 4 -> lookup n (cs ++ [(3, gap_text d); (2, sp :: w2); (1, w1)]) = lookup n [(3, gap_text d); (2, sp :: w2); (1, w1)]).
  { intros n Hn. apply lookup_above. eapply Forall_impl; [|exact HF]. cbn. intros; lia. }
  rewrite !LO by lia. split; [reflexivity|]. split; [reflexivity|]. split; [reflexivity|].
  pose proof (HL 0 ltac:(cbn; lia)) as L4. pose proof (HL 1 ltac:(cbn; lia)) as L5. cbn [Nat.add nth] in L4, L5. split; [exact L4|]. destruct o; exact L5.
Qed.
