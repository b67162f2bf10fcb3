(** The header and the file. *)

From Coq Require Import Ascii String NArith ZArith Bool Arith List Lia.
From Verif Require Import PyStr Regex RegexParse RegexFacts RegexLang PyNum PyNumFacts Types TypesSpec TypesFacts TypesFacts2 TypesFacts3 TypesFacts4 SubFacts CardsFacts CardsFacts2 CardsFacts7 GeometryFacts3 PtracSpec PtracFacts PtracFacts2 PtracFacts3 PtracFacts4 PtracFacts5 Meshtal MeshtalSpec MeshtalFacts.
Import ListNotations.
Open Scope char_scope.

(** ** Texts that can be read in one way only *)

Definition det (r : re) (u t : str) (c : capl) : Prop :=
  accc r u c /\ forall u' t' c', W r u' c' -> u ++ t = u' ++ t' -> u' = u /\ c' = c.

Lemma det_cat a b u v t c d : det a u (v ++ t) c -> det b v t d -> det (RCat a b) (u ++ v) t (d ++ c).
Proof.
  intros [A1 A2] [B1 B2]. split; [now apply accc_cat|].
  intros u' t' c' (u1 & u2 & c1 & c2 & H1 & H2 & -> & ->) E. rewrite <- !app_assoc in E.
  destruct (A2 _ _ _ H1 E) as [-> ->]. apply app_inv_head in E. destruct (B2 _ _ _ H2 E) as [-> ->]. auto.
Qed.
Lemma det_grp n a u t c : det a u t c -> det (RGrp n a) u t ((n, u) :: c).
Proof.
  intros [A1 A2]. split; [now apply accc_grp|]. intros u' t' c' (c1 & H & ->) E. destruct (A2 _ _ _ H E) as [-> ->]. auto.
Qed.
Lemma det_set cs x t : inset cs x = true -> det (RSet cs) [x] t [].
Proof.
  intros H. split; [now apply accc_set|]. intros u' t' c' (y & -> & _ & ->) E. cbn in E. injection E as <- _. auto.
Qed.
Lemma det_run w u t : field w u -> det (run w) u t [].
Proof.
  intros [H N]. split; [now apply accc_run|]. intros u' t' c' HW E. apply W_run in HW as (HL & _ & ->). split; auto.
  symmetry. apply (app_inj_len u t u' t'); congruence.
Qed.
Lemma det_cell i w u t : field w u -> det (cell i w) u t [(i, u)].
Proof. intros H. apply (det_grp i (run w) u t []). now apply det_run. Qed.
Lemma det_cons cs x b v t d : inset cs x = true -> det b v t d -> det (RCat (RSet cs) b) (x :: v) t d.
Proof. intros H HB. pose proof (det_cat _ b [x] v t [] d (det_set cs x (v ++ t) H) HB) as D. now rewrite app_nil_r in D. Qed.
(** Two expressions reading the same text. *)
Lemma line_cut' u v s t : allc notnl u -> allc notnl v -> u ++ nl :: s = v ++ nl :: t -> u = v /\ s = t.
Proof.
  intros HU HV E. assert (G : ln (sp :: u)) by (exists u; auto).
  destruct (line_cut (sp :: u) (sp :: v) s t G) as [A B]; [eauto|change (sp :: (u ++ nl :: s) = sp :: (v ++ nl :: t)); now rewrite E|]. injection A as ->. auto.
Qed.
Lemma det_any i b u v t d : u <> [] -> allc notnl u -> det b v t d ->
  det (RCat (RGrp i r_any) (RCat (RSet cs_nl) b)) (u ++ nl :: v) t (d ++ [(i, u)]).
Proof.
  intros NU HU [B1 B2]. split.
  - apply accc_cat; [apply (accc_grp i r_any u []); now apply accc_any|].
    pose proof (accc_cat _ _ _ _ _ _ (accc_set cs_nl nl eq_refl) B1) as A. rewrite app_nil_r in A. exact A.
  - intros u' t' c' (u1 & u2 & c1 & c2 & (c3 & H1 & ->) & (u3 & u4 & c4 & c5 & H3 & H4 & -> & ->) & -> & ->) E.
    apply W_any in H1 as (N1 & A1 & ->). apply W_set_nl in H3 as [-> ->]. rewrite <- !app_assoc in E. cbn [app] in E.
    apply line_cut' in E as [<- E]; auto. destruct (B2 _ _ _ H4 E) as [-> ->]. rewrite app_nil_r. auto.
Qed.
Lemma det_any0 b u v t d : u <> [] -> allc notnl u -> det b v t d ->
  det (RCat r_any (RCat (RSet cs_nl) b)) (u ++ nl :: v) t d.
Proof.
  intros NU HU [B1 B2]. split.
  - pose proof (accc_cat _ _ _ _ _ _ (accc_set cs_nl nl eq_refl) B1) as A.
    pose proof (accc_cat _ _ _ _ _ _ (accc_any u NU HU) A) as A'. rewrite !app_nil_r in A'. exact A'.
  - intros u' t' c' (u1 & u2 & c1 & c2 & H1 & (u3 & u4 & c4 & c5 & H3 & H4 & -> & ->) & -> & ->) E.
    apply W_any in H1 as (N1 & A1 & ->). apply W_set_nl in H3 as [-> ->]. rewrite <- !app_assoc in E. cbn [app] in E.
    apply line_cut' in E as [<- E]; auto. destruct (B2 _ _ _ H4 E) as [-> ->]. rewrite !app_nil_r. auto.
Qed.

(** Letters in either case. *)
Definition ci (c : ascii) : cset :=
  let n := code c in
  if (97 <=? n)%N && (n <=? 122)%N then cs [(n, n); (n - 32, n - 32)]%N
  else if (65 <=? n)%N && (n <=? 90)%N then cs [(n, n); (n + 32, n + 32)]%N
  else cs_chr n.
Fixpoint cis (s : str) (r : re) : re := match s with [] => r | c :: t => RCat (RSet (ci c)) (cis t r) end.
Lemma ci_in c : inset (ci c) c = true.
Proof. revert c. apply all_ascii. vm_compute. reflexivity. Qed.
Lemma det_cis s r v t c : det r v t c -> det (cis s r) (s ++ v) t c.
Proof. intros H. induction s as [|x s IH]; auto. cbn [cis app]. apply det_cons; auto. apply ci_in. Qed.

(** Rows of bins, then an empty line. *)
Definition r_bin : re := cis (L "    ") (RCat r_any (RSet cs_nl)).
Definition bin_rows (rows : list str) : str := concat (map (fun r => L "    " ++ r ++ [nl]) rows).
Lemma W_cis s r u c : W (cis s r) u c -> exists w v, u = w ++ v /\ length w = length s /\ W r v c.
Proof.
  revert u c. induction s as [|x s IH]; cbn [cis]; intros u c H; [exists [], u; auto|].
  destruct H as (u1 & u2 & c1 & c2 & (y & -> & _ & ->) & H & -> & ->). apply IH in H as (w & v & -> & HL & H).
  exists (y :: w), v. rewrite app_nil_r. cbn. auto.
Qed.
Lemma W_blanks s r u c : (forall x, In x s -> x = sp) -> W (cis s r) u c -> exists v, u = s ++ v /\ W r v c.
Proof.
  revert u c. induction s as [|x s IH]; cbn [cis]; intros u c HS H; [exists u; auto|].
  destruct H as (u1 & u2 & c1 & c2 & (y & -> & I & ->) & H & -> & ->). apply IH in H as (v & -> & H); [|cbn in *; auto].
  rewrite (HS x) in * by now left. change (ci sp) with (cs_chr (code sp)) in I. rewrite inset_chr_ceqb in I. apply ceqb_eq in I. subst y.
  exists v. rewrite app_nil_r. auto.
Qed.
Lemma W_bin u c : W r_bin u c -> exists r, u = L "    " ++ r ++ [nl] /\ r <> [] /\ allc notnl r /\ c = [].
Proof.
  intros H. apply W_blanks in H as (v & -> & H); [|cbn; intuition congruence].
  destruct H as (u1 & u2 & c1 & c2 & H1 & H2 & -> & ->). apply W_any in H1 as (N & A & ->). apply W_set_nl in H2 as [-> ->].
  exists u1. auto.
Qed.
Lemma bin_accc r : r <> [] -> allc notnl r -> accc r_bin (L "    " ++ r ++ [nl]) [].
Proof.
  intros N A. pose proof (accc_cat _ _ _ _ _ _ (accc_any r N A) (accc_set cs_nl nl eq_refl)) as B.
  do 4 (apply (accc_cat (RSet (cs_chr 32)) _ [sp] _ [] []) in B; [|now apply accc_set]). exact B.
Qed.

Definition row_text (r : str) : Prop := r <> [] /\ allc notnl r.
Lemma W_bins u c : W (RRep false 1 None r_bin) u c -> exists rows, Forall row_text rows /\ u = bin_rows rows /\ c = [].
Proof.
  intros (l & HF & _ & _ & -> & ->). induction HF as [|[u c] l H HF IH]; [exists []; auto|].
  destruct IH as (rows & R & EU & EC). cbn [fst snd] in H. apply W_bin in H as (r & -> & N & A & ->).
  exists (r :: rows). split; [constructor; auto; split; auto|]. cbn [map concat rev fst snd]. rewrite EU, concat_app, EC. auto.
Qed.
Lemma bins_cut rows rows' s t : Forall row_text rows -> Forall row_text rows' ->
  bin_rows rows ++ nl :: s = bin_rows rows' ++ nl :: t -> rows = rows' /\ s = t.
Proof.
  intros H. revert rows'. induction H as [|r rows [N A] HF IH]; intros rows' H' E.
  - destruct H' as [|r' rows' [N' A'] HF']; [now injection E|]. discriminate.
  - destruct H' as [|r' rows' [N' A'] HF']; [discriminate|].
    unfold bin_rows in E. cbn [map concat] in E. rewrite <- !app_assoc in E. apply app_inv_head in E. cbn [app] in E.
    apply line_cut' in E as [-> E]; auto. apply IH in E as [-> ->]; auto.
Qed.
Lemma bins_accc rows : rows <> [] -> Forall row_text rows -> accc (RRep false 1 None r_bin) (bin_rows rows) [].
Proof.
  intros N H. unfold bin_rows. apply accc_rows; [destruct rows; [congruence|discriminate]|].
  rewrite Forall_map. eapply Forall_impl; [|exact H]. intros r [NR A]. split; [now apply bin_accc|discriminate].
Qed.
Lemma det_bins i b rows v t d : rows <> [] -> Forall row_text rows -> det b v t d ->
  det (RCat (RGrp i (RRep false 1 None r_bin)) (RCat (RSet cs_nl) b)) (bin_rows rows ++ nl :: v) t (d ++ [(i, bin_rows rows)]).
Proof.
  intros NR HR [B1 B2]. split.
  - apply accc_cat; [apply (accc_grp i _ (bin_rows rows) []); now apply bins_accc|].
    pose proof (accc_cat _ _ _ _ _ _ (accc_set cs_nl nl eq_refl) B1) as A. rewrite app_nil_r in A. exact A.
  - intros u' t' c' (u1 & u2 & c1 & c2 & (c3 & H1 & ->) & (u3 & u4 & c4 & c5 & H3 & H4 & -> & ->) & -> & ->) E.
    apply W_bins in H1 as (rows' & R' & -> & ->). apply W_set_nl in H3 as [-> ->]. rewrite <- !app_assoc in E. cbn [app] in E.
    apply bins_cut in E as [<- E]; auto. destruct (B2 _ _ _ H4 E) as [-> ->]. rewrite app_nil_r. auto.
Qed.
Lemma det_bins0 b rows v t d : rows <> [] -> Forall row_text rows -> det b v t d ->
  det (RCat (RRep false 1 None r_bin) (RCat (RSet cs_nl) b)) (bin_rows rows ++ nl :: v) t d.
Proof.
  intros NR HR [B1 B2]. split.
  - pose proof (accc_cat _ _ _ _ _ _ (accc_set cs_nl nl eq_refl) B1) as A.
    pose proof (accc_cat _ _ _ _ _ _ (bins_accc rows NR HR) A) as A'. rewrite !app_nil_r in A'. exact A'.
  - intros u' t' c' (u1 & u2 & c1 & c2 & H1 & (u3 & u4 & c4 & c5 & H3 & H4 & -> & ->) & -> & ->) E.
    apply W_bins in H1 as (rows' & R' & -> & ->). apply W_set_nl in H3 as [-> ->]. rewrite <- !app_assoc in E. cbn [app] in E.
    apply bins_cut in E as [<- E]; auto. destruct (B2 _ _ _ H4 E) as [-> ->]. rewrite !app_nil_r. auto.
Qed.
Lemma det_last i u t : u <> [] -> allc notnl u -> det (RCat (RGrp i r_any) (RSet cs_nl)) (u ++ [nl]) t [(i, u)].
Proof.
  intros NU HU. split.
  - apply (accc_cat (RGrp i r_any) (RSet cs_nl) u [nl] [(i, u)] []); [apply (accc_grp i r_any u []); now apply accc_any|now apply accc_set].
  - intros u' t' c' (u1 & u2 & c1 & c2 & (c3 & H1 & ->) & H3 & -> & ->) E.
    apply W_any in H1 as (N1 & A1 & ->). apply W_set_nl in H3 as [-> ->]. rewrite <- !app_assoc in E. cbn [app] in E.
    apply line_cut' in E as [<- E]; auto.
Qed.
Lemma det_last0 u t : u <> [] -> allc notnl u -> det (RCat r_any (RSet cs_nl)) (u ++ [nl]) t [].
Proof.
  intros NU HU. split.
  - apply (accc_cat r_any (RSet cs_nl) u [nl] [] []); [now apply accc_any|now apply accc_set].
  - intros u' t' c' (u1 & u2 & c1 & c2 & H1 & H3 & -> & ->) E.
    apply W_any in H1 as (N1 & A1 & ->). apply W_set_nl in H3 as [-> ->]. rewrite <- !app_assoc in E. cbn [app] in E.
    apply line_cut' in E as [<- E]; auto.
Qed.

(** ** The two header expressions *)

Notation "a >> b" := (RCat a b) (at level 45, right associativity).
Definition ws : re := RSet cs_ws.
Definition rn : re := RSet cs_nl.
Definition r_head : re :=
  cell 1 7 >> cis (L "version ") (cell 2 6 >> cis (L "ld=") (cell 3 10 >> cis (L "probid =") (cell 4 20 >> rn >> ws >> RGrp 5 r_any >> rn >>
  ws >> cis (L "Number of histories used for normalizing tallies =") (cell 6 17 >> rn >> rn >> ws >> cis (L "Mesh Tally Number") (cell 7 10 >> rn >>
  ws >> cell 8 8 >> cis (L " mesh tally.") (rn >> rn >> cis (L " Tally bin boundaries:") (rn >> RGrp 9 (RRep false 1 None r_bin) >> rn >> RGrp 10 r_any >> rn))))))).
Lemma re_mheader_eq : re_mheader = whole r_head.
Proof. vm_compute. reflexivity. Qed.
Definition r_head0 : re :=
  run 7 >> cis (L "version ") (run 6 >> cis (L "ld=") (run 10 >> cis (L "probid =") (run 20 >> rn >> ws >> r_any >> rn >>
  ws >> cis (L "Number of histories used for normalizing tallies =") (run 17 >> rn >> rn >> ws >> cis (L "Mesh Tally Number") (run 10 >> rn >>
  ws >> run 8 >> cis (L " mesh tally.") (rn >> rn >> cis (L " Tally bin boundaries:") (rn >> RRep false 1 None r_bin >> rn >> r_any >> rn))))))).
Lemma re_meshtal_eq : exists c, re_meshtal = whole (RGrp 1 r_head0 >> RGrp 2 (RRep false 1 None (RSet c))) /\ forall x, inset c x = true.
Proof. eexists. split; [vm_compute; reflexivity|]. apply all_ascii. vm_compute. reflexivity. Qed.

(** ** Digits *)

Lemma digits_inj a : forall b, digits a -> digits b -> length a = length b -> N_of_digits a = N_of_digits b -> a = b.
Proof.
  induction a as [|x a IH]; intros [|y b] DA DB HL HV; try discriminate; auto.
  inversion DA as [|? ? X DA']; subst. inversion DB as [|? ? Y DB']; subst. cbn [length] in HL. injection HL as HL.
  rewrite !N_of_digits_cons in HV. pose proof (N_of_digits_lt _ DA') as BA. pose proof (N_of_digits_lt _ DB') as BB.
  rewrite HL in *. set (P := (10 ^ N.of_nat (length b))%N) in *.
  assert (E : digit_val x = digit_val y) by nia.
  assert (EX : [x] = [y]) by (rewrite <- (str_of_digit x X), <- (str_of_digit y Y); now rewrite E).
  injection EX as ->. f_equal. apply IH; auto. lia.
Qed.
Lemma N_of_digits_snoc s c : N_of_digits (s ++ [c]) = (10 * N_of_digits s + digit_val c)%N.
Proof. unfold N_of_digits. now rewrite fold_left_app. Qed.
Lemma str_of_hundreds n : n <> 0%N -> str_of_N (100 * n) = str_of_N n ++ L "00".
Proof.
  intros HN. destruct (str_of_N_head n HN) as (c & s & E & HC).
  pose proof (N_of_str_of_N n) as V. pose proof (str_of_N_digits n) as D. pose proof (N_of_digits_lt _ D) as U. rewrite V in U.
  assert (V2 : N_of_digits (str_of_N n ++ L "00") = (100 * n)%N).
  { change (L "00") with (["0"] ++ ["0"]). rewrite app_assoc, !N_of_digits_snoc, V. change (digit_val "0") with 0%N. lia. }
  symmetry. apply digits_inj.
  - apply digits_app. split; auto. repeat constructor.
  - apply str_of_N_digits.
  - symmetry. apply str_of_N_length; [rewrite app_length; cbn; lia|]. rewrite app_length. cbn [length L list_ascii_of_string].
    assert (P : (10 ^ N.of_nat (length (str_of_N n) + 2) = 100 * 10 ^ N.of_nat (length (str_of_N n)))%N).
    { replace (N.of_nat (length (str_of_N n) + 2)) with (2 + N.of_nat (length (str_of_N n)))%N by lia. now rewrite N.pow_add_r. }
    rewrite P. rewrite E in V |- *. rewrite N_of_digits_cons in V. cbn [length].
    replace (N.of_nat (S (length s) + 2) - 1)%N with (2 + N.of_nat (length s))%N by lia. rewrite N.pow_add_r.
    rewrite E in U. cbn [length] in U. change (10 ^ 2)%N with 100%N. nia.
  - now rewrite V2, N_of_str_of_N.
Qed.
Lemma hist_text n : str_of_N n ++ L ".00" = dec_str (Fin false (100 * n) (-2)).
Proof.
  destruct (N.eq_dec n 0) as [->|HN]; [reflexivity|].
  unfold dec_str. rewrite (str_of_hundreds n HN). rewrite app_length. cbn [length L list_ascii_of_string].
  pose proof (str_of_N_nonempty n) as NE.
  assert (LE : 1 <= length (str_of_N n)) by (destruct (str_of_N n); [congruence|cbn; lia]).
  set (k := length (str_of_N n)) in *.
  replace (-2 + Z.of_nat (k + 2))%Z with (Z.of_nat k) by lia.
  replace (-6 <? Z.of_nat k)%Z with true by lia. change (-2 <=? 0)%Z with true. cbn [andb].
  replace (Z.of_nat k <=? 0)%Z with false by lia. assert (EG : (Z.of_nat (k + 2) <=? Z.of_nat k)%Z = false) by (apply Z.leb_gt; lia). rewrite EG.
  rewrite Z.eqb_refl, Nat2Z.id. unfold k. rewrite firstn_app, skipn_app, Nat.sub_diag, firstn_all, skipn_all. cbn [firstn skipn app].
  now rewrite !app_nil_r.
Qed.
Lemma hist_read n : length (str_of_N n) <= 14 -> integer_from_mcnp (rjust 17 (str_of_N n ++ L ".00")) = Ok (IVal (Z.of_N n)).
Proof.
  intros HL. rewrite rjust_blanks, hist_text. eapply integer_pad; [apply number_text_dec|apply to_dec_str|].
  - unfold dec_ok, ndigits. destruct (N.eq_dec n 0) as [->|HN]; [reflexivity|]. rewrite str_of_hundreds by auto.
    rewrite app_length. cbn [length L list_ascii_of_string]. unfold MIN_ETINY, MAX_EMAX. apply andb_true_intro. split; apply Z.leb_le; lia.
  - unfold dec_to_int. cbn [Z.leb Z.compare Z.opp]. f_equal. change (10 ^ 2)%Z with 100%Z. rewrite N2Z.inj_mul. 
    change (Z.of_N 100) with 100%Z. rewrite Z.mul_comm. now apply Z.div_mul.
Qed.

(** ** The bins *)

Definition named (h : hdata) : list (str * str) :=
  concat (map (fun x => match snd x with Some v => [(fst x, v)] | None => [] end)
    [(L "X direction", h_x h); (L "Y direction", h_y h); (L "Z direction", h_z h);
     (L "Time bin boundaries", h_time h); (L "Energy bin boundaries", h_energy h)]).
Definition pair_row (x : str * str) : str := fst x ++ ":" :: snd x.
Lemma bin_texts h : bin_text "X direction" (h_x h) ++ bin_text "Y direction" (h_y h) ++ bin_text "Z direction" (h_z h) ++
   bin_text "Time bin boundaries" (h_time h) ++ bin_text "Energy bin boundaries" (h_energy h) = bin_rows (map pair_row (named h)).
Proof.
  unfold named, bin_rows, pair_row, bin_text. destruct (h_x h), (h_y h), (h_z h), (h_time h), (h_energy h);
    cbn [map concat fst snd app]; rewrite <- ?app_assoc, ?app_nil_r; cbn [app]; rewrite <- ?app_assoc; reflexivity.
Qed.
Definition bin_name (n : str) : Prop := (exists c t, n = c :: t /\ is_space c = false) /\ allc notnl n /\ ~ In ":" n.
Lemma named_ok h : hdata_ok h -> named h <> [] /\ Forall (fun x => bin_name (fst x) /\ row_text (snd x)) (named h).
Proof.
  intros (_ & _ & _ & _ & _ & _ & _ & _ & _ & HB & (s & HS)). split.
  - unfold named. cbn [In] in HS. intros E.
    destruct HS as [H|[H|[H|[H|[H|[]]]]]]; rewrite H in E; cbn [map concat fst snd app] in E; try discriminate;
      repeat match type of E with context [match ?o with Some _ => _ | None => _ end] => destruct o; try discriminate end.
  - assert (G : forall n o, bin_name n -> bin_ok o -> Forall (fun x : str * str => bin_name (fst x) /\ row_text (snd x)) (match o with Some v => [(n, v)] | None => [] end)).
    { intros n [v|] HN HO; constructor; auto. split; auto. destruct HO as [A B]. split; auto. now apply notin_notnl. }
    inversion HB as [|? ? B1 HB1]; subst. inversion HB1 as [|? ? B2 HB2]; subst. inversion HB2 as [|? ? B3 HB3]; subst.
    inversion HB3 as [|? ? B4 HB4]; subst. inversion HB4 as [|? ? B5 _]; subst.
    assert (N : forall c t, is_space c = false -> forallb notnl (c :: t) = true -> forallb (fun x => negb (ceqb x ":")) (c :: t) = true -> bin_name (c :: t)).
    { intros c t A B C. split; [eauto|]. rewrite forallb_forall in B, C. split; [now apply Forall_forall|].
      intros I. apply C in I. discriminate. }
    unfold named. cbn [map concat fst snd].
    apply Forall_app; split; [apply G; [apply N; reflexivity|assumption]|].
    apply Forall_app; split; [apply G; [apply N; reflexivity|assumption]|].
    apply Forall_app; split; [apply G; [apply N; reflexivity|assumption]|].
    apply Forall_app; split; [apply G; [apply N; reflexivity|assumption]|].
    apply Forall_app; split; [apply G; [apply N; reflexivity|assumption]|constructor].
Qed.
Lemma bins_named h : bins_of (named h) no_bins =
  Ok {| b_x := h_x h; b_y := h_y h; b_z := h_z h; b_energy := h_energy h; b_time := h_time h |}.
Proof. unfold named. destruct (h_x h), (h_y h), (h_z h), (h_time h), (h_energy h); reflexivity. Qed.

(** Matches with their captures. *)
Fixpoint cutc (r : re) (ts : list (str * capl)) : Prop :=
  match ts with
  | [] => True
  | (t, c) :: ts' => t <> [] /\ (forall p, match_at r p (t ++ concat (map fst ts')) = Some {| mpre := p; mtext := t; mrest := concat (map fst ts'); mcaps := c |}) /\ cutc r ts'
  end.
Lemma finditer_cutc r ts : (forall p, match_at r p [] = None) -> cutc r ts ->
  map (fun o => (mtext o, mcaps o)) (finditer r (concat (map fst ts))) = ts.
Proof.
  intros HN HC. unfold finditer.
  enough (G : forall fuel p, length (concat (map fst ts)) < fuel -> map (fun o => (mtext o, mcaps o)) (finditer_f fuel r p (concat (map fst ts))) = ts) by (apply G; lia).
  induction ts as [|[t c] ts IH]; intros fuel p HL; (destruct fuel as [|f]; [cbn in HL; lia|]).
  - cbn [map concat finditer_f search]. now rewrite HN.
  - destruct HC as (NT & HM & HC). specialize (HM p). cbn [finditer_f concat map fst] in *.
    assert (ES : search r p (t ++ concat (map fst ts)) = Some {| mpre := p; mtext := t; mrest := concat (map fst ts); mcaps := c |}).
    { destruct (t ++ concat (map fst ts)); cbn [search]; now rewrite HM. }
    rewrite ES. cbn [mtext mrest mpre]. destruct t as [|a t]; [congruence|]. cbn [map mtext mcaps]. f_equal.
    apply IH; auto. rewrite app_length in HL. cbn in HL. lia.
Qed.

Definition cs_name : cset := {| cneg := true; cranges := [(10, 10); (58, 58)]%N |}.
Lemma re_bins_eq : re_bins = RCat (RRep false 1 None (RSet cs_ws)) (RCat (RGrp 1 (RRep false 1 None (RSet cs_name))) (RCat (RSet (cs_chr 58))
  (RCat (RGrp 2 (RRep false 1 None (RSet cs_dot))) (RAlt (RSet cs_nl) REnd)))).
Proof. vm_compute. reflexivity. Qed.
Lemma m_plus_all {A} cs (k : st -> option A) u t p cp x : u <> [] -> allc (inset cs) u ->
  (t = [] \/ exists c t', t = c :: t' /\ inset cs c = false) -> k (mkst (rev u ++ p) t cp) = Some x ->
  m (RRep false 1 None (RSet cs)) (mkst p (u ++ t) cp) k = Some x.
Proof.
  intros NU HU HT HK. apply (m_plus_run A cs k u [] t p cp x); auto.
  - now rewrite app_nil_r.
  - intros v1 v2 E NV. destruct v1; [congruence|discriminate].
Qed.
Lemma cs_name_in c : inset cs_name c = notnl c && negb (ceqb c ":").
Proof. apply eqb_prop. revert c. apply all_ascii. vm_compute. reflexivity. Qed.
Lemma bin_match n v t p : bin_name n -> row_text v ->
  match_at re_bins p ((L "    " ++ n ++ ":" :: v ++ [nl]) ++ t)
  = Some {| mpre := p; mtext := L "    " ++ n ++ ":" :: v ++ [nl]; mrest := t; mcaps := [(2, v); (1, n)] |}.
Proof.
  intros ((c & n' & EN & SC) & NN & NC) [NV AV]. apply match_at_hit. rewrite re_bins_eq.
  assert (AN : allc (inset cs_name) n).
  { apply Forall_forall. intros x I. rewrite cs_name_in. unfold allc in NN. rewrite Forall_forall in NN. rewrite (NN x I). cbn [andb].
    unfold ceqb. destruct (Ascii.eqb_spec x ":"); [subst; contradiction|reflexivity]. }
  rewrite <- !app_assoc. cbn [app]. rewrite <- !app_assoc. cbn [m].
  apply (m_plus_all cs_ws _ (L "    ")); [discriminate|repeat constructor| |].
  { right. exists c, (n' ++ ":" :: v ++ [nl] ++ t). subst n. split; auto.
    pose proof (all_ascii (fun c => implb (negb (is_space c)) (negb (inset cs_ws c))) eq_refl c) as A. cbv beta in A. rewrite SC in A. cbn [negb implb] in A. now apply negb_true_iff. }
  apply m_plus_all; [subst n; discriminate|exact AN|right; eexists _, _; split; [reflexivity|reflexivity]|].
  unfold addcap. cbn [rest pre caps]. rewrite firstn_consumed.
  change (inset (cs_chr 58) ":") with true. cbv iota.
  apply m_plus_all; [exact NV|now apply allc_dot|right; eexists _, _; split; [reflexivity|reflexivity]|].
  cbn [rest pre caps]. rewrite firstn_consumed. cbn [app]. change (inset cs_nl nl) with true. cbv iota.
  f_equal. f_equal. change (L "    ") with [sp; sp; sp; sp]. rewrite !rev_app_distr. cbn [rev app]. rewrite !rev_app_distr. cbn [rev app]. now rewrite <- !app_assoc.
Qed.
Lemma bins_read h : hdata_ok h ->
  map (fun x => (grp 1 x, grp 2 x)) (finditer re_bins (bin_rows (map pair_row (named h)))) = named h.
Proof.
  intros HH. destruct (named_ok h HH) as [_ HN]. clear HH.
  assert (E : bin_rows (map pair_row (named h)) = concat (map fst (map (fun x => (L "    " ++ fst x ++ ":" :: snd x ++ [nl], [(2, snd x); (1, fst x)])) (named h)))).
  { unfold bin_rows. rewrite !map_map. f_equal. apply map_ext. intros [n v]. unfold pair_row. cbn [fst snd]. now rewrite <- app_assoc. }
  assert (C : cutc re_bins (map (fun x => (L "    " ++ fst x ++ ":" :: snd x ++ [nl], [(2, snd x); (1, fst x)])) (named h))).
  { clear E. induction HN as [|[n v] l [A B] HN IH]; [exact I|]. cbn [map cutc fst snd] in *. split; [discriminate|]. split; auto.
    intros p. now apply bin_match. }
  pose proof (finditer_cutc re_bins _ (fun p => eq_refl) C) as F.
  assert (G : forall os l, map (fun o => (mtext o, mcaps o)) os = map (fun x : str * str => (L "    " ++ fst x ++ ":" :: snd x ++ [nl], [(2, snd x); (1, fst x)])) l ->
    map (fun x => (grp 1 x, grp 2 x)) os = l).
  { clear. induction os as [|o os IH]; intros [|[n v] l] H; try discriminate; auto. cbn [map fst snd] in *.
    pose proof (f_equal (@tl _) H) as HT. pose proof (f_equal (hd ([], [])) H) as HD. cbn [tl hd] in HT, HD.
    rewrite (IH _ HT). apply (f_equal snd) in HD. cbn [snd] in HD. unfold grp. cbn [group]. rewrite HD. reflexivity. }
  rewrite E. exact (G _ _ F).
Qed.

(** ** The header *)

Definition hcaps (h : hdata) : capl :=
  [(10, h_columns h); (9, bin_rows (map pair_row (named h))); (8, h_particle h); (7, rjust 10 (str_of_Z (h_number h)));
   (6, rjust 17 (str_of_N (h_histories h) ++ L ".00")); (5, h_title h); (4, h_probid h); (3, h_ld h); (2, h_version h); (1, h_code h)].
Lemma col_field w s : column w s -> field w s.
Proof. intros [A B]. split; auto. now apply notin_notnl. Qed.
Lemma digits_notnl s : digits s -> allc notnl s.
Proof. intros H. apply Forall_forall. intros x I. unfold digits, allc in H. rewrite Forall_forall in H. apply H in I. revert I. 
  pose proof (all_ascii (fun c => implb (is_digit c) (notnl c)) eq_refl x) as A. cbv beta in A. intros I. now rewrite I in A. Qed.
Lemma det_cell' i w b u v t d : field w u -> det b v t d -> det (RCat (cell i w) b) (u ++ v) t (d ++ [(i, u)]).
Proof. intros F D. apply det_cat; auto. now apply det_cell. Qed.
Lemma det_run' w b u v t d : field w u -> det b v t d -> det (RCat (run w) b) (u ++ v) t d.
Proof. intros F D. pose proof (det_cat _ b u v t [] d (det_run w u (v ++ t) F) D) as E. now rewrite app_nil_r in E. Qed.
Lemma det_nl b v t d : det b v t d -> det (RCat rn b) (nl :: v) t d.
Proof. now apply det_cons. Qed.
Lemma det_ws b v t d : det b v t d -> det (RCat ws b) (sp :: v) t d.
Proof. now apply det_cons. Qed.

Lemma fields_of h : hdata_ok h -> field 17 (rjust 17 (str_of_N (h_histories h) ++ L ".00")) /\ field 10 (rjust 10 (str_of_Z (h_number h))).
Proof.
  intros (_ & _ & _ & _ & _ & HH & HN & _). split; split.
  - apply rjust_length. rewrite app_length. cbn. lia.
  - apply rjust_notnl. apply allc_app. split; [apply digits_notnl, str_of_N_digits|repeat constructor].
  - now apply rjust_length.
  - apply (int_field_notnl 10).
Qed.
Lemma rows_of h : hdata_ok h -> map pair_row (named h) <> [] /\ Forall row_text (map pair_row (named h)).
Proof.
  intros HH. destruct (named_ok h HH) as [A B]. split; [destruct (named h); [congruence|discriminate]|].
  rewrite Forall_map. eapply Forall_impl; [|exact B]. intros [n v] [(_ & N2 & _) [NV AV]]. unfold pair_row. cbn [fst snd] in *. split; [destruct n; discriminate|].
  apply allc_app. split; auto. constructor; auto.
Qed.
Lemma text_row s : text_line s -> s <> [] /\ allc notnl s.
Proof. intros [A B]. split; auto. now apply notin_notnl. Qed.

Lemma head_det h t : hdata_ok h -> det r_head (htext h) t (hcaps h).
Proof.
  intros HH. destruct (fields_of h HH) as [F17 F10]. destruct (rows_of h HH) as [NR HR].
  destruct HH as (C1 & C2 & C3 & C4 & HT & _ & _ & C8 & HC & _).
  apply col_field in C1, C2, C3, C4, C8. apply text_row in HT as [NT AT]. apply text_row in HC as [NC AC].
  unfold htext, hcaps. rewrite bin_texts. unfold r_head.
  apply (det_cell' 1 7 _ (h_code h) _ t [_; _; _; _; _; _; _; _; _]); auto. apply det_cis.
  apply (det_cell' 2 6 _ (h_version h) _ t [_; _; _; _; _; _; _; _]); auto. apply det_cis.
  apply (det_cell' 3 10 _ (h_ld h) _ t [_; _; _; _; _; _; _]); auto. apply det_cis.
  apply (det_cell' 4 20 _ (h_probid h) _ t [_; _; _; _; _; _]); auto. apply det_nl, det_ws.
  apply (det_any 5 _ (h_title h) _ t [_; _; _; _; _]); auto.
  change (L " Number of histories used for normalizing tallies =") with (sp :: L "Number of histories used for normalizing tallies =").
  cbn [app]. apply det_ws. apply (det_cis (L "Number of histories used for normalizing tallies =")).
  apply (det_cell' 6 17 _ _ _ t [_; _; _; _]); auto. apply det_nl, det_nl, det_ws.
  apply (det_cis (L "Mesh Tally Number")).
  apply (det_cell' 7 10 _ _ _ t [_; _; _]); auto. apply det_nl, det_ws.
  apply (det_cell' 8 8 _ (h_particle h) _ t [_; _]); auto. apply det_cis. apply det_nl, det_nl. apply det_cis. apply det_nl.
  apply (det_bins 9 _ _ _ t [_]); auto. now apply det_last.
Qed.
Lemma head_det0 h t : hdata_ok h -> det r_head0 (htext h) t [].
Proof.
  intros HH. destruct (fields_of h HH) as [F17 F10]. destruct (rows_of h HH) as [NR HR].
  destruct HH as (C1 & C2 & C3 & C4 & HT & _ & _ & C8 & HC & _).
  apply col_field in C1, C2, C3, C4, C8. apply text_row in HT as [NT AT]. apply text_row in HC as [NC AC].
  unfold htext. rewrite bin_texts. unfold r_head0.
  apply det_run'; auto. apply det_cis. apply det_run'; auto. apply det_cis. apply det_run'; auto. apply det_cis.
  apply det_run'; auto. apply det_nl, det_ws. apply det_any0; auto.
  change (L " Number of histories used for normalizing tallies =") with (sp :: L "Number of histories used for normalizing tallies =").
  cbn [app]. apply det_ws. apply (det_cis (L "Number of histories used for normalizing tallies =")).
  apply det_run'; auto. apply det_nl, det_nl, det_ws. apply (det_cis (L "Mesh Tally Number")).
  apply det_run'; auto. apply det_nl, det_ws. apply det_run'; auto. apply det_cis. apply det_nl, det_nl. apply det_cis. apply det_nl.
  apply det_bins0; auto. now apply det_last0.
Qed.
Theorem mheader_read h : hdata_ok h -> mheader_from_mcnp (htext h) = Ok (hvalue h).
Proof.
  intros HH. unfold mheader_from_mcnp. rewrite re_mheader_eq. destruct (head_det h [] HH) as [D1 D2].
  rewrite (match_whole r_head (htext h) (hcaps h) eq_refl D1); [|intros c' HW; now destruct (D2 _ [] _ HW eq_refl)].
  unfold grp at 1 2. cbn [group mcaps]. unfold hcaps at 1 2. cbn [lookup Nat.eqb].
  pose proof HH as (_ & _ & _ & _ & _ & B1 & B2 & _).
  rewrite hist_read by auto. cbn [bind].
  change (rjust 10 (str_of_Z (h_number h))) with (int_field 10 (h_number h)).
  rewrite (int_field_int 10 (h_number h)) by (auto; lia). cbn [bind].
  assert (G : forall (f : mobj -> str * str), grp 9 {| mpre := []; mtext := htext h; mrest := []; mcaps := hcaps h |} = bin_rows (map pair_row (named h))) by reflexivity.
  rewrite (G (fun _ => ([], []))), bins_read, bins_named by auto. reflexivity.
Qed.
Theorem mheader_write h : hdata_ok h -> mheader_to_mcnp (hvalue h) = Ok (htext h).
Proof.
  intros HH. pose proof HH as ([C1 _] & [C2 _] & [C3 _] & [C4 _] & _ & _ & _ & [C8 _] & _ & HB & _).
  unfold mheader_to_mcnp, hvalue, htext. cbn [m_histories m_number m_code m_version m_ld m_probid m_title m_particle m_columns m_bins_x m_bins_y m_bins_z m_bins_time m_bins_energy format_2F format_int bind].
  assert (R : forall w (s : str), length s = w -> rjust w s = s) by (intros w s <-; unfold rjust; now rewrite Nat.sub_diag).
  rewrite (R 7), (R 6), (R 10 (h_ld h)), (R 20), (R 8) by auto.
  assert (B : forall n o, In o [h_x h; h_y h; h_z h; h_time h; h_energy h] -> bin_line n o = bin_text n o).
  { intros n o I. rewrite Forall_forall in HB. apply HB in I. destruct o as [[|x s]|]; auto. destruct I as [I _]. congruence. }
  rewrite !B by (cbn; tauto). f_equal. 
  assert (Z0 : str_of_Z (Z.of_N (h_histories h)) = str_of_N (h_histories h)) by (destruct (h_histories h); reflexivity).
  now rewrite Z0.
Qed.

(** ** The file *)

Lemma row_cols s : row_ok s -> exists l a b, is_cols l /\ field 12 a /\ field 12 b /\ s = line_of l a b.
Proof.
  intros (t & -> & NT & HL). apply notin_notnl in NT. apply allc_app in NT as [_ NT].
  assert (SK : forall n (u : str), allc notnl u -> n <= length u -> exists a v, u = a ++ v /\ length a = n /\ allc notnl a /\ allc notnl v /\ length v = length u - n).
  { intros n u HU HN. exists (firstn n u), (skipn n u). rewrite firstn_skipn. rewrite <- (firstn_skipn n u) in HU. apply allc_app in HU as [A B].
    split; auto. split; [rewrite firstn_length; lia|]. split; auto. split; auto. now rewrite skipn_length. }
  assert (H53 : 53 <= length t) by (cbn [In] in HL; lia).
  destruct (SK 9 t NT ltac:(lia)) as (c1 & t1 & -> & L1 & A1 & N1 & H1).
  destruct (SK 11 t1 N1 ltac:(lia)) as (c2 & t2 & -> & L2 & A2 & N2 & H2).
  destruct (SK 9 t2 N2 ltac:(lia)) as (c3 & t3 & -> & L3 & A3 & N3 & H3). rewrite H1 in H2. rewrite H2 in H3.
  destruct HL as [HL|[HL|[HL|[]]]].
  - destruct (SK 12 t3 N3 ltac:(lia)) as (a & b & -> & LA & AA & NB & HB).
    exists [c1; c2; c3], a, b. split; [split; [cbn; lia|]; split; [cbn; congruence|repeat constructor; auto]|].
    split; [split; auto|]. split; [split; auto; lia|]. unfold line_of. cbn [concat]. now rewrite !app_nil_r, <- !app_assoc.
  - destruct (SK 10 t3 N3 ltac:(lia)) as (c4 & t4 & -> & L4 & A4 & N4 & H4).
    destruct (SK 12 t4 N4 ltac:(lia)) as (a & b & -> & LA & AA & NB & HB).
    exists [c1; c2; c3; c4], a, b. split; [split; [cbn; lia|]; split; [cbn; congruence|repeat constructor; auto]|].
    split; [split; auto|]. split; [split; auto; lia|]. unfold line_of. cbn [concat]. now rewrite !app_nil_r, <- !app_assoc.
  - destruct (SK 10 t3 N3 ltac:(lia)) as (c4 & t4 & -> & L4 & A4 & N4 & H4).
    destruct (SK 10 t4 N4 ltac:(lia)) as (c5 & t5 & -> & L5 & A5 & N5 & H5).
    destruct (SK 12 t5 N5 ltac:(lia)) as (a & b & -> & LA & AA & NB & HB).
    exists [c1; c2; c3; c4; c5], a, b. split; [split; [cbn; lia|]; split; [cbn; congruence|repeat constructor; auto]|].
    split; [split; auto|]. split; [split; auto; lia|]. unfold line_of. cbn [concat]. now rewrite !app_nil_r, <- !app_assoc.
Qed.

Lemma file_match h t : hdata_ok h -> t <> [] -> exists o, re_match re_meshtal (htext h ++ t) = Some o /\ grp 1 o = htext h /\ grp 2 o = t.
Proof.
  intros HH NT. destruct re_meshtal_eq as (c & E & HC). rewrite E. clear E. destruct (head_det0 h t HH) as [D1 D2].
  exists {| mpre := []; mtext := htext h ++ t; mrest := []; mcaps := [(2, t); (1, htext h)] |}.
  split; [|split; reflexivity]. apply match_whole; [reflexivity| |].
  - apply (accc_cat (RGrp 1 r_head0) (RGrp 2 (RRep false 1 None (RSet c))) (htext h) t [(1, htext h)] [(2, t)]).
    + now apply (accc_grp 1 r_head0 (htext h) []).
    + apply (accc_grp 2 _ t []). apply accc_rep_set; auto; [apply Forall_forall; auto|destruct t; [congruence|cbn; lia]].
  - intros c' (u1 & u2 & c1 & c2 & (c3 & H1 & ->) & (c4 & H2 & ->) & EQ & ->).
    destruct (D2 _ _ _ H1 EQ) as [-> ->]. apply app_inv_head in EQ. subst u2.
    assert (c4 = []) as -> by (eapply W_nocap; [|exact H2]; reflexivity). reflexivity.
Qed.

Lemma tally_empty p : match_at r_tally p [] = None.
Proof. reflexivity. Qed.
Lemma rows_cut rows : Forall row_ok rows -> cut r_tally (map (fun r => r ++ [nl]) rows).
Proof.
  intros H. induction H as [|s rows HS HR IH]; [exact I|]. cbn [map cut].
  destruct (row_cols s HS) as (l & a & b & HL & FA & FB & ->).
  split; [discriminate|]. split; auto. intros p. eexists. rewrite <- app_assoc. apply tally_at; auto.
Qed.
Fixpoint open_rows (rows : list str) : list str :=
  match rows with [] => [] | [r] => [r] | r :: t => (r ++ [nl]) :: open_rows t end.
Lemma open_rows_join rows : concat (open_rows rows) = join [nl] rows.
Proof.
  induction rows as [|r [|r' t] IH]; [reflexivity|cbn; now rewrite app_nil_r|].
  cbn [open_rows concat] in *. rewrite IH. cbn [join]. now rewrite <- app_assoc.
Qed.
Lemma open_rows_cut rows : Forall row_ok rows -> cut r_tally (open_rows rows).
Proof.
  intros H. induction H as [|s rows HS HR IH]; [exact I|]. 
  destruct (row_cols s HS) as (l & a & b & HL & FA & FB & ->). destruct rows as [|r' t].
  - cbn [open_rows cut]. split; [discriminate|]. split; auto. intros p. eexists. cbn [concat]. rewrite app_nil_r. apply tally_at_end; auto.
  - change (open_rows (line_of l a b :: r' :: t)) with ((line_of l a b ++ [nl]) :: open_rows (r' :: t)). cbn [cut].
    split; [discriminate|]. split; auto. intros p. eexists. rewrite <- app_assoc. apply tally_at; auto.
Qed.
Lemma tallies_cut ts : cut r_tally ts -> tallies_from_mcnp (concat ts) = mapM tally_from_mcnp ts.
Proof.
  intros H. unfold tallies_from_mcnp. rewrite re_tally_inner, mapM_mtext. now rewrite (finditer_cut r_tally ts tally_empty H).
Qed.
Lemma row_read s t : row_ok s -> fin t -> exists v, tally_from_mcnp (s ++ t) = Ok v /\ tally_to_mcnp v = s.
Proof.
  intros HS HT. destruct (row_cols s HS) as (l & a & b & HL & FA & FB & ->). exists (cols_value l a b).
  split; [now apply tally_read|apply tally_write]. destruct HL as [[_ H] _]. exact H.
Qed.
Lemma rows_value rows ts : Forall row_ok rows -> Forall2 (fun s u => exists t, fin t /\ u = s ++ t) rows ts ->
  exists vs, mapM tally_from_mcnp ts = Ok vs /\ map tally_to_mcnp vs = rows.
Proof.
  intros HR H. induction H as [|s u rows ts (t & HT & ->) H IH]; [exists []; auto|].
  inversion HR as [|? ? HS HR']; subst. destruct (IH HR') as (vs & E & W). destruct (row_read s t HS HT) as (v & EV & WV).
  exists (v :: vs). cbn [mapM map]. rewrite EV. cbn [bind]. rewrite E. cbn [bind]. now rewrite WV, W.
Qed.
Theorem meshtal_read f : fdata_ok f -> forall text, text = ftext f \/ text = ftext_open f -> exists m,
  meshtal_from_mcnp text = Ok m /\ mt_header m = hvalue (f_header f) /\ map tally_to_mcnp (mt_tallies m) = f_rows f /\
  meshtal_to_mcnp m = Ok (ftext_open f).
Proof.
  intros (HH & NR & HR) text HT.
  assert (G : exists ts, text = htext (f_header f) ++ concat ts /\ concat ts <> [] /\ cut r_tally ts /\
    Forall2 (fun s u => exists t, fin t /\ u = s ++ t) (f_rows f) ts).
  { assert (NE : forall s, row_ok s -> s <> []) by (intros s (t & -> & _); discriminate).
    destruct HT as [->| ->].
    - exists (map (fun r => r ++ [nl]) (f_rows f)). split; [reflexivity|]. split.
      + destruct (f_rows f) as [|r rows]; [congruence|]. cbn. destruct r; discriminate.
      + split; [now apply rows_cut|]. clear. induction (f_rows f) as [|r rows IH]; constructor; auto. exists [nl]. split; auto. now right.
    - exists (open_rows (f_rows f)). rewrite open_rows_join. split; [reflexivity|]. split.
      + inversion HR as [|r rows HS HR' E]; [congruence|]. apply NE in HS. destruct r; [congruence|]. destruct rows; discriminate.
      + split; [now apply open_rows_cut|]. clear. induction (f_rows f) as [|r [|r' rows] IH]; [constructor| |].
        * repeat constructor. exists []. split; [now left|now rewrite app_nil_r].
        * change (open_rows (r :: r' :: rows)) with ((r ++ [nl]) :: open_rows (r' :: rows)). constructor; auto. exists [nl]. split; auto. now right. }
  destruct G as (ts & -> & NT & HC & HF). destruct (rows_value _ _ HR HF) as (vs & EV & WV).
  destruct (file_match (f_header f) (concat ts) HH NT) as (o & EO & G1 & G2).
  exists {| mt_header := hvalue (f_header f); mt_tallies := vs |}.
  unfold meshtal_from_mcnp. rewrite EO, G1, G2, mheader_read by auto. cbn [bind]. rewrite tallies_cut, EV by auto. cbn [bind].
  repeat split; auto. unfold meshtal_to_mcnp. cbn [mt_header mt_tallies]. rewrite mheader_write, WV by auto. reflexivity.
Qed.
