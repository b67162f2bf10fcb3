(** Facts about zaids, pairs, designators, transformations. *)

From Coq Require Import Ascii String NArith ZArith Bool Arith Lia List.
From Verif Require Import PyStr Regex RegexParse RegexFacts RegexLang PyNum PyNumFacts Types TypesSpec TypesFacts TypesFacts2.
Import ListNotations.
Open Scope char_scope.

(** * Zaid *)

Lemma N_of_digits_lt u : digits u -> (N_of_digits u < 10 ^ N.of_nat (length u))%N.
Proof.
  unfold N_of_digits.
  assert (H : forall u a b, digits u -> (a < b)%N ->
    (fold_left (fun a c => 10 * a + digit_val c) u a < b * 10 ^ N.of_nat (length u))%N).
  { clear u. induction u as [|c u IH]; intros a b D L; cbn [fold_left length].
    - rewrite N.pow_0_r. lia.
    - inversion D; subst. destruct (one_digit c H1) as [_ HC].
      eapply N.lt_le_trans; [apply IH with (b := (10 * b)%N); auto; lia|].
      rewrite Nat2N.inj_succ, N.pow_succ_r'. lia. }
  intros D. specialize (H u 0%N 1%N D). lia.
Qed.

Lemma zpad3 n : (n <= 999)%N ->
  digits (zpad 3 (str_of_N n)) /\ length (zpad 3 (str_of_N n)) = 3 /\
  N_of_digits (zpad 3 (str_of_N n)) = n.
Proof.
  intros H. unfold zpad. split; [|split].
  - apply digits_app. split; [apply srepeat_digits|apply str_of_N_digits].
  - rewrite app_length, srepeat_length. simpl length.
    assert (LE : length (str_of_N n) <= 3); [|lia].
    assert (A : forallb (fun i => Nat.leb (length (str_of_N (N.of_nat i))) 3) (seq 0 1000) = true)
      by (vm_compute; reflexivity).
    rewrite forallb_forall in A. specialize (A (N.to_nat n)). rewrite N2Nat.id in A.
    apply Nat.leb_le, A, in_seq. simpl. lia.
  - rewrite N_of_digits_zeros. apply N_of_str_of_N.
Qed.


Theorem zaid_rt x : zaid_ok x -> zaid_from_mcnp (zaid_to_mcnp x) = Ok x.
Proof.
  intros (Hz & Ha & Ho). destruct x as [z a o]; cbn [zz za zabx] in *.
  destruct (zpad3 z Hz) as (Dz & Lz & Vz). destruct (zpad3 a Ha) as (Da & La & Va).
  assert (E : zaid_to_mcnp {| zz := z; za := a; zabx := o |}
     = zpad 3 (str_of_N z) ++ zpad 3 (str_of_N a) ++ suffix_text o).
  { unfold zaid_to_mcnp. cbn [zz za zabx].
    destruct o as [[|c t]|]; cbn [truthy suffix_text]; rewrite <- ?app_assoc; auto.
    - now destruct Ho.
    - now rewrite app_nil_r. }
  rewrite E. unfold zaid_from_mcnp. rewrite match_zaid; auto; [|lia].
  assert (G1 : forall t, grp 1 {| mpre := []; mtext := t; mrest := [];
     mcaps := (suffix_caps o ++ [(2, zpad 3 (str_of_N a))]) ++ [(1, zpad 3 (str_of_N z))] |} = zpad 3 (str_of_N z))
    by (intros; destruct o; reflexivity).
  assert (G2 : forall t, grp 2 {| mpre := []; mtext := t; mrest := [];
     mcaps := (suffix_caps o ++ [(2, zpad 3 (str_of_N a))]) ++ [(1, zpad 3 (str_of_N z))] |} = zpad 3 (str_of_N a))
    by (intros; destruct o; reflexivity).
  rewrite G1, G2, Vz, Va.
  replace (group 3 _) with o by (destruct o; reflexivity).
  unfold mk_zaid.
  replace ((0 <=? Z.of_N z) && (Z.of_N z <=? 999))%Z with true
    by (symmetry; apply andb_true_iff; split; apply Z.leb_le; lia).
  replace ((0 <=? Z.of_N a) && (Z.of_N a <=? 999))%Z with true
    by (symmetry; apply andb_true_iff; split; apply Z.leb_le; lia).
  now rewrite !N2Z.id.
Qed.

Lemma le999 u : digits u -> length u <= 3 -> (N_of_digits u <= 999)%N.
Proof.
  intros D H. pose proof (N_of_digits_lt u D) as HL.
  assert (P : (10 ^ N.of_nat (length u) <= 10 ^ 3)%N) by (apply N.pow_le_mono_r; lia).
  change (10 ^ 3)%N with 1000%N in P. lia.
Qed.

(** Whatever was read is writable. *)
Lemma zaid_read_ok s x : zaid_from_mcnp s = Ok x -> zaid_ok x.
Proof.
  unfold zaid_from_mcnp. destruct (re_match re_zaid s) as [o|] eqn:E; [|discriminate].
  rewrite re_zaid_eq in E. apply match_whole_inv in E as [ET HW]; [|reflexivity].
  destruct HW as (u1 & v & c1 & cv & (c1' & H1 & ->) & (u2 & u3 & c2 & c3 & (c2' & H2 & ->) & H3 & -> & ->) & E & EC).
  apply W_rep_set in H1 as (A1 & B1 & C1 & ->). apply allc_dig in A1.
  apply W_3d in H2 as (A2 & B2 & ->). apply W_suffix in H3 as (o' & -> & -> & Ho).
  unfold grp, group. rewrite EC.
  replace (lookup 1 _) with (Some u1) by (destruct o'; reflexivity).
  replace (lookup 2 _) with (Some u2) by (destruct o'; reflexivity).
  replace (lookup 3 _) with o' by (destruct o'; reflexivity).
  unfold mk_zaid.
  destruct ((0 <=? _) && _)%Z; [|discriminate]. destruct ((0 <=? _) && _)%Z; [|discriminate].
  intros [= <-]. unfold zaid_ok. cbn [zz za zabx]. rewrite !N2Z.id.
  split; [apply le999; auto; lia|]. split; [apply le999; auto; lia|exact Ho].
Qed.

Theorem zaid_stable s x : zaid_from_mcnp s = Ok x -> zaid_from_mcnp (zaid_to_mcnp x) = Ok x.
Proof. intros H. apply zaid_rt. eapply zaid_read_ok; eauto. Qed.

Lemma mk_zaid_no_py z a o : is_py (mk_zaid z a o) = false.
Proof. unfold mk_zaid. destruct (_ && _); [destruct (_ && _)|]; reflexivity. Qed.
Theorem zaid_no_py s : is_py (zaid_from_mcnp s) = false.
Proof. unfold zaid_from_mcnp. destruct (re_match re_zaid s); [apply mk_zaid_no_py|reflexivity]. Qed.

(** * Index *)

Definition cs_chr (n : N) : cset := cs [(n, n)].
Definition r_index : re := RCat (RGrp 1 r_S) (RCat (RSet (cs_chr 58)) (RGrp 2 r_S)).
Lemma re_index_eq : re_index = whole r_index.
Proof. vm_compute. reflexivity. Qed.

Lemma inset_chr n c : inset (cs_chr n) c = true -> code c = n.
Proof.
  unfold inset, cs_chr, cs, in_ranges. simpl. rewrite orb_false_r.
  destruct ((n <=? code c)%N && (code c <=? n)%N) eqn:E; [|discriminate]. intros _.
  apply andb_prop in E as [A B]. apply N.leb_le in A, B. lia.
Qed.
Lemma code_inj a b : code a = code b -> a = b.
Proof. intros H. rewrite <- (ascii_N_embedding a), <- (ascii_N_embedding b). now f_equal. Qed.
Lemma inset_chr_eq a c : inset (cs_chr (code a)) c = true -> c = a.
Proof. intros H. apply inset_chr in H. now apply code_inj. Qed.
Lemma inset_chr_refl a : inset (cs_chr (code a)) a = true.
Proof.
  unfold inset, cs_chr, cs, in_ranges. simpl. now rewrite N.leb_refl.
Qed.

Lemma split_sep (x : ascii) a b : forall u v,
  ~ In x a -> ~ In x b -> u ++ x :: v = a ++ x :: b -> u = a /\ v = b.
Proof.
  induction a as [|y a IH]; intros u v Ha Hb E.
  - destruct u as [|z u]; simpl in E; inversion E; subst; auto.
    exfalso. apply Hb. apply in_elt.
  - destruct u as [|z u]; simpl in E; inversion E; subst.
    + exfalso. apply Ha. now left.
    + destruct (IH u v) as [-> ->]; auto. intros HI. apply Ha. now right.
Qed.

Lemma wordchar_nospace s : allc is_wordchar s -> nospace s.
Proof. apply allc_impl. vm_compute. reflexivity. Qed.
Lemma wordchar_nocolon s : allc is_wordchar s -> ~ In ":" s.
Proof.
  intros H HI. unfold allc in H. rewrite Forall_forall in H. apply H in HI. discriminate.
Qed.

Theorem index_rt lo hi : int_ok lo = true -> int_ok hi = true ->
  index_from_mcnp (index_to_mcnp (lo, hi)) = Ok (lo, hi).
Proof.
  intros Hl Hh. unfold index_from_mcnp, index_to_mcnp. cbn [fst snd].
  set (a := integer_to_mcnp lo). set (b := integer_to_mcnp hi).
  pose proof (integer_chars lo) as Ca. pose proof (integer_chars hi) as Cb.
  pose proof (integer_nonempty lo) as Na. pose proof (integer_nonempty hi) as Nb.
  fold a in Ca, Na. fold b in Cb, Nb.
  rewrite re_index_eq, (match_whole _ _ [(2, b); (1, a)]); [|reflexivity| |].
  - unfold grp, group. cbn [mcaps lookup Nat.eqb]. unfold a, b. rewrite !int_rt by assumption. reflexivity.
  - apply (accc_cat _ _ a ([":"] ++ b) [(1, a)] [(2, b)]).
    + apply accc_grp, acc_accc, acc_plus_set; auto. apply allc_S. now apply wordchar_nospace.
    + apply (accc_cat _ _ [":"] b [] [(2, b)]); [now apply accc_set|].
      apply accc_grp, acc_accc, acc_plus_set; auto. apply allc_S. now apply wordchar_nospace.
  - intros c (u1 & v & c1 & cv & (c1' & H1 & ->) & (u2 & u3 & c2 & c3 & (x & -> & Hx & ->) & (c3' & H3 & ->) & -> & ->) & E & ->).
    apply W_rep_set in H1 as (_ & _ & _ & ->). apply W_rep_set in H3 as (_ & _ & _ & ->).
    apply (inset_chr_eq ":") in Hx. subst x. cbn [app] in *. symmetry in E.
    apply split_sep in E as [-> ->]; auto using wordchar_nocolon.
Qed.

(** * Substance *)

Definition r_substance : re := RCat (RGrp 1 r_S) (RCat (RSet (cs_chr 32)) (RGrp 2 r_S)).
Lemma re_substance_eq : re_substance = whole r_substance.
Proof. vm_compute. reflexivity. Qed.

Lemma nospace_nosp s : nospace s -> ~ In sp s.
Proof. intros H HI. unfold nospace, allc in H. rewrite Forall_forall in H. apply H in HI. discriminate. Qed.

Lemma zaid_chars x : zaid_ok x -> nospace (zaid_to_mcnp x) /\ zaid_to_mcnp x <> [].
Proof.
  intros (Hz & Ha & Ho). unfold zaid_to_mcnp.
  assert (D : nospace (zpad 3 (str_of_N (zz x)) ++ zpad 3 (str_of_N (za x)))).
  { destruct (zpad3 _ Hz) as (Dz & _). destruct (zpad3 _ Ha) as (Da & _).
    apply wordchar_nospace, wordchar_digits, digits_app. auto. }
  assert (NE : zpad 3 (str_of_N (zz x)) <> []).
  { intros E. destruct (zpad3 _ Hz) as (_ & L3 & _). now rewrite E in L3. }
  cbv zeta. destruct (zabx x) as [[|c t]|]; cbn [truthy].
  - now destruct Ho.
  - split.
    + apply allc_app; split; auto. apply allc_app; split; [repeat constructor|tauto].
    + destruct (zpad 3 (str_of_N (zz x))); [congruence|discriminate].
  - split; auto. destruct (zpad 3 (str_of_N (zz x))); [congruence|discriminate].
Qed.

Theorem substance_rt z r : zaid_ok z -> real_ok r = true ->
  substance_from_mcnp (substance_to_mcnp (z, r)) = Ok (z, r).
Proof.
  intros Hz Hr. unfold substance_from_mcnp, substance_to_mcnp. cbn [fst snd].
  set (a := zaid_to_mcnp z). set (b := real_to_mcnp r).
  destruct (zaid_chars z Hz) as [Ca Na]. pose proof (real_chars r Hr) as Cb.
  pose proof (real_nonempty r Hr) as Nb. fold a in Ca, Na. fold b in Cb, Nb.
  rewrite re_substance_eq, (match_whole _ _ [(2, b); (1, a)]); [|reflexivity| |].
  - unfold grp, group. cbn [mcaps lookup Nat.eqb]. unfold a, b.
    rewrite zaid_rt, real_rt by assumption. reflexivity.
  - apply (accc_cat _ _ a ([sp] ++ b) [(1, a)] [(2, b)]).
    + apply accc_grp, acc_accc, acc_plus_set; auto. now apply allc_S.
    + apply (accc_cat _ _ [sp] b [] [(2, b)]); [now apply accc_set|].
      apply accc_grp, acc_accc, acc_plus_set; auto. apply allc_S. now apply wordchar_nospace.
  - intros c (u1 & v & c1 & cv & (c1' & H1 & ->) & (u2 & u3 & c2 & c3 & (x & -> & Hx & ->) & (c3' & H3 & ->) & -> & ->) & E & ->).
    apply W_rep_set in H1 as (_ & _ & _ & ->). apply W_rep_set in H3 as (_ & _ & _ & ->).
    apply (inset_chr_eq sp) in Hx. subst x. cbn [app] in *. symmetry in E.
    apply split_sep in E as [-> ->]; auto using nospace_nosp, wordchar_nospace.
Qed.

Lemma W_S_nonempty u c : W r_S u c -> u <> [].
Proof. intros H. apply W_rep_set in H as (_ & B & _). intros ->. simpl in B. lia. Qed.

Theorem substance_no_py s : is_py (substance_from_mcnp s) = false.
Proof.
  unfold substance_from_mcnp. destruct (re_match re_substance s) as [o|] eqn:E; [|reflexivity].
  rewrite re_substance_eq in E. apply match_whole_inv in E as [_ HW]; [|reflexivity].
  destruct HW as (u1 & v & c1 & cv & (c1' & H1 & ->) & (u2 & u3 & c2 & c3 & (x & -> & Hx & ->) & (c3' & H3 & ->) & -> & ->) & E & EC).
  assert (c3' = []) as -> by (apply W_nocap in H3; auto).
  unfold grp, group. rewrite EC. cbn [app lookup Nat.eqb].
  apply is_py_bind; [apply zaid_no_py|]. intros a _. apply is_py_bind; [|reflexivity].
  apply real_no_py. eapply W_S_nonempty; eauto.
Qed.

Theorem distribution_no_py s : is_py (distribution_from_mcnp s) = false.
Proof.
  unfold distribution_from_mcnp, re_match, match_at. rewrite re_distribution_eq.
  cbn [m rest pre caps]. destruct s as [|c s]; [reflexivity|].
  assert (Z : is_py (match (if inset (cs [(48, 48)]%N) c then
       match s with [] => Some (mkst [c] s []) | _ => None end else None) with
       | Some s' => bind (match truthy (group 1 {| mpre := []; mtext := firstn (length (c :: s) - length (rest s')) (c :: s); mrest := rest s'; mcaps := caps s' |}) with
            | Some t => integer_from_mcnp t | None => Ok (IVal 0) end) mk_distribution
       | None => Lib TypesError end) = false).
  { destruct (inset _ c); [|reflexivity]. destruct s; reflexivity. }
  assert (D : forall x t, is_digit x = true ->
    is_py (distribution_from_mcnp ("d" :: x :: t)) = false) by (intros; now rewrite distribution_read).
  destruct (inset (cs [(100, 100); (68, 68)]%N) c) eqn:EC.
  - destruct s as [|x t].
    + pose proof (all_ascii (fun c => implb (inset (cs [(100, 100); (68, 68)]%N) c)
         (negb (inset (cs [(48, 48)]%N) c))) eq_refl c) as Q. cbv beta in Q. rewrite EC in Q.
      cbn [m r_d3 rest]. destruct (inset (cs [(48, 48)]%N) c); [discriminate|]. reflexivity.
    + cbn [m r_d3 rest pre caps]. rewrite inset_dig. destruct (is_digit x) eqn:EX.
      * specialize (D x t EX). unfold distribution_from_mcnp, re_match, match_at in D.
        rewrite re_distribution_eq in D. cbn [m r_d3 rest pre caps] in D.
        change (inset (cs [(100,100);(68,68)]%N) "d") with true in D. cbv iota in D.
        rewrite inset_dig, EX in D. exact D.
      * destruct (inset (cs [(48, 48)]%N) c); reflexivity.
  - destruct (inset (cs [(48, 48)]%N) c); [|reflexivity]. destruct s; reflexivity.
Qed.

(** * Designator (C10) *)

Definition cs_desig : cset := Eval vm_compute in
  match re_designator with
  | RCat _ (RCat (RGrp _ (RCat (RSet c) _)) _) => c
  | _ => cs []
  end.
Definition r_desig : re :=
  RGrp 1 (RCat (RSet cs_desig) (RRep false 0 None (RCat (RSet (cs_chr 44)) (RSet cs_desig)))).
Lemma re_designator_eq : re_designator = whole r_desig.
Proof. vm_compute. reflexivity. Qed.


Lemma W_desig s c : W r_desig s c -> comma_list (inset cs_desig) s.
Proof.
  intros (c' & (u & v & cu & cv & (x & -> & Hx & ->) & (l & F & _ & _ & -> & _) & -> & _) & _).
  exists x. assert (HL : exists cl, allc (inset cs_desig) cl /\ concat (map fst l) = concat (map (fun x => [","; x]) cl)).
  { induction F as [|[w cw] l H F IH]; [exists []; split; [constructor|reflexivity]|].
    destruct IH as (cl & A & E). simpl in H.
    destruct H as (w1 & w2 & cw1 & cw2 & (y & -> & Hy & ->) & (z & -> & Hz & ->) & -> & _).
    apply (inset_chr_eq ",") in Hy. subst y. exists (z :: cl). split; [constructor; auto|].
    simpl. now rewrite E. }
  destruct HL as (cl & A & E). exists cl. repeat split; auto. now rewrite E.
Qed.

Lemma accc_desig s : comma_list (inset cs_desig) s -> exists c, accc r_desig s c.
Proof.
  intros (c & cl & Hc & HA & ->). exists [(1, c :: concat (map (fun x => [","; x]) cl))].
  apply accc_grp. apply (accc_cat _ _ [c] (concat (map (fun x => [","; x]) cl)) [] []); [now apply accc_set|].
  pose proof (accc_rep false 0 None (RCat (RSet (cs_chr 44)) (RSet cs_desig))
     (map (fun x => ([","; x], [])) cl)) as H.
  rewrite !map_map in H. cbn [fst snd] in H.
  assert (E : forall l : str, concat (rev (map (fun _ : ascii => @nil (nat * str)) l)) = []).
  { clear. induction l; simpl; auto. now rewrite concat_app, IHl. }
  rewrite E in H.
  apply H; auto; [|lia]. apply Forall_map. eapply Forall_impl; [|exact HA]. intros x Hx. split; [|discriminate].
  cbn [fst snd]. apply (accc_cat _ _ [","] [x] [] []); now apply accc_set.
Qed.

Theorem designator_char s :
  (comma_list (inset cs_desig) s -> designator_from_mcnp s = Ok s) /\
  (~ comma_list (inset cs_desig) s -> designator_from_mcnp s = Lib TypesError).
Proof.
  unfold designator_from_mcnp. split; intros H.
  - destruct (accc_desig s H) as (c & HA).
    destruct (re_match re_designator s) as [o|] eqn:E.
    + rewrite re_designator_eq in E. apply match_whole_inv in E as [E _]; [|reflexivity]. now rewrite E.
    + exfalso. unfold re_match, match_at in E. rewrite re_designator_eq in E.
      destruct (m (whole r_desig) (mkst [] s []) Some) eqn:EM; [discriminate|].
      revert EM. apply (m_complete _ _ _ (mkst (rev s) [] c)); [|discriminate].
      exists (mkst [] s []). split; [split; reflexivity|]. apply M_snoc_end. split; [|reflexivity].
      specialize (HA [] [] []). now rewrite !app_nil_r in HA.
  - destruct (re_match re_designator s) as [o|] eqn:E; [|reflexivity].
    rewrite re_designator_eq in E. apply match_whole_inv in E as [_ HW]; [|reflexivity].
    apply W_desig in HW. contradiction.
Qed.

(** * Transformation (C11) *)

Definition cs_tr : cset := cs [(48, 57); (46, 46); (101, 101); (69, 69); (100, 100); (68, 68); (43, 43); (45, 45)]%N.
Fixpoint tr_fields (i n : nat) (tail : re) : re :=
  match n with
  | O => tail
  | S O => RCat (RGrp i (RRep false 0 None (RSet cs_tr))) tail
  | S n' => RCat (RGrp i (RRep false 1 None (RSet cs_tr))) (RCat (RSet (cs_chr 32)) (tr_fields (S i) n' tail))
  end.
Definition tr_tail (n : nat) : re :=
  RCat (RRep false 0 (Some 1) (RCat (RSet (cs_chr 32)) (RGrp (S n) (RRep false 0 None (RSet cs_tr)))))
       (RRep false 0 (Some 1) (RSet (cs_chr 41))).
Definition r_tr (n : nat) : re :=
  RCat (RRep false 0 (Some 1) (RSet (cs_chr 40))) (tr_fields 1 n (tr_tail n)).

Lemma re_transformation_eq k : k <= 4 -> re_transformation k = whole (r_tr (trans_fields k)).
Proof.
  intros H. destruct k as [|[|[|[|[|k]]]]]; [..|lia]; vm_compute; reflexivity.
Qed.

Definition trc (s : str) : Prop := allc (inset cs_tr) s.
Lemma trc_nosp s : trc s -> allc (fun c => negb (ceqb c sp)) s.
Proof. apply allc_impl. vm_compute. reflexivity. Qed.

(** Captures of fields numbered from [i]. *)
Fixpoint tr_caps (i : nat) (vs : list str) : capl :=
  match vs with [] => [] | v :: vs' => tr_caps (S i) vs' ++ [(i, v)] end.

Lemma W_tail n mt c t :
  trc mt -> W (tr_tail n) t c -> t = sp :: mt -> c = [(S n, mt)].
Proof.
  intros Hm (u & v & cu & cv & H1 & H2 & E & ->) ET.
  apply W_opt in H2 as [[-> ->]|H2].
  - apply W_opt in H1 as [[-> ->]|H1]; [rewrite ET in E; discriminate|].
    destruct H1 as (u1 & u2 & c1 & c2 & (x & -> & Hx & ->) & (c2' & H2 & ->) & -> & ->).
    apply W_rep_set in H2 as (_ & _ & _ & ->). rewrite app_nil_r in E. rewrite ET in E.
    inversion E; subst. reflexivity.
  - destruct H2 as (y & -> & Hy & ->). apply (inset_chr_eq ")") in Hy. subst y.
    exfalso. rewrite ET in E. destruct u as [|a u]; cbn [app] in E; inversion E; subst.
    assert (HI : In ")" (u ++ [")"])) by apply in_elt.
    unfold trc, allc in Hm. rewrite Forall_forall in Hm. apply Hm in HI. discriminate.
Qed.

Lemma W_fields tail ttext tc :
  (forall t c, W tail t c -> t = ttext -> c = tc) ->
  (exists t', ttext = sp :: t') ->
  (forall t c, W tail t c -> t = [] \/ (exists t', t = sp :: t') \/ (exists t', t = ")" :: t')) ->
  (~ In ")" ttext) ->
  forall vs i, vs <> [] -> Forall (fun v => trc v) vs ->
  forall c, W (tr_fields i (length vs) tail) (join [sp] vs ++ ttext) c -> c = tc ++ tr_caps i vs.
Proof.
  intros HT (t0 & HT0) HH HP. induction vs as [|v vs IH]; intros i NE HF c HW; [congruence|].
  inversion HF as [|? ? Hv HF']; subst.
  destruct vs as [|v2 vs].
  - cbn [length tr_fields join] in HW.
    destruct HW as (u1 & u2 & c1 & c2 & (c1' & H1 & ->) & H2 & E & ->).
    apply W_rep_set in H1 as (A & _ & _ & ->).
    assert (HS : u2 = [] \/ (exists t', u2 = sp :: t') \/ (exists t', u2 = ")" :: t')) by eauto.
    destruct HS as [->|[(t' & ->)|(t' & ->)]].
    + exfalso. rewrite app_nil_r in E. assert (HI : In sp u1) by (rewrite <- E; apply in_elt).
      unfold allc in A. rewrite Forall_forall in A. apply A in HI. discriminate.
    + apply (split_unique (fun c => negb (ceqb c sp))) in E as (-> & _ & ->); auto using trc_nosp.
      rewrite (HT _ _ H2 eq_refl). reflexivity.
    + exfalso. assert (HI : In ")" (v ++ sp :: t0)) by (rewrite E; apply in_elt).
      apply in_app_or in HI as [HI|HI]; [|auto].
      unfold trc, allc in Hv. rewrite Forall_forall in Hv. apply Hv in HI. discriminate.
  - change (join [sp] (v :: v2 :: vs)) with (v ++ [sp] ++ join [sp] (v2 :: vs)) in HW.
    change (tr_fields i (length (v :: v2 :: vs)) tail)
      with (RCat (RGrp i (RRep false 1 None (RSet cs_tr)))
             (RCat (RSet (cs_chr 32)) (tr_fields (S i) (length (v2 :: vs)) tail))) in HW.
    change (tr_caps i (v :: v2 :: vs)) with (tr_caps (S i) (v2 :: vs) ++ [(i, v)]).
    destruct HW as (u1 & u2 & c1 & c2 & (c1' & H1 & ->) & H2 & E & ->).
    apply W_rep_set in H1 as (A & _ & _ & ->).
    destruct H2 as (x & u3 & cx & c3 & (y & -> & Hy & ->) & H3 & -> & ->).
    apply (inset_chr_eq sp) in Hy. subst y. rewrite <- !app_assoc in E. cbn [app] in E.
    apply (split_unique (fun c => negb (ceqb c sp))) in E as (-> & _ & E); auto using trc_nosp.
    rewrite app_nil_r, app_assoc. f_equal.
    apply IH; [discriminate|auto|]. rewrite E. exact H3.
Qed.

Lemma accc_fields tail ttext tc :
  accc tail ttext tc ->
  forall vs i, vs <> [] -> Forall (fun v => trc v /\ v <> []) vs ->
  accc (tr_fields i (length vs) tail) (join [sp] vs ++ ttext) (tc ++ tr_caps i vs).
Proof.
  intros HT. induction vs as [|v vs IH]; intros i NE HF; [congruence|].
  inversion HF as [|? ? [Hv Nv] HF']; subst. destruct vs as [|v2 vs].
  - cbn [length tr_fields join tr_caps app]. apply (accc_cat _ _ v ttext [(i, v)] tc); auto.
    apply accc_grp, acc_accc, acc_star_set, Hv.
  - specialize (IH (S i) ltac:(discriminate) HF').
    change (join [sp] (v :: v2 :: vs)) with (v ++ [sp] ++ join [sp] (v2 :: vs)).
    change (length (v :: v2 :: vs)) with (S (S (length vs))).
    change (tr_fields i (S (S (length vs))) tail)
      with (RCat (RGrp i (RRep false 1 None (RSet cs_tr)))
             (RCat (RSet (cs_chr 32)) (tr_fields (S i) (length (v2 :: vs)) tail))).
    change (tr_caps i (v :: v2 :: vs)) with (tr_caps (S i) (v2 :: vs) ++ [(i, v)]).
    replace ((v ++ [sp] ++ join [sp] (v2 :: vs)) ++ ttext)
      with (v ++ ([sp] ++ (join [sp] (v2 :: vs) ++ ttext))) by now rewrite <- !app_assoc.
    replace (tc ++ tr_caps (S i) (v2 :: vs) ++ [(i, v)])
      with (((tc ++ tr_caps (S i) (v2 :: vs)) ++ []) ++ [(i, v)]) by now rewrite app_nil_r, app_assoc.
    apply accc_cat.
    + apply accc_grp, acc_accc, acc_plus_set; auto.
    + apply accc_cat; [now apply accc_set|exact IH].
Qed.

Lemma tr_caps_lookup vs : forall i j, j < length vs ->
  lookup (i + j) (tr_caps i vs) = Some (nth j vs []).
Proof.
  induction vs as [|v vs IH]; intros i j H; cbn [length] in H; [lia|].
  cbn [tr_caps].
  assert (LA : forall a b n, lookup n (a ++ b) = match lookup n a with Some x => Some x | None => lookup n b end).
  { clear. induction a as [|[k x] a IHa]; intros b n; cbn [app lookup]; auto. destruct (Nat.eqb k n); auto. }
  rewrite LA. destruct j as [|j].
  - rewrite Nat.add_0_r. replace (lookup i (tr_caps (S i) vs)) with (@None str).
    + cbn [lookup]. now rewrite Nat.eqb_refl.
    + symmetry. assert (G : forall vs k, i < k -> lookup i (tr_caps k vs) = None).
      { clear - LA. induction vs as [|v vs IH]; intros k Hk; cbn [tr_caps]; auto.
        rewrite LA, IH by lia. cbn [lookup]. apply Nat.eqb_neq in Hk || idtac.
        destruct (Nat.eqb k i) eqn:E; auto. apply Nat.eqb_eq in E. lia. }
      apply G. lia.
  - replace (i + S j) with (S i + j) by lia. rewrite IH by lia. reflexivity.
Qed.

Lemma mapM_ok {A B} (f : A -> result B) l g : (forall x, In x l -> f x = Ok (g x)) -> mapM f l = Ok (map g l).
Proof.
  induction l as [|x l IH]; intros H; cbn [mapM map]; auto.
  rewrite H by now left. cbn [bind]. rewrite IH; [reflexivity|]. intros y Hy. apply H. now right.
Qed.


Lemma fin_trc r : fin_ok r = true -> trc (real_to_mcnp r) /\ real_to_mcnp r <> [] /\ real_ok r = true.
Proof.
  destruct r as [[neg c e| |]|h]; cbn [fin_ok]; try discriminate. intros H. repeat split; auto.
  - cbn [real_to_mcnp]. pose proof (dec_str_numchars neg c e) as D. revert D. apply allc_impl. vm_compute. reflexivity.
  - apply dec_str_nonempty.
Qed.


Theorem transf_rt k t : transf_ok k t -> transf_from_mcnp k (transf_to_mcnp t) = Ok t.
Proof.
  intros (Hk & HL & HF & HM). destruct t as [vals mo]. cbn [tvals tm] in *.
  assert (HK : 3 + rotation_entries k = trans_fields k) by (destruct k as [|[|[|[|[|]]]]]; try reflexivity; lia).
  rewrite HK in HL.
  unfold transf_from_mcnp, transf_to_mcnp. cbn [tvals tm].
  set (mt := match mo with Some m => integer_to_mcnp m | None => [] end).
  set (vs := map real_to_mcnp vals).
  assert (Hmt : trc mt).
  { unfold mt. destruct HM as [->|[->| ->]]; repeat constructor. }
  rewrite forallb_forall in HF.
  assert (HV : Forall (fun v => trc v /\ v <> []) vs).
  { unfold vs. apply Forall_map, Forall_forall. intros r Hr. apply HF in Hr. apply fin_trc in Hr. tauto. }
  assert (LV : length vs = trans_fields k) by (unfold vs; now rewrite map_length).
  assert (NV : vs <> []).
  { intros E. rewrite E in LV. destruct k as [|[|[|[|[|]]]]]; discriminate. }
  rewrite re_transformation_eq by assumption.
  rewrite (match_whole _ _ ((S (trans_fields k), mt) :: tr_caps 1 vs)).
  - set (o := {| mpre := _; mtext := _; mrest := _; mcaps := _ |}).
    rewrite (mapM_ok _ _ (fun i => nth (i - 1) vals (RHor (HJump None)))).
    2:{ intros i Hi. apply in_seq in Hi.
        assert (E : grp i o = real_to_mcnp (nth (i - 1) vals (RHor (HJump None)))).
        { unfold grp, group, o. cbn [mcaps lookup]. destruct i as [|i]; [lia|].
          destruct (Nat.eqb (S (trans_fields k)) (S i)) eqn:EQ; [apply Nat.eqb_eq in EQ; lia|].
          replace (S i) with (1 + i) by lia. rewrite tr_caps_lookup by (rewrite LV; lia).
          replace (1 + i - 1) with i by lia.
          unfold vs. rewrite (nth_indep _ [] (real_to_mcnp (RHor (HJump None)))).
          - now rewrite map_nth.
          - rewrite map_length. lia. }
        rewrite E. apply real_rt. apply fin_trc. apply HF. apply nth_In. lia. }
    cbn [bind]. unfold group, o. cbn [mcaps lookup]. rewrite Nat.eqb_refl.
    assert (EV : map (fun i => nth (i - 1) vals (RHor (HJump None))) (seq 1 (trans_fields k)) = vals).
    { rewrite <- HL. apply nth_ext with (d := RHor (HJump None)) (d' := RHor (HJump None)).
      - now rewrite map_length, seq_length.
      - intros n Hn. rewrite map_length, seq_length in Hn.
        rewrite (nth_indep _ _ (nth (0 - 1) vals (RHor (HJump None)))) by now rewrite map_length, seq_length.
        change (nth (0 - 1) vals (RHor (HJump None))) with ((fun i => nth (i - 1) vals (RHor (HJump None))) 0).
        rewrite map_nth, seq_nth by assumption. f_equal. lia. }
    rewrite EV. unfold mt. destruct HM as [->|[->| ->]]; reflexivity.
  - destruct k as [|[|[|[|[|]]]]]; try reflexivity.
  - unfold r_tr. rewrite <- LV.
    change ((S (length vs), mt) :: tr_caps 1 vs) with (([(S (length vs), mt)] ++ tr_caps 1 vs)).
    rewrite <- (app_nil_r ([(S (length vs), mt)] ++ tr_caps 1 vs)).
    apply (accc_cat _ _ [] (join [sp] vs ++ [sp] ++ mt) []); [apply accc_opt_none|].
    apply accc_fields; auto.
    unfold tr_tail. rewrite <- (app_nil_r ([sp] ++ mt)).
    apply (accc_cat _ _ ([sp] ++ mt) [] [(S (length vs), mt)] []); [|apply accc_opt_none].
    apply accc_opt_some; [|discriminate]. apply (accc_cat _ _ [sp] mt [] [(S (length vs), mt)]).
    + now apply accc_set.
    + apply accc_grp, acc_accc, acc_star_set, Hmt.
  - intros c (u0 & u1 & c0 & c1 & H0 & H1 & E & ->).
    apply W_opt in H0 as [[-> ->]|H0].
    + cbn [app] in E. subst u1. rewrite app_nil_r. rewrite <- LV in H1.
      apply (W_fields _ ([sp] ++ mt) [(S (trans_fields k), mt)]) in H1; auto.
      * intros t c HW Et. rewrite LV in HW. eapply W_tail; eauto.
      * cbn [app]. eauto.
      * intros t c (a & b & ca & cb & HA & HB & -> & _).
        apply W_opt in HA as [[-> _]|HA].
        -- apply W_opt in HB as [[-> _]|HB]; [now left|]. right. right.
           destruct HB as (y & -> & Hy & _). apply (inset_chr_eq ")") in Hy. subst y. cbn [app]. eauto.
        -- right. left. destruct HA as (a1 & a2 & _ & _ & (x & -> & Hx & _) & _ & -> & _).
           apply (inset_chr_eq sp) in Hx. subst x. cbn [app]. eauto.
      * intros HI. cbn [app] in HI. destruct HI as [HI|HI]; [discriminate|].
        unfold trc, allc in Hmt. rewrite Forall_forall in Hmt. apply Hmt in HI. discriminate.
      * eapply Forall_impl; [|exact HV]. simpl. tauto.
    + exfalso. destruct H0 as (x & -> & Hx & ->). apply (inset_chr_eq "(") in Hx. subst x.
      destruct vs as [|v vs']; [congruence|]. inversion HV as [|? ? [Hv Nv] _]; subst.
      destruct v as [|a v]; [congruence|]. inversion Hv; subst.
      assert (EA : a = "(").
      { destruct vs'; cbn [join app] in E; now inversion E. }
      subst a. discriminate.
Qed.
