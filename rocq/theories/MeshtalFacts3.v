(** MESHTAL lines by columns, and hypotheses checked by computation. *)

From Coq Require Import Ascii String NArith ZArith Bool Arith List Lia.
From Verif Require Import PyStr Regex RegexParse RegexFacts RegexLang PyNum PyNumFacts Types TypesSpec TypesFacts TypesFacts2 TypesFacts3 TypesFacts4 SubFacts CardsFacts CardsFacts2 CardsFacts7 GeometryFacts3 PtracSpec PtracFacts PtracFacts2 PtracFacts3 PtracFacts4 PtracFacts5 Meshtal MeshtalSpec MeshtalFacts MeshtalFacts2.
Import ListNotations.
Open Scope char_scope.
Open Scope nat_scope.

(** ** Lines by columns *)

Theorem full_row_read r : full_row_ok r -> tally_from_mcnp (full_row_text r) = Ok (full_row_value r).
Proof.
  intros (C1 & C2 & C3 & C4 & C5 & C6 & C7). apply col_field in C1, C2, C3, C4, C5, C6, C7.
  pose proof (tally_read [r_energy r; r_time r; r_x r; r_y r; r_z r] (r_result r) (r_error r) []) as H.
  unfold line_of in H. cbn [concat] in H. rewrite !app_nil_r, <- !app_assoc in H. apply H; auto; [|now left].
  destruct C1, C2, C3, C4, C5. split; [cbn; lia|]. split; [cbn; congruence|repeat constructor; auto].
Qed.
Theorem xyz_row_read r : xyz_row_ok r -> exists t,
  tally_from_mcnp (xyz_row_text r) = Ok t /\ t_energy t = Some (q_x r) /\
  t_time t = Some (firstn 11 (q_y r ++ q_z r))%list /\ t_x t = Some (skipn 1 (q_z r)) /\ t_y t = None /\ t_z t = None /\
  t_result t = q_result r /\ t_error t = q_error r.
Proof.
  intros (C1 & C2 & C3 & C4 & C5). apply col_field in C1, C2, C3, C4, C5.
  pose proof (tally_read [q_x r; firstn 11 (q_y r ++ q_z r); skipn 1 (q_z r)] (q_result r) (q_error r) []) as H.
  destruct C1 as [L1 A1], C2 as [L2 A2], C3 as [L3 A3].
  assert (E : firstn 11 (q_y r ++ q_z r) ++ skipn 1 (q_z r) = q_y r ++ q_z r).
  { rewrite firstn_app, L2. rewrite firstn_all2 by lia. rewrite <- app_assoc. change (11 - 10) with 1. now rewrite firstn_skipn. }
  assert (NZ : allc notnl (firstn 11 (q_y r ++ q_z r)) /\ allc notnl (skipn 1 (q_z r))).
  { rewrite <- (firstn_skipn 11 (q_y r ++ q_z r)) in E. assert (A : allc notnl (q_y r ++ q_z r)) by (apply allc_app; auto).
    rewrite <- (firstn_skipn 11) in A. apply allc_app in A as [A _]. rewrite <- (firstn_skipn 1 (q_z r)) in A3. apply allc_app in A3 as [_ A3]. auto. }
  destruct NZ as [N1 N2].
  eexists. split.
  - unfold line_of in H. cbn [concat] in H. rewrite !app_nil_r, <- !app_assoc in H. rewrite (app_assoc (firstn _ _)) in H. rewrite E, <- !app_assoc in H.
    apply H; auto; [|now left]. split; [cbn; lia|]. split; [|repeat constructor; auto].
    transitivity [9; 11; 9]; [|reflexivity]. cbn [map]. rewrite firstn_length, app_length, skipn_length, L1, L2, L3. reflexivity.
  - repeat split; reflexivity.
Qed.
Theorem tally_no_py s : is_py (tally_from_mcnp s) = false.
Proof. unfold tally_from_mcnp. destruct (re_match re_tally s); reflexivity. Qed.

(** ** Lines with any of the columns *)

Lemma some_ofield w o : some_column w o -> ofield w o.
Proof. destruct o as [s|]; cbn; auto. apply col_field. Qed.
Lemma accc_sp : accc (RSet (cs_chr 32)) [sp] [].
Proof. apply accc_set. reflexivity. Qed.
Theorem any_row_rewrite r : any_row_ok r -> exists t, tally_from_mcnp (any_row_text r) = Ok t /\ tally_to_mcnp t = any_row_text r.
Proof.
  intros (C1 & C2 & C3 & C4 & C5 & C6 & C7).
  assert (N : allc notnl (any_row_text r)).
  { assert (NO : forall w o, some_column w o -> allc notnl (column_text o)) by (intros w [s|] H; [now apply col_field in H as [_ H]|constructor]).
    unfold any_row_text. repeat (apply allc_app; split); eauto; try (now apply col_field in C6 as [_ C6]); try (now apply col_field in C7 as [_ C7]). repeat constructor. }
  apply some_ofield in C1, C2, C3, C4, C5. apply col_field in C6, C7. destruct C6 as [L6 A6], C7 as [L7 A7].
  pose proof (accc_opt_cell 1 9 (a_energy r) ltac:(lia) C1) as R1. pose proof (accc_opt_cell 2 11 (a_time r) ltac:(lia) C2) as R2.
  pose proof (accc_opt_cell 3 9 (a_x r) ltac:(lia) C3) as R3. pose proof (accc_opt_cell 4 10 (a_y r) ltac:(lia) C4) as R4.
  pose proof (accc_opt_cell 5 10 (a_z r) ltac:(lia) C5) as R5.
  pose proof (accc_cat _ _ _ _ _ _ (accc_cell 7 12 _ L7 A7) (accc_opt_none false (RSet cs_nl))) as R.
  pose proof (accc_cat _ _ _ _ _ _ (accc_cell 6 12 _ L6 A6) R) as R'. clear R.
  pose proof (accc_cat _ _ _ _ _ _ R5 R') as R. clear R'. pose proof (accc_cat _ _ _ _ _ _ R4 R) as R'. clear R.
  pose proof (accc_cat _ _ _ _ _ _ R3 R') as R. clear R'. pose proof (accc_cat _ _ _ _ _ _ R2 R) as R'. clear R.
  pose proof (accc_cat _ _ _ _ _ _ R1 R') as R. clear R'. pose proof (accc_cat _ _ _ _ _ _ accc_sp R) as R'. clear R.
  pose proof (accc_cat _ _ _ _ _ _ accc_sp R') as R. clear R'.
  destruct (match_ex r_tally _ _ eq_refl R) as (o & E & _). rewrite app_nil_r in E.
  change ([sp] ++ [sp] ++ otext (a_energy r) ++ otext (a_time r) ++ otext (a_x r) ++ otext (a_y r) ++ otext (a_z r) ++ a_result r ++ a_error r) with (any_row_text r) in E.
  assert (H : exists t, tally_from_mcnp (any_row_text r) = Ok t) by (unfold tally_from_mcnp; rewrite re_tally_eq, E; eauto).
  destruct H as [t H]. exists t. split; auto. destruct (tally_rewrite _ _ H) as [G|G]; [congruence|].
  rewrite G in N. apply allc_app in N as [_ N]. inversion N as [|? ? N1]. discriminate N1.
Qed.

(** ** Checking hypotheses by computation *)

Definition columnb (w : nat) (s : str) : bool := (length s =? w) && forallb notnl s.
Lemma columnb_ok w s : columnb w s = true -> column w s.
Proof.
  unfold columnb. intros H. apply andb_prop in H as [A B]. apply Nat.eqb_eq in A. split; auto. apply notin_notnl.
  apply Forall_forall. now apply forallb_forall.
Qed.
Definition text_lineb (s : str) : bool := negb (length s =? 0) && forallb notnl s.
Lemma text_lineb_ok s : text_lineb s = true -> text_line s.
Proof.
  unfold text_lineb. intros H. apply andb_prop in H as [A B]. split; [destruct s; discriminate|]. apply notin_notnl.
  apply Forall_forall. now apply forallb_forall.
Qed.
Definition binb (o : option str) : bool := match o with Some s => text_lineb s | None => true end.
Definition hdatab (h : hdata) : bool :=
  columnb 7 (h_code h) && columnb 6 (h_version h) && columnb 10 (h_ld h) && columnb 20 (h_probid h) && text_lineb (h_title h) &&
  (length (str_of_N (h_histories h)) <=? 14) && (length (str_of_Z (h_number h)) <=? 10) && columnb 8 (h_particle h) && text_lineb (h_columns h) &&
  forallb binb [h_x h; h_y h; h_z h; h_time h; h_energy h] &&
  existsb (fun o : option str => match o with Some _ => true | None => false end) [h_x h; h_y h; h_z h; h_time h; h_energy h].
Lemma hdatab_ok h : hdatab h = true -> hdata_ok h.
Proof.
  unfold hdatab. intros H. repeat match type of H with _ && _ = true => apply andb_prop in H as [H ?H] end.
  repeat match goal with H : columnb _ _ = true |- _ => apply columnb_ok in H | H : text_lineb _ = true |- _ => apply text_lineb_ok in H
    | H : (_ <=? _) = true |- _ => apply Nat.leb_le in H end.
  unfold hdata_ok. do 9 (split; [assumption|]). split.
  - apply Forall_forall. intros o I. rewrite forallb_forall in H1. apply H1 in I. destruct o; cbn in *; auto. now apply text_lineb_ok.
  - apply existsb_exists in H0 as ([s|] & I & E); [eauto|discriminate].
Qed.
Definition rowb (s : str) : bool :=
  seqb (firstn 2 s) (L "  ") && forallb notnl s && existsb (Nat.eqb (length s - 2)) [29 + 24; 39 + 24; 49 + 24].
Lemma rowb_ok s : rowb s = true -> row_ok s.
Proof.
  unfold rowb. intros H. apply andb_prop in H as [H C]. apply andb_prop in H as [A B]. apply seqb_eq in A.
  exists (skipn 2 s). split; [now rewrite <- A, firstn_skipn|]. split.
  - apply notin_notnl. apply Forall_forall. now apply forallb_forall.
  - rewrite skipn_length. apply existsb_exists in C as (x & I & E). apply Nat.eqb_eq in E. now rewrite E.
Qed.
Definition fdatab (f : fdata) : bool := hdatab (f_header f) && negb (length (f_rows f) =? 0) && forallb rowb (f_rows f).
Lemma fdatab_ok f : fdatab f = true -> fdata_ok f.
Proof.
  unfold fdatab. intros H. apply andb_prop in H as [H C]. apply andb_prop in H as [A B]. split; [now apply hdatab_ok|]. split.
  - destruct (f_rows f); discriminate.
  - apply Forall_forall. intros r I. apply rowb_ok. rewrite forallb_forall in C. auto.
Qed.
