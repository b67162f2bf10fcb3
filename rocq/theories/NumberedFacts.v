(** Proofs about cells, surfaces, materials and their numbers. *)

From Coq Require Import Ascii String NArith ZArith QArith Bool List Lia Lqa.
From Verif Require Import PyStr Regex PyNum PyNumFacts Types Cards Tables ConstraintsSpec ConstraintsFacts Geometry GeometrySpec GeometryFacts6 Numbered NumberedSpec.
Import ListNotations.
Open Scope list_scope.

Opaque geo_from_mcnp.

(** * Tests *)

Lemma meant_num v : match num_of (opt_pv v) with
  | NZ z => meant v = Some (TQ (inject_Z z))
  | ND (Fin n c e) => meant v = Some (TQ (dec_Q n c e))
  | NStr s => meant v = Some (TS s)
  | _ => meant v = None end.
Proof. destruct v as [[[]|[[]|]| | | | | | | | | | | | ]|]; cbn; reflexivity. Qed.

Lemma range_ok o lo hi v : run_checks o v [range_test lo hi] = Ok tt -> v <> None /\ in_range lo hi v.
Proof.
  unfold range_test. cbn [run_checks beval neval bind]. intros H.
  assert (HN : v <> None) by (intros ->; discriminate H). split; [exact HN|].
  destruct v as [v|]; [|congruence]. cbn [opt_pv bind] in H.
  pose proof (meant_num (Some v)) as HM. cbn [opt_pv] in HM.
  destruct (compare OLe (PZ lo) (PLib v)) as [[]| |] eqn:E1; cbn [bind negb] in H; try discriminate.
  destruct (compare OLe (PLib v) (PZ hi)) as [[]| |] eqn:E2; cbn [bind negb] in H; try discriminate.
  assert (HF : num_fin (num_of (PLib v))).
  { unfold compare in E1, E2. change (num_of (PZ lo)) with (NZ lo) in *. change (num_of (PZ hi)) with (NZ hi) in *. destruct (num_of (PLib v)) as [z|[nn cc ee|nn|nn sg dg]| | |]; cbn in *; try exact I; try discriminate.
    destruct nn; cbn in *; discriminate. }
  apply compare_means in E1; [|exact I|exact HF|cbn; exact I].
  apply compare_means in E2; [|exact HF|exact I|change (num_of (PZ hi)) with (NZ hi); destruct (num_of (PLib v)); exact I].
  destruct E1 as [E1 _], E2 as [E2 _]. specialize (E1 eq_refl). specialize (E2 eq_refl). change (num_of (PZ lo)) with (NZ lo) in *. change (num_of (PZ hi)) with (NZ hi) in *.
  destruct (num_of (PLib v)) as [z|[]| | |]; cbn in *; try tauto; (eexists; split; [exact HM|split; assumption]).
Qed.

Lemma in_range_fin lo hi v : in_range lo hi v -> num_fin (num_of (opt_pv v)) /\
  exists q, of_num (num_of (opt_pv v)) = Some (TQ q) /\ meant v = Some (TQ q).
Proof.
  intros (q & H & _). pose proof (meant_num v) as HM. destruct (num_of (opt_pv v)) as [z|[]| | |]; cbn; try congruence;
  (split; [exact I|]; eexists; split; [reflexivity|exact HM]).
Qed.

Lemma equals_zero op lo hi v r : in_range lo hi v -> op = OEq \/ op = ONe -> compare op (opt_pv v) (PZ 0) = Ok r ->
  (r = true <-> match op with OEq => is_zero v | _ => ~ is_zero v end).
Proof.
  intros HR HO H. destruct (in_range_fin _ _ _ HR) as (HF & q & HQ & HM).
  apply compare_means in H; [|exact HF|exact I|change (num_of (PZ 0)) with (NZ 0); destruct (num_of (opt_pv v)); exact I].
  rewrite HQ in H. cbn [num_of of_num] in H.
  assert (HZ : is_zero v <-> (q == inject_Z 0)%Q).
  { split; [intros (q' & E & Z); rewrite HM in E; injection E as <-; exact Z|intros Z; exists q; auto]. }
  destruct HO; subst op; cbn [holds same] in H; rewrite H, HZ; reflexivity.
Qed.

Lemma density_ok lo hi m v : in_range lo hi m -> run_checks [("material"%string, m)] v [density_test] = Ok tt ->
  (v <> None <-> ~ is_zero m).
Proof.
  intros HR H. unfold density_test in H. cbn [run_checks beval neval bind assoc] in H.
  change (String.eqb "material" "material") with true in H. cbn [bind] in H.
  destruct v as [v|]; cbn [opt_pv bind negb] in H.
  - destruct (compare OEq (opt_pv m) (PZ 0)) as [b| |] eqn:E; cbn [bind] in H; try discriminate.
    apply (equals_zero _ _ _ _ _ HR (or_introl eq_refl)) in E. cbn in E. destruct b; [discriminate|].
    split; [|congruence]. intros _ HZ. apply E in HZ. discriminate.
  - destruct (compare ONe (opt_pv m) (PZ 0)) as [b| |] eqn:E; cbn [bind] in H; try discriminate.
    apply (equals_zero _ _ _ _ _ HR (or_intror eq_refl)) in E. cbn in E. destruct b; [discriminate|].
    split; [congruence|]. intros HZ. apply E in HZ. discriminate.
Qed.

(** * Cells *)

Definition cell_good (c : cellobj) : Prop := in_range 1 99999999 (ce_number c) /\ in_range 0 99999999 (ce_material c).

Lemma checked_ok o l r x : checked o l r = Ok x -> run_checks o x l = Ok tt.
Proof.
  unfold checked. destruct r as [y| |]; cbn; try discriminate. destruct (run_checks o y l) as [[]| |] eqn:E; cbn; try discriminate.
  intros [= <-]. exact E.
Qed.

(** What an accepted assignment does. *)
Lemma cell_set_ok s c c' u : cell_set s c = (c', Ok u) ->
  match s with
  | SNumber _ => in_range 1 99999999 (ce_number c') /\ ce_material c' = ce_material c /\ ce_density c' = ce_density c
  | SMaterial _ => in_range 0 99999999 (ce_material c') /\ ce_number c' = ce_number c /\ ce_density c' = ce_density c
  | SDensity _ => run_checks [("material"%string, ce_material c)] (ce_density c') [density_test] = Ok tt /\ ce_number c' = ce_number c /\ ce_material c' = ce_material c
  | _ => ce_number c' = ce_number c /\ ce_material c' = ce_material c /\ ce_density c' = ce_density c
  end.
Proof.
  destruct c as [n m d g o], s as [a|a|a|a|a]; unfold cell_set, cell_tail.
  - destruct (checked _ _ _) as [x| |] eqn:E; intros [= <- <-]. apply checked_ok, range_ok in E. cbn. tauto.
  - destruct (checked _ _ _) as [x| |] eqn:E; intros [= <- <-]. apply checked_ok, range_ok in E. cbn. tauto.
  - destruct (checked _ _ _) as [x| |] eqn:E; intros [= <- <-]. apply checked_ok in E. cbn -[run_checks]. tauto.
  - destruct a; cbn [bind]; try destruct (geo_from_mcnp s); cbn [bind]; intros [= <- <-]; cbn; tauto.
  - destruct (conv _ _ _ _); intros [= <- <-]. cbn. tauto.
Qed.
Lemma cell_set_same s c : match cell_set s c with (c', Ok _) => True | (c', _) => c' = c end.
Proof.
  destruct c as [n m d g o], s as [a|a|a|a|a]; unfold cell_set, cell_tail;
  match goal with |- match (match ?e with _ => _ end) with _ => _ end => destruct e end; reflexivity || exact I.
Qed.
Lemma cell_step s c : (exists u, cell_set s c = (fst (cell_set s c), Ok u)) \/ fst (cell_set s c) = c.
Proof.
  pose proof (cell_set_same s c) as H. destruct (cell_set s c) as [c' []]; cbn in *; [left; eauto|right; exact H|right; exact H].
Qed.

Lemma cell_sets_cons s l c c' : cell_sets (s :: l) c = Ok c' -> exists c1, cell_set s c = (c1, Ok tt) /\ cell_sets l c1 = Ok c'.
Proof. cbn [cell_sets]. destruct (cell_set s c) as [c1 [[]| |]]; intros H; try discriminate. exists c1. auto. Qed.
Lemma cell_new_inv n a n' c : cell_new n a = (n', Ok c) ->
  exists x c1 c2 c3 c4, take_number n (ca_number a) = (n', Ok x) /\
    cell_set (SNumber x) (mkcell None None None None None) = (c1, Ok tt) /\ cell_set (SMaterial (ca_material a)) c1 = (c2, Ok tt) /\
    cell_set (SDensity (ca_density a)) c2 = (c3, Ok tt) /\ cell_set (SGeometry (ca_geometry a)) c3 = (c4, Ok tt) /\
    cell_set (SOptions (ca_options a)) c4 = (c, Ok tt).
Proof.
  unfold cell_new. destruct (take_number n (ca_number a)) as [m [x| |]] eqn:E; cbn [bind]; intros H; try discriminate H.
  pose proof (f_equal fst H) as H1. apply (f_equal snd) in H. cbn [fst snd] in H1, H. subst m.
  apply cell_sets_cons in H. destruct H as (c1 & E1 & H). apply cell_sets_cons in H. destruct H as (c2 & E2 & H).
  apply cell_sets_cons in H. destruct H as (c3 & E3 & H). apply cell_sets_cons in H. destruct H as (c4 & E4 & H).
  apply cell_sets_cons in H. destruct H as (c5 & E5 & H). cbn [cell_sets] in H.
  injection H as <-. exists x, c1, c2, c3, c4. repeat split; assumption.
Qed.

Lemma cell_new_good n a n' c : cell_new n a = (n', Ok c) -> cell_good c /\ (has_density c <-> ~ void c).
Proof.
  intros H. destruct (cell_new_inv _ _ _ _ H) as (x & c1 & c2 & c3 & c4 & _ & E1 & E2 & E3 & E4 & E5).
  apply cell_set_ok in E1, E2, E3, E4, E5. unfold cell_good, has_density, void.
  destruct E1 as (R1 & _ & _), E2 as (R2 & N2 & _), E3 as (R3 & N3 & M3), E4 as (N4 & M4 & D4), E5 as (N5 & M5 & D5).
  rewrite N5, N4, N3, N2, M5, M4, M3, D5, D4. split; [tauto|]. exact (density_ok _ _ _ _ R2 R3).
Qed.

Lemma cell_set_good s c : cell_good c -> cell_good (fst (cell_set s c)).
Proof.
  intros [G1 G2]. destruct (cell_step s c) as [[u E]|E]; [|rewrite E; now split].
  apply cell_set_ok in E. unfold cell_good. destruct s; destruct E as (A & B & C); rewrite ?A, ?B, ?C; tauto.
Qed.
Theorem cell_ranges c : cell_reach c -> in_range 1 99999999 (ce_number c) /\ in_range 0 99999999 (ce_material c).
Proof.
  induction 1 as [n a n' c H|s c _ IH]; [now apply cell_new_good in H|now apply cell_set_good].
Qed.

Lemma steady_reach c : cell_steady c -> cell_reach c.
Proof. induction 1; [eapply cell_made; eassumption|now apply cell_assigned]. Qed.
Theorem density_assigned c a c' : cell_reach c -> cell_set (SDensity a) c = (c', Ok tt) -> (has_density c' <-> ~ void c').
Proof.
  intros HR E. apply cell_ranges in HR. destruct HR as [_ HR]. apply cell_set_ok in E. destruct E as (D & _ & M).
  unfold has_density, void. rewrite M. exact (density_ok _ _ _ _ HR D).
Qed.
Theorem density_iff_filled c : cell_steady c -> (has_density c <-> ~ void c).
Proof.
  induction 1 as [n a n' c H|s c HS IH HV]; [now apply cell_new_good in H|].
  destruct (cell_step s c) as [[[] E]|E]; [|rewrite E; exact IH].
  destruct s as [a|a|a|a|a].
  3: { exact (density_assigned _ _ _ (steady_reach _ HS) E). }
  all: rewrite HV, <- IH; unfold has_density; apply cell_set_ok in E; destruct E as (A & B & C); rewrite C; reflexivity.
Qed.

(** * Writing cells *)
Lemma set_geometry s c c' u : cell_set s c = (c', Ok u) -> by_surface s = false ->
  match s with SGeometry _ => exists g, ce_geometry c' = Some (CTree g) | _ => ce_geometry c' = ce_geometry c end.
Proof.
  destruct c as [n m d g o], s as [a|a|a|a|a]; unfold cell_set, cell_tail.
  1-3: destruct (checked _ _ _); intros [= <- <-]; reflexivity.
  2: destruct (conv _ _ _ _); intros [= <- <-]; reflexivity.
  destruct a as [|s|[t|t]|v]; cbn [bind by_surface]; try discriminate.
  - destruct (geo_from_mcnp s); cbn [bind]; intros [= <- <-] _. eexists. reflexivity.
  - intros [= <- <-] _. eexists. reflexivity.
Qed.
Theorem plain_written c : cell_plain c -> exists s, cell_to_mcnp c = Ok s.
Proof.
  intros H. assert (HG : exists g, ce_geometry c = Some (CTree g)).
  { induction H as [n a n' c H HB|s c _ IH HB].
    - destruct (cell_new_inv _ _ _ _ H) as (x & c1 & c2 & c3 & c4 & _ & _ & _ & _ & E4 & E5).
      apply set_geometry in E4; [|exact HB]. apply set_geometry in E5; [|reflexivity]. rewrite E5. exact E4.
    - destruct (cell_step s c) as [[u E]|E]; [|rewrite E; exact IH].
      apply set_geometry in E; [|exact HB]. destruct s; try (rewrite E; exact IH). exact E. }
  destruct HG as [g HG]. unfold cell_to_mcnp. rewrite HG. eexists. reflexivity.
Qed.
Theorem surface_unwritten c x : let '(c', r) := cell_set (SGeometry (GSurf x)) c in r = Ok tt /\ cell_to_mcnp c' = Py AttributeError.
Proof. destruct c. cbn. split; reflexivity. Qed.

(** * Surfaces *)

Lemma transform_ok o v : run_checks o v [transform_test] = Ok tt -> v = None \/ in_range 0 999 v.
Proof.
  intros H. destruct v as [v|]; [|now left]. right. apply (range_ok o).
  unfold transform_test, range_test in *. cbn [run_checks beval neval bind opt_pv negb] in *. exact H.
Qed.
Lemma surf_set_ok s c c' u : surf_set s c = (c', Ok u) ->
  match s with
  | UNumber a => run_checks [("transform"%string, su_transform c)] (su_number c') [surface_number_test] = Ok tt /\ su_transform c' = su_transform c
  | UTransform _ => (su_transform c' = None \/ in_range 0 999 (su_transform c')) /\ su_number c' = su_number c
  | _ => su_number c' = su_number c /\ su_transform c' = su_transform c
  end.
Proof.
  destruct c as [p n t o], s as [a|a|a|a]; unfold surf_set, surf_tail;
  (destruct (checked _ _ _) as [x| |] eqn:E; intros [= <- <-]); apply checked_ok in E; try apply transform_ok in E; cbn -[run_checks]; tauto.
Qed.
Lemma surf_step s c : (exists u, surf_set s c = (fst (surf_set s c), Ok u)) \/ fst (surf_set s c) = c.
Proof.
  destruct c as [p n t o], s as [a|a|a|a]; unfold surf_set, surf_tail; destruct (checked _ _ _); cbn; eauto.
Qed.
Lemma surf_sets_cons s l c c' : surf_sets (s :: l) c = Ok c' -> exists c1, surf_set s c = (c1, Ok tt) /\ surf_sets l c1 = Ok c'.
Proof. cbn [surf_sets]. destruct (surf_set s c) as [c1 [[]| |]]; intros H; try discriminate. exists c1. auto. Qed.
Lemma surf_new_inv n a n' c : surf_new n a = (n', Ok c) ->
  exists x c1 c2 c3, take_number n (sa_number a) = (n', Ok x) /\
    surf_set (UTransform (sa_transform a)) (mksurf None None None None) = (c1, Ok tt) /\ surf_set (UNumber x) c1 = (c2, Ok tt) /\
    surf_set (UOption (sa_option a)) c2 = (c3, Ok tt) /\ surf_set (UPrefix (sa_prefix a)) c3 = (c, Ok tt).
Proof.
  unfold surf_new. destruct (take_number n (sa_number a)) as [m [x| |]] eqn:E; cbn [bind]; intros H; try discriminate H.
  pose proof (f_equal fst H) as H1. apply (f_equal snd) in H. cbn [fst snd] in H1, H. subst m.
  apply surf_sets_cons in H. destruct H as (c1 & E1 & H). apply surf_sets_cons in H. destruct H as (c2 & E2 & H).
  apply surf_sets_cons in H. destruct H as (c3 & E3 & H). apply surf_sets_cons in H. destruct H as (c4 & E4 & H).
  cbn [surf_sets] in H. injection H as <-. exists x, c1, c2, c3. repeat split; assumption.
Qed.
Theorem transform_range c : surf_reach c -> su_transform c = None \/ in_range 0 999 (su_transform c).
Proof.
  induction 1 as [n a n' c H|s c _ IH].
  - destruct (surf_new_inv _ _ _ _ H) as (x & c1 & c2 & c3 & _ & E1 & E2 & E3 & E4).
    apply surf_set_ok in E1, E2, E3, E4. destruct E1 as [E1 _], E2 as [_ E2], E3 as [_ E3], E4 as [_ E4].
    rewrite E4, E3, E2. exact E1.
  - destruct (surf_step s c) as [[u E]|E]; [|rewrite E; exact IH]. apply surf_set_ok in E.
    destruct s; destruct E as [A B]; rewrite ?B; try exact IH. exact A.
Qed.
Lemma unmoved_truth v : v = None \/ in_range 0 999 v -> v = None \/ is_zero v -> truth (opt_pv v) = Ok false.
Proof.
  intros _ [->|(q & H & HZ)]; [reflexivity|].
  destruct v as [[[]|[[]|]| | | | | | | | | | | | ]|]; cbn in *; try discriminate; injection H as <-.
  - unfold Qeq in HZ. cbn in HZ. rewrite Z.mul_1_r in HZ. now subst.
  - f_equal. apply Bool.negb_false_iff, N.eqb_eq. unfold dec_Q in HZ. apply Qmult_integral in HZ. destruct HZ as [HZ|HZ].
    + unfold Qeq in HZ. cbn in HZ. destruct neg; lia.
    + pose proof (pow_pos exp). lra.
  - unfold Qeq in HZ. cbn in HZ. rewrite Z.mul_1_r in HZ. now subst.
Qed.
Lemma number_ok t v : truth (opt_pv t) = Ok false -> run_checks [("transform"%string, t)] v [surface_number_test] = Ok tt ->
  in_range 1 99999999 v.
Proof.
  intros HT H. apply (range_ok [("transform"%string, t)]). revert H. unfold surface_number_test, range_test.
  cbn [run_checks beval neval bind assoc]. change (String.eqb "transform" "transform") with true. cbn [bind].
  rewrite HT. cbn [bind negb]. auto.
Qed.
Lemma still_reach c : surf_still c -> surf_reach c /\ unmoved c.
Proof. induction 1 as [n a n' c H|s c _ IH]; [split; [eapply surf_made|]; eassumption|split; [now apply surf_assigned|assumption]]. Qed.
Theorem number_range c : surf_still c -> in_range 1 99999999 (su_number c).
Proof.
  induction 1 as [n a n' c H HU|s c HS IH HU].
  - destruct (surf_new_inv _ _ _ _ H) as (x & c1 & c2 & c3 & _ & E1 & E2 & E3 & E4).
    pose proof (transform_range c (surf_made _ _ _ _ H)) as HT.
    apply surf_set_ok in E1, E2, E3, E4. destruct E1 as [_ N1], E2 as [E2 T2], E3 as [N3 T3], E4 as [N4 T4].
    rewrite N4, N3. apply (number_ok (su_transform c1)); [|exact E2]. rewrite <- T2, <- T3, <- T4. now apply unmoved_truth.
  - destruct (surf_step s c) as [[u E]|E]; [|rewrite E; exact IH].
    destruct (still_reach _ HS) as [HR HU0]. apply transform_range in HR.
    apply surf_set_ok in E. destruct s; destruct E as [A B]; try (rewrite A; exact IH); try (rewrite B; exact IH).
    apply (number_ok (su_transform c)); [now apply unmoved_truth|exact A].
Qed.
(** With a transformation the number is not checked. *)
Lemma moved_truth v : in_range 0 999 v -> ~ is_zero v -> truth (opt_pv v) = Ok true.
Proof.
  intros (q & H & _) HZ.
  destruct v as [[[]|[[]|]| | | | | | | | | | | | ]|]; cbn in *; try discriminate; injection H as <-.
  - f_equal. apply Bool.negb_true_iff, Z.eqb_neq. intros ->. apply HZ. exists 0%Q. split; reflexivity.
  - f_equal. apply Bool.negb_true_iff, N.eqb_neq. intros ->. apply HZ. eexists. split; [reflexivity|]. unfold dec_Q.
    destruct neg; cbn [Z.of_N Z.opp]; change (inject_Z 0) with 0%Q; ring.
  - f_equal. apply Bool.negb_true_iff, Z.eqb_neq. intros ->. apply HZ. exists 0%Q. split; reflexivity.
Qed.
Theorem moved_unchecked c z : surf_reach c -> ~ unmoved c ->
  exists c', surf_set (UNumber (AInt z)) c = (c', Ok tt) /\ su_number c' = Some (VInt (IVal z)).
Proof.
  intros HR HU. pose proof (transform_range _ HR) as HT. destruct c as [p n t o]. unfold unmoved in HU. cbn [su_transform] in *.
  destruct HT as [HT|HT]; [tauto|]. assert (E : truth (opt_pv t) = Ok true) by (apply moved_truth; tauto).
  unfold surf_set, checked, surf_tail, surface_number_test. cbn [conv bind run_checks beval neval assoc from_int opt_pv].
  change (String.eqb "transform" "transform") with true. cbn [bind]. rewrite E. cbn [bind negb].
  eexists. split; reflexivity.
Qed.

(** * Automatic numbers *)

Lemma take_number_spec n a n' r : take_number n a = (n', r) ->
  match a with ANone => (n < 100000000)%Z -> n' = (n + 1)%Z /\ r = Ok (AInt n) | _ => n' = n end.
Proof.
  unfold take_number, next_number. destruct a; intros H; try (injection H as <- <-; reflexivity).
  intros HL. apply Z.ltb_lt in HL. rewrite HL in H. injection H as <- <-. split; reflexivity.
Qed.
Lemma take_number_auto n n' x : take_number n ANone = (n', Ok x) -> (n < 100000000)%Z /\ n' = (n + 1)%Z /\ x = AInt n.
Proof.
  unfold take_number, next_number. destruct (n <? 100000000)%Z eqn:E; [|discriminate]. intros [= <- <-]. apply Z.ltb_lt in E. auto.
Qed.
Lemma take_number_grows n a : (n <= fst (take_number n a))%Z.
Proof. unfold take_number, next_number. destruct a; cbn; try lia. destruct (n <? 100000000)%Z; cbn; lia. Qed.

Lemma cell_auto n a n' c : cell_new n a = (n', Ok c) -> ca_number a = ANone -> n' = (n + 1)%Z /\ ce_number c = Some (VInt (IVal n)).
Proof.
  intros H HA. destruct (cell_new_inv _ _ _ _ H) as (x & c1 & c2 & c3 & c4 & E & E1 & E2 & E3 & E4 & E5).
  rewrite HA in E. apply take_number_auto in E. destruct E as (_ & -> & ->). split; [reflexivity|].
  apply cell_set_ok in E2, E3, E4, E5. destruct E2 as (_ & N2 & _), E3 as (_ & N3 & _), E4 as (N4 & _), E5 as (N5 & _).
  rewrite N5, N4, N3, N2. revert E1. unfold cell_set, cell_tail. destruct (checked _ _ _) as [y| |] eqn:E; [|discriminate|discriminate].
  intros [= <-]. unfold checked in E. cbn [conv bind from_int] in E. destruct (run_checks _ _ _) as [[]| |]; try discriminate. injection E as <-. reflexivity.
Qed.
Lemma surf_auto n a n' c : surf_new n a = (n', Ok c) -> sa_number a = ANone -> n' = (n + 1)%Z /\ su_number c = Some (VInt (IVal n)).
Proof.
  intros H HA. destruct (surf_new_inv _ _ _ _ H) as (x & c1 & c2 & c3 & E & E1 & E2 & E3 & E4).
  rewrite HA in E. apply take_number_auto in E. destruct E as (_ & -> & ->). split; [reflexivity|].
  apply surf_set_ok in E3, E4. destruct E3 as (N3 & _), E4 as (N4 & _).
  rewrite N4, N3. revert E2. destruct c1 as [p m t o]. unfold surf_set, surf_tail. destruct (checked _ _ _) as [y| |] eqn:E; [|discriminate|discriminate].
  intros [= <-]. unfold checked in E. cbn [conv bind from_int] in E. destruct (run_checks _ _ _) as [[]| |]; try discriminate. injection E as <-. reflexivity.
Qed.
Lemma init_cons a v l o o' : init_attrs ext fam ((a, v) :: l) o = Ok o' ->
  exists x, conv ext fam (a_ty a) v = Ok x /\ init_attrs ext fam l (upd (a_name a) x o) = Ok o'.
Proof.
  cbn [init_attrs]. unfold set_attr. destruct (conv ext fam (a_ty a) v) as [x| |]; try discriminate.
  destruct (run_checks o x (a_checks a)); try discriminate. intros H. exists x. auto.
Qed.
Lemma mat_auto n s o n' c : mat_new n s ANone o = (n', Ok c) ->
  n' = (n + 1)%Z /\ assoc "suffix"%string c = Some (Some (VInt (IVal n))).
Proof.
  unfold mat_new. destruct (take_number n ANone) as [m [x| |]] eqn:E; cbn [bind]; intros [= <- H].
  apply take_number_auto in E. destruct E as (_ & -> & ->). split; [reflexivity|].
  unfold construct, k_M_0 in H. cbn [c_attrs combine] in H.
  apply init_cons in H. destruct H as (x & E & H). apply init_cons in H. destruct H as (y & _ & H). apply init_cons in H. destruct H as (z & _ & H).
  cbn [conv a_ty from_int] in E. injection E as <-. cbn [init_attrs] in H. injection H as <-. reflexivity.
Qed.

Lemma step_grows k e x : (k x <= fst (step k e) x)%Z.
Proof.
  destruct e as [a|a|s y o]; cbn [step].
  - unfold cell_new. pose proof (take_number_grows (k KCell) (ca_number a)). destruct (take_number _ _) as [n r]. cbn in *.
    destruct x; cbn; lia.
  - unfold surf_new. pose proof (take_number_grows (k KSurface) (sa_number a)). destruct (take_number _ _) as [n r]. cbn in *.
    destruct x; cbn; lia.
  - unfold mat_new. pose proof (take_number_grows (k KMaterial) y). destruct (take_number _ _) as [n r]. cbn in *.
    destruct x; cbn; lia.
Qed.
Lemma step_auto k e k' v : step k e = (k', Ok v) -> automatic e = true ->
  k' (kind_of e) = (k (kind_of e) + 1)%Z /\ v = Some (VInt (IVal (k (kind_of e)))).
Proof.
  destruct e as [a|a|s y o]; unfold automatic; cbn [step kind_of].
  - destruct (ca_number a) eqn:EA; try discriminate. destruct (cell_new _ a) as [n [c| |]] eqn:E; cbn [bind]; intros [= <- <-] _.
    apply cell_auto in E; [|exact EA]. destruct E as [-> ->]. split; reflexivity.
  - destruct (sa_number a) eqn:EA; try discriminate. destruct (surf_new _ a) as [n [c| |]] eqn:E; cbn [bind]; intros [= <- <-] _.
    apply surf_auto in E; [|exact EA]. destruct E as [-> ->]. split; reflexivity.
  - destruct y; try discriminate. destruct (mat_new _ s ANone o) as [n [c| |]] eqn:E; cbn [bind]; intros [= <- <-] _.
    apply mat_auto in E. destruct E as [-> ->]. split; reflexivity.
Qed.

Lemma auto_above l : forall k x v, In v (numbers true x (created k l)) -> exists z, v = Some (VInt (IVal z)) /\ (k x <= z)%Z.
Proof.
  induction l as [|e l IH]; intros k x v H; [destruct H|]. cbn [created] in H.
  destruct (step k e) as [k' r] eqn:E. pose proof (step_grows k e x) as HG. rewrite E in HG. cbn [fst] in HG.
  assert (HI : In v (numbers true x (created k' l)) -> exists z, v = Some (VInt (IVal z)) /\ (k x <= z)%Z).
  { intros HI. destruct (IH _ _ _ HI) as (z & -> & HL). exists z. split; [reflexivity|lia]. }
  destruct r as [w| |]; [|exact (HI H)|exact (HI H)].
  unfold numbers in H. cbn [filter fst snd] in H. destruct (kind_eqb (kind_of e) x && Bool.eqb (automatic e) true) eqn:EB; [|exact (HI H)].
  cbn [map snd] in H. destruct H as [<-|H]; [|exact (HI H)].
  apply andb_prop in EB. destruct EB as [EK EA]. apply Bool.eqb_prop in EA.
  assert (x = kind_of e) by (now destruct (kind_of e), x). subst x.
  apply step_auto in E; [|exact EA]. destruct E as [_ ->]. exists (k (kind_of e)). split; [reflexivity|lia].
Qed.
Theorem auto_distinct l : forall k x, NoDup (numbers true x (created k l)).
Proof.
  induction l as [|e l IH]; intros k x; [constructor|]. cbn [created].
  destruct (step k e) as [k' [w| |]] eqn:E; [|apply IH|apply IH].
  unfold numbers. cbn [filter fst snd]. destruct (kind_eqb (kind_of e) x && Bool.eqb (automatic e) true) eqn:EB; [|apply IH].
  cbn [map snd]. apply andb_prop in EB. destruct EB as [EK EA]. apply Bool.eqb_prop in EA.
  assert (x = kind_of e) by (now destruct (kind_of e), x). subst x.
  constructor; [|apply IH]. intros HI. apply (auto_above l k' (kind_of e)) in HI. destruct HI as (z & -> & HL).
  apply step_auto in E; [|exact EA]. destruct E as [E1 E2]. injection E2 as ->. lia.
Qed.

(** How far the numbers can go. *)
Lemma step_bound k e x : (fst (step k e) x <= k x + (if kind_eqb (kind_of e) x && automatic e then 1 else 0))%Z.
Proof.
  assert (HT : forall n a, (fst (take_number n a) <= n + (match a with ANone => 1 | _ => 0 end))%Z).
  { intros n a. unfold take_number, next_number. destruct a; cbn; try lia. destruct (n <? 100000000)%Z; cbn; lia. }
  destruct e as [a|a|s y o]; cbn [step]; unfold automatic.
  - unfold cell_new. pose proof (HT (k KCell) (ca_number a)). destruct (take_number _ _) as [n r]. cbn in *.
    destruct x; cbn; destruct (ca_number a); lia.
  - unfold surf_new. pose proof (HT (k KSurface) (sa_number a)). destruct (take_number _ _) as [n r]. cbn in *.
    destruct x; cbn; destruct (sa_number a); lia.
  - unfold mat_new. pose proof (HT (k KMaterial) y). destruct (take_number _ _) as [n r]. cbn in *.
    destruct x; cbn; destruct y; lia.
Qed.
Lemma auto_below l : forall k x v, In v (numbers true x (created k l)) ->
  exists z, v = Some (VInt (IVal z)) /\ (z < k x + Z.of_nat (length (filter (fun e => kind_eqb (kind_of e) x && automatic e) l)))%Z.
Proof.
  induction l as [|e l IH]; intros k x v H; [destruct H|]. cbn [created] in H.
  destruct (step k e) as [k' r] eqn:E. pose proof (step_bound k e x) as HG. rewrite E in HG. cbn [fst] in HG.
  cbn [filter].
  assert (HI : In v (numbers true x (created k' l)) -> exists z, v = Some (VInt (IVal z)) /\
    (z < k x + Z.of_nat (length (if kind_eqb (kind_of e) x && automatic e then e :: filter (fun e => kind_eqb (kind_of e) x && automatic e) l else filter (fun e => kind_eqb (kind_of e) x && automatic e) l)))%Z).
  { intros HI. destruct (IH _ _ _ HI) as (z & -> & HL). exists z. split; [reflexivity|].
    destruct (kind_eqb (kind_of e) x && automatic e); cbn [length]; lia. }
  destruct r as [w| |]; [|exact (HI H)|exact (HI H)].
  unfold numbers in H. cbn [filter fst snd] in H. destruct (kind_eqb (kind_of e) x && Bool.eqb (automatic e) true) eqn:EB; [|exact (HI H)].
  cbn [map snd] in H. destruct H as [<-|H]; [|exact (HI H)].
  apply andb_prop in EB. destruct EB as [EK EA]. apply Bool.eqb_prop in EA.
  assert (x = kind_of e) by (now destruct (kind_of e), x). subst x.
  apply step_auto in E; [|exact EA]. destruct E as [_ ->]. exists (k (kind_of e)). split; [reflexivity|].
  rewrite EK, EA. cbn [andb length]. lia.
Qed.
Theorem no_clash l x v z : In v (numbers true x (created fresh l)) ->
  (Z.of_nat (length (filter (fun e => kind_eqb (kind_of e) x && automatic e) l)) < z)%Z ->
  v <> Some (VInt (IVal z)).
Proof.
  intros HI HL ->. apply auto_below in HI. destruct HI as (y & E & HY). injection E as <-. unfold fresh, first_number in HY. lia.
Qed.

(** * Operators *)
Lemma number_text z : (0 <= z)%Z -> number (write (VInt (IVal z))).
Proof.
  intros H. left. cbn [write integer_to_mcnp]. destruct z as [|p|p]; [|cbn [str_of_Z]|lia].
  - split; [discriminate|repeat constructor].
  - split; [apply str_of_N_nonempty|apply str_of_N_digits].
Qed.
Lemma surf_unary op c z : su_number c = Some (VInt (IVal z)) -> (0 <= z)%Z -> In op ["+"; "-"; "#"]%char ->
  geo_from_mcnp ([op] ++ write_opt (su_number c)) = Ok (GUnary op (GDigit (write (VInt (IVal z))))).
Proof.
  intros E H HO. apply texts_iff. exists [], ([op] ++ write_opt (su_number c)), []. rewrite app_nil_r.
  repeat split; try constructor. rewrite E. cbn [write_opt app]. apply t_single.
  apply (t_unary op []); [exact HO|constructor|]. constructor. now apply number_text.
Qed.
Lemma surf_binary a b y z : su_number a = Some (VInt (IVal y)) -> su_number b = Some (VInt (IVal z)) -> (0 <= y)%Z -> (0 <= z)%Z ->
  surf_and a b = Ok (GUnion (GDigit (write (VInt (IVal y)))) (GDigit (write (VInt (IVal z))))) /\
  surf_or a b = Ok (GInter (GDigit (write (VInt (IVal y)))) (GDigit (write (VInt (IVal z))))).
Proof.
  intros EA EB HA HB. unfold surf_and, surf_or. rewrite EA, EB. cbn [write_opt]. split; apply texts_iff.
  - exists [], (write (VInt (IVal y)) ++ L ":" ++ write (VInt (IVal z))), []. rewrite app_nil_r. split; [reflexivity|]. split; [constructor|]. split; [constructor|].
    apply t_alone. apply (t_colon _ _ [] []); [apply t_single, t_plain, t_digit, number_text, HA|constructor|constructor|apply t_plain, t_digit, number_text, HB].
  - exists [], (write (VInt (IVal y)) ++ [sp] ++ write (VInt (IVal z))), []. rewrite app_nil_r. split; [reflexivity|]. split; [constructor|]. split; [constructor|].
    apply t_blank; [apply t_alone, t_single, t_plain, t_digit, number_text, HA|repeat constructor|discriminate|apply t_single, t_plain, t_digit, number_text, HB].
Qed.

(** * What is accepted *)
Lemma le_accepts a b : compare OLe (PZ a) (PLib (VInt (IVal b))) = Ok (a <=? b)%Z.
Proof. cbn. unfold Z.leb. now destruct (a ?= b)%Z. Qed.
Lemma le_accepts' a b : compare OLe (PLib (VInt (IVal a))) (PZ b) = Ok (a <=? b)%Z.
Proof. cbn. unfold Z.leb. now destruct (a ?= b)%Z. Qed.
Lemma range_accepts o lo hi z :
  run_checks o (Some (VInt (IVal z))) [range_test lo hi] = if ((lo <=? z) && (z <=? hi))%Z then Ok tt else Lib InpError.
Proof.
  unfold range_test. cbn [run_checks beval neval bind opt_pv]. rewrite le_accepts. cbn [bind].
  destruct (lo <=? z)%Z; [|reflexivity]. rewrite le_accepts'. cbn [bind]. now destruct (z <=? hi)%Z.
Qed.
Theorem number_accepted c z : cell_set (SNumber (AInt z)) c =
  if ((1 <=? z) && (z <=? 99999999))%Z
  then (mkcell (Some (VInt (IVal z))) (ce_material c) (ce_density c) (ce_geometry c) (ce_options c), Ok tt) else (c, Lib InpError).
Proof.
  destruct c as [n m d g o]. unfold cell_set, checked. cbn [conv bind from_int]. rewrite range_accepts. cbn [ce_material ce_density ce_geometry ce_options].
  destruct ((1 <=? z) && (z <=? 99999999))%Z; reflexivity.
Qed.
Theorem material_accepted c z : cell_set (SMaterial (MArg (AInt z))) c =
  if ((0 <=? z) && (z <=? 99999999))%Z
  then (mkcell (ce_number c) (Some (VInt (IVal z))) (ce_density c) (ce_geometry c) (ce_options c), Ok tt) else (c, Lib InpError).
Proof.
  destruct c as [n m d g o]. unfold cell_set, checked. cbn [conv bind from_int]. rewrite range_accepts. cbn [ce_number ce_density ce_geometry ce_options].
  destruct ((0 <=? z) && (z <=? 99999999))%Z; reflexivity.
Qed.
