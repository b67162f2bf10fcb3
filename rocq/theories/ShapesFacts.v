(** Lemmas about shapes. *)

From Coq Require Import QArith Bool List Lqa.
From Verif Require Import PyStr Shapes ShapesSpec.
Open Scope Q_scope.

Lemma leb_iff a b : leb a b = true <-> a <= b.
Proof. apply Qle_bool_iff. Qed.
Lemma ltb_iff a b : ltb a b = true <-> a < b.
Proof.
  unfold ltb. rewrite negb_true_iff. split; intros H.
  - apply Qnot_le_lt. intros G. apply Qle_bool_iff in G. congruence.
  - destruct (Qle_bool b a) eqn:E; auto. apply Qle_bool_iff in E. lra.
Qed.
Lemma leb_sqrt_iff a s : leb_sqrt a s = true <-> a <= 0 \/ a * a <= s.
Proof. unfold leb_sqrt. rewrite orb_true_iff, !leb_iff. tauto. Qed.
Lemma negb_iff b P : (b = true <-> P) -> (negb b = true <-> ~ P).
Proof. destruct b; cbn; intuition discriminate. Qed.
Lemma points_iff (f : shape) p b : f p = Ok (VBool b) -> (points f p <-> b = true).
Proof. unfold points. intros ->. split; [now intros [= ->]|now intros ->]. Qed.

Lemma not_gt a b : ~ a <= b <-> a > b.
Proof. split; intros H; [now apply Qnot_le_lt|lra]. Qed.
Lemma sqrt_pos x a : 0 < a -> 0 <= x -> ((x <= 0 \/ x * x <= a * a) <-> x <= a).
Proof.
  intros A X. split; intros H.
  - destruct H as [H|H]; [lra|]. destruct (Qlt_le_dec a x) as [G|G]; [|lra]. exfalso. nra.
  - right. nra.
Qed.

Lemma and_points f g : boolean f -> boolean g -> boolean (s_and f g) /\ forall p, points (s_and f g) p <-> points f p /\ points g p.
Proof.
  intros F G. split; intros p; unfold points, s_and; destruct (F p) as [a ->], (G p) as [b ->]; cbn; eauto.
  destruct a, b; cbn; intuition discriminate.
Qed.
Lemma or_points f g : boolean f -> boolean g -> boolean (s_or f g) /\ forall p, points (s_or f g) p <-> points f p \/ points g p.
Proof.
  intros F G. split; intros p; unfold points, s_or; destruct (F p) as [a ->], (G p) as [b ->]; cbn; eauto.
  destruct a, b; cbn; intuition discriminate.
Qed.
Lemma add_points f g : boolean f -> boolean g -> boolean (s_add f g) /\ forall p, points (s_add f g) p <-> points f p \/ points g p.
Proof. exact (or_points f g). Qed.
Lemma not_points f : boolean f -> boolean (s_not f) /\ forall p, points (s_not f) p <-> ~ points f p.
Proof.
  intros F. split; intros p; unfold points, s_not; destruct (F p) as [a ->]; cbn; eauto.
  destruct a; cbn; intuition discriminate.
Qed.
Lemma translate_points v f : boolean f -> boolean (s_translate v f) /\ forall p, points (s_translate v f) p <-> points f (moved p v).
Proof. intros F. split; [intros p; apply F|reflexivity]. Qed.

Lemma Plane_ok a b c d : ~ (a == 0 /\ b == 0 /\ c == 0) -> exists f, Plane a b c d = Ok f /\ boolean f /\
  forall p, points f p <-> a * px p + b * py p + c * pz p > d.
Proof.
  intros N. unfold Plane.
  assert (E : Qeq_bool a 0 && Qeq_bool b 0 && Qeq_bool c 0 = false).
  { destruct (Qeq_bool a 0 && Qeq_bool b 0 && Qeq_bool c 0) eqn:E; auto. apply andb_prop in E as [E E3]. apply andb_prop in E as [E1 E2].
    apply Qeq_bool_iff in E1, E2, E3. tauto. }
  rewrite E. eexists. split; [reflexivity|]. split; [intros p; eauto|]. intros p. rewrite (points_iff _ p _ eq_refl), ltb_iff.
  split; intros H; lra.
Qed.
Lemma Sphere_ok r : boolean (Sphere r) /\ forall p, points (Sphere r) p <-> norm2 p > r * r.
Proof.
  split; [intros p; unfold Sphere; eauto|]. intros p. rewrite (points_iff _ p _ eq_refl).
  rewrite (negb_iff _ _ (leb_iff _ _)), not_gt. reflexivity.
Qed.
Lemma sphere_at v r : boolean (s_translate v (Sphere r)) /\ forall p, points (s_translate v (Sphere r)) p <-> norm2 (moved p v) > r * r.
Proof. destruct (Sphere_ok r) as [B H]. destruct (translate_points v _ B) as [B' H']. split; auto. intros p. now rewrite H', H. Qed.

Theorem plain_right s : plain s -> drawn_right s.
Proof.
  assert (PL : forall a b c d s, (forall p, positive s p = Some (a * px p + b * py p + c * pz p > d)) -> to_show s = Plane a b c d ->
    ~ (a == 0 /\ b == 0 /\ c == 0) -> drawn_right s).
  { intros a b c d s0 HP HS N. destruct (Plane_ok a b c d N) as (f & E & B & H). exists f. rewrite HS. split; auto. split; auto.
    intros p P. rewrite HP. intros [= <-]. apply H. }
  assert (SP : forall v r s, (forall p, positive s p = Some (norm2 (moved p v) > r * r)) -> to_show s = Ok (s_translate v (Sphere r)) -> drawn_right s).
  { intros v r s0 HP HS. destruct (sphere_at v r) as [B H]. exists (s_translate v (Sphere r)). split; auto. split; auto.
    intros p P. rewrite HP. intros [= <-]. apply H. }
  destruct s; try contradiction; intros HP; cbn [plain] in HP.
  - destruct (Plane_ok 1 0 0 d) as (f & E & B & H); [intros [A _]; discriminate|]. exists f. split; auto. split; auto.
    intros p P [= <-]. rewrite H. split; intros; lra.
  - destruct (Plane_ok 0 1 0 d) as (f & E & B & H); [intros (_ & A & _); discriminate|]. exists f. split; auto. split; auto.
    intros p P [= <-]. rewrite H. split; intros; lra.
  - destruct (Plane_ok 0 0 1 d) as (f & E & B & H); [intros (_ & _ & A); discriminate|]. exists f. split; auto. split; auto.
    intros p P [= <-]. rewrite H. split; intros; lra.
  - apply (PL a b c d); auto.
  - destruct (Sphere_ok r) as [B H]. exists (Sphere r). split; auto. split; auto. intros p P [= <-]. apply H.
  - apply (SP c r); auto.
  - apply (SP (P3 x 0 0) r); auto.
  - apply (SP (P3 0 y 0) r); auto.
  - apply (SP (P3 0 0 z) r); auto.
  - apply (SP v r); auto.
  - destruct zmin as [zmin|]; [|contradiction]. destruct zmax as [zmax|]; [|contradiction].
    eexists. split; [reflexivity|]. split; [intros p; unfold Parallelipiped; eauto|]. intros p P [= <-].
    rewrite (points_iff _ p _ eq_refl). apply negb_iff. rewrite !andb_true_iff, !leb_iff. unfold between. tauto.
  - destruct HP as (A1 & A2 & A3 & B1 & B2 & B3 & C1 & C2 & C3). eexists. split; [reflexivity|]. split; [intros p; unfold s_translate, s_rotate, Box; eauto|].
    intros p P [= <-]. unfold s_translate, s_rotate. rewrite (points_iff _ p _ eq_refl). apply negb_iff.
    rewrite !andb_true_iff, !leb_sqrt_iff, !leb_iff. unfold between.
    assert (G : forall q u (t : pt -> Q) (e : Q), 0 < e -> norm2 u == e * e -> scalar q u == t q * e -> dot u u == e * e ->
      ((0 <= t q /\ (t q <= 0 \/ t q * t q <= dot u u)) <-> (0 <= scalar q u /\ scalar q u <= norm2 u))).
    { intros q u t e E N S D. split.
      - intros [X Y]. rewrite D in Y. apply (sqrt_pos _ e) in Y; auto. rewrite S, N. split; nra.
      - intros [X Y]. rewrite S in X, Y. rewrite N in Y. rewrite D. assert (0 <= t q) by nra. split; auto. apply sqrt_pos; auto. nra. }
    rewrite <- (G (moved p v) a1 px (px a1)), <- (G (moved p v) a2 py (py a2)), <- (G (moved p v) a3 pz (pz a3)); auto;
      try (unfold norm2, scalar, dot; rewrite ?A2, ?A3, ?B1, ?B3, ?C1, ?C2; ring). tauto.
  - destruct HP as (H1 & H2 & H3). eexists. split; [reflexivity|]. split; [intros p; unfold s_translate, s_rotate, CylinderCircular; eauto|].
    intros p P [= <-]. unfold s_translate, s_rotate. rewrite (points_iff _ p _ eq_refl). apply negb_iff.
    rewrite !andb_true_iff, leb_sqrt_iff, !leb_iff. unfold between. change (sub p v) with (moved p v). set (q := moved p v).
    assert (D : dot h h == pz h * pz h) by (unfold dot; rewrite H1, H2; ring).
    assert (N : norm2 h == pz h * pz h) by (unfold norm2; rewrite H1, H2; ring).
    assert (S : scalar q h == pz q * pz h) by (unfold scalar; rewrite H1, H2; ring).
    assert (E : norm2 q * norm2 h - scalar q h * scalar q h == (px q * px q + py q * py q) * (pz h * pz h)).
    { rewrite N, S. unfold norm2. ring. }
    rewrite E, N, S, D. unfold sq. split.
    + intros [[X Y] Z]. apply (sqrt_pos _ (pz h)) in Y; auto. split; [split; nra|]. apply Qmult_le_compat_r; [lra|nra].
    + intros [[X Y] Z]. assert (0 <= pz q) by nra. split; [split; auto; apply sqrt_pos; auto; nra|].
      apply Qmult_le_r in Z; auto. nra.
Qed.

(** Cylinders about the z axis: the other side. *)
Theorem cylinder_inverted x y r : exists f, to_show (C_z x y r) = Ok f /\ boolean f /\
  forall p P, positive (C_z x y r) p = Some P -> (points f p <-> ~ P).
Proof.
  eexists. split; [reflexivity|]. split; [intros p; unfold s_translate, s_rotate, CylinderUnbounded; eauto|].
  intros p P [= <-]. unfold s_translate, s_rotate. rewrite (points_iff _ p _ eq_refl), leb_iff. unfold sq, sub. cbn [px py].
  split; [intros H G; lra|]. intros H. apply Qnot_lt_le in H. exact H.
Qed.
