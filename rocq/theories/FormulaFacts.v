(** Facts about the isotope table and [from_formula]. *)

From Coq Require Import Ascii String NArith ZArith QArith Bool List Lia Lqa Morphisms.
From Verif Require Import PyStr PyNum Types CardsFacts2 Numbered Elements Formula FormulaSpec.
Import ListNotations.
Open Scope list_scope.

(** * The table, checked *)

Definition zmem (a : Z) (l : list Z) : bool := existsb (Z.eqb a) l.
Fixpoint znodup (l : list Z) : bool := match l with [] => true | a :: t => negb (zmem a t) && znodup t end.
Lemma zmem_in a l : zmem a l = true <-> In a l.
Proof.
  unfold zmem. rewrite existsb_exists. split.
  - intros (x & I & E). apply Z.eqb_eq in E. now subst.
  - intros I. exists a. split; [exact I | apply Z.eqb_refl].
Qed.
Lemma znodup_ok l : znodup l = true -> NoDup l.
Proof.
  induction l as [|a t IH]; cbn [znodup]; intros H; constructor.
  - apply andb_prop in H as [H _]. intros I. apply zmem_in in I. rewrite I in H. discriminate.
  - apply andb_prop in H as [_ H]. auto.
Qed.
Fixpoint snodup (l : list str) : bool := match l with [] => true | a :: t => negb (existsb (seqb a) t) && snodup t end.
Lemma snodup_ok l : snodup l = true -> NoDup l.
Proof.
  induction l as [|a t IH]; cbn [snodup]; intros H; constructor.
  - apply andb_prop in H as [H _]. intros I.
    assert (E : existsb (seqb a) t = true) by (apply existsb_exists; exists a; split; [exact I | apply seqb_eq; reflexivity]).
    rewrite E in H. discriminate.
  - apply andb_prop in H as [_ H]. auto.
Qed.
Definition near (a : Z) (m : Q) : bool := Qle_bool (inject_Z a - (1#2)) m && Qle_bool m (inject_Z a + (1#2)).
Definition isotope_ok (e : element) (i : Z * Q) : bool :=
  existsb (fun x => Z.eqb (fst x) (fst i)) (e_mass e)
  && negb (Qle_bool (snd i) 0) && Qle_bool (snd i) 1.
Definition mass_ok (x : Z * Q) : bool := near (fst x) (snd x) && Z.leb 1 (fst x) && Z.leb (fst x) 999.
Definition element_ok (e : element) : bool :=
  Z.leb 1 (e_z e) && Z.leb (e_z e) 999
  && forallb (isotope_ok e) (e_fraction e) && forallb mass_ok (e_mass e)
  && znodup (map fst (e_fraction e)) && znodup (map fst (e_mass e))
  && (match e_fraction e with [] => true | _ => Qeq_bool (qsum (map snd (e_fraction e))) 1 end).
Lemma table_ok : forallb (fun x => element_ok (snd x)) ELEMENTS = true.
Proof. vm_compute. reflexivity. Qed.
Lemma symbols_ok : snodup (map fst ELEMENTS) = true.
Proof. vm_compute. reflexivity. Qed.
Lemma symbols_once : NoDup (map fst ELEMENTS).
Proof. apply snodup_ok. exact symbols_ok. Qed.

Lemma element_checked s e : In (s, e) ELEMENTS -> element_ok e = true.
Proof. intros I. pose proof table_ok as T. rewrite forallb_forall in T. exact (T _ I). Qed.

Lemma Qle_neg a b : negb (Qle_bool a b) = true -> (b < a)%Q.
Proof.
  intros H. apply Qnot_le_lt. intros C. apply Qle_bool_iff in C. rewrite C in H. discriminate.
Qed.
Lemma mk_zaid_ok z a : (1 <= z <= 999)%Z -> (0 <= a <= 999)%Z ->
  mk_zaid z a None = Ok {| zz := Z.to_N z; za := Z.to_N a; zabx := None |}.
Proof.
  intros Hz Ha. unfold mk_zaid.
  replace ((0 <=? z) && (z <=? 999))%Z with true by (symmetry; apply andb_true_intro; split; apply Z.leb_le; lia).
  replace ((0 <=? a) && (a <=? 999))%Z with true by (symmetry; apply andb_true_intro; split; apply Z.leb_le; lia).
  reflexivity.
Qed.

Lemma table s e : In (s, e) ELEMENTS ->
  (1 <= e_z e <= 999)%Z /\
  (forall a m, In (a, m) (e_mass e) -> (1 <= a <= 999)%Z /\ (inject_Z a - (1#2) <= m <= inject_Z a + (1#2))%Q) /\
  (forall a q, In (a, q) (e_fraction e) -> (exists m, In (a, m) (e_mass e)) /\ (0 < q <= 1)%Q) /\
  NoDup (map fst (e_mass e)) /\ NoDup (map fst (e_fraction e)) /\
  (e_fraction e = [] \/ (qsum (map snd (e_fraction e)) == 1)%Q).
Proof.
  intros I. apply element_checked in I. unfold element_ok in I.
  repeat (apply andb_prop in I as [I ?H]).
  apply Z.leb_le in I. apply Z.leb_le in H4.
  split; [lia|]. split; [|split; [|split; [|split]]].
  - intros a m Ia. rewrite forallb_forall in H2. specialize (H2 _ Ia). unfold mass_ok, near in H2. cbn [fst snd] in H2.
    repeat (apply andb_prop in H2 as [H2 ?H]).
    apply Z.leb_le in H5, H6. apply Qle_bool_iff in H2, H7. split; [lia | now split].
  - intros a q Ia. rewrite forallb_forall in H3. specialize (H3 _ Ia). unfold isotope_ok in H3. cbn [fst snd] in H3.
    repeat (apply andb_prop in H3 as [H3 ?H]).
    apply existsb_exists in H3 as ((b & m) & Im & E). cbn [fst] in E. apply Z.eqb_eq in E. subst b.
    split; [exists m; exact Im|]. split; [apply Qle_neg; exact H6 | apply Qle_bool_iff; exact H5].
  - apply znodup_ok. assumption.
  - apply znodup_ok. assumption.
  - destruct (e_fraction e) as [|i t]; [left; reflexivity | right]. apply Qeq_bool_iff. exact H.
Qed.

(** * The loops *)

Lemma find_known s e : In (s, e) ELEMENTS -> find_element s = Ok e.
Proof.
  intros I. unfold find_element.
  assert (G : forall l, NoDup (map fst l) -> In (s, e) l ->
              find (fun x : str * element => seqb (fst x) s) l = Some (s, e)).
  { induction l as [|[s' e'] t IH]; intros N Ia; [destruct Ia|]. cbn [find fst].
    cbn [map fst] in N. inversion N; subst. destruct Ia as [E|Ia].
    - injection E as -> ->. rewrite (proj2 (seqb_eq s s)) by reflexivity. reflexivity.
    - destruct (seqb s' s) eqn:Es.
      + apply seqb_eq in Es. subst s'. exfalso. apply H1. apply in_map_iff. exists (s, e). split; [reflexivity | exact Ia].
      + apply IH; assumption. }
  rewrite (G _ symbols_once I). reflexivity.
Qed.
Lemma find_unknown s : ~ known s -> find_element s = Py KeyError.
Proof.
  intros N. unfold find_element. destruct (find _ ELEMENTS) as [[s' e]|] eqn:F; [|reflexivity].
  apply find_some in F as [I E]. cbn [fst] in E. apply seqb_eq in E. subst s'. exfalso. apply N. exists e. exact I.
Qed.

Definition the_zaid (e : element) (i : Z * Q) : zaid * Q :=
  ({| zz := Z.to_N (e_z e); za := Z.to_N (fst i); zabx := None |}, snd i).
Lemma zaids_ok s e : In (s, e) ELEMENTS -> zaids e = Ok (map (the_zaid e) (e_fraction e)).
Proof.
  intros I. destruct (table s e I) as (Hz & Hm & Hf & _). unfold zaids.
  assert (G : forall l, (forall a q, In (a, q) l -> In (a, q) (e_fraction e)) ->
     mapM (fun i => bind (mk_zaid (e_z e) (fst i) None) (fun z => Ok (z, snd i))) l = Ok (map (the_zaid e) l)).
  { induction l as [|[a q] t IH]; intros Hl; [reflexivity|]. cbn [mapM map fst snd].
    assert (A : (0 <= a <= 999)%Z).
    { destruct (Hf a q (Hl a q (or_introl eq_refl))) as ((m & Im) & _). destruct (Hm a m Im) as [B _]. lia. }
    rewrite (mk_zaid_ok _ _ Hz A). cbn [bind]. rewrite IH by (intros; apply Hl; right; assumption).
    reflexivity. }
  apply G. auto.
Qed.

Definition kept (w : bool) (c : Q) (f : formula) (p : part) (e : element) : list (zaid * Q) :=
  entries w c (f_mixture f) (share w f p) (map (the_zaid e) (e_fraction e)).

Lemma part_ok w c f p e : In (p_symbol p, e) ELEMENTS -> ~ (f_mass f == 0)%Q ->
  part_entries w c f p = Ok (kept w c f p e).
Proof.
  intros I M. unfold part_entries, compound_fraction, kept, share.
  destruct w.
  - cbn [bind]. rewrite (find_known _ _ I). cbn [bind]. rewrite (zaids_ok _ _ I). reflexivity.
  - destruct (Qeq_bool (f_mass f) 0) eqn:E; [apply Qeq_bool_iff in E; contradiction|].
    cbn [bind]. rewrite (find_known _ _ I). cbn [bind]. rewrite (zaids_ok _ _ I). reflexivity.
Qed.

(** The entries of a part, found by its symbol. *)
Definition found (s : str) : element := match find_element s with Ok e => e | _ => el_H end.
Lemma found_in s : known s -> In (s, found s) ELEMENTS.
Proof. intros [e I]. unfold found. rewrite (find_known _ _ I). exact I. Qed.
Lemma found_eq s e : In (s, e) ELEMENTS -> found s = e.
Proof. intros I. unfold found. now rewrite (find_known _ _ I). Qed.
Definition kept_all (w : bool) (c : Q) (fs : list formula) : list (zaid * Q) :=
  flat_map (fun f => flat_map (fun p => kept w c f p (found (p_symbol p))) (f_parts f)) fs.

Lemma mapM_ok A B (g : A -> result B) (h : A -> B) l : (forall x, In x l -> g x = Ok (h x)) -> mapM g l = Ok (map h l).
Proof.
  induction l as [|x t IH]; intros H; [reflexivity|]. cbn [mapM map]. rewrite (H x) by now left. cbn [bind].
  rewrite IH by (intros; apply H; now right). reflexivity.
Qed.
Lemma all_ok w c fs : well_given fs -> all_entries w c fs = Ok (kept_all w c fs).
Proof.
  intros W. unfold all_entries, kept_all.
  rewrite (mapM_ok _ _ _ (fun f => flat_map (fun p => kept w c f p (found (p_symbol p))) (f_parts f))).
  - cbn [bind]. now rewrite flat_map_concat_map.
  - intros f If. unfold formula_entries.
    rewrite (mapM_ok _ _ _ (fun p => kept w c f p (found (p_symbol p)))).
    + cbn [bind]. now rewrite flat_map_concat_map.
    + intros p Ip. destruct (W f p If Ip) as [K M]. apply part_ok; [apply found_in; exact K | exact M].
Qed.
Lemma formula_runs n fs w c : well_given fs -> (n < 100000000)%Z ->
  from_formula n fs w c = ((n + 1)%Z, Ok {| m_suffix := n; m_substances := kept_all w c fs |}).
Proof.
  intros W N. unfold from_formula. rewrite (all_ok _ _ _ W). unfold next_number.
  apply Z.ltb_lt in N. rewrite N. reflexivity.
Qed.

Lemma above_lt c x : above c x = true <-> (c < x)%Q.
Proof.
  unfold above. split; [apply Qle_neg|]. intros H. destruct (Qle_bool x c) eqn:E; [|reflexivity].
  apply Qle_bool_iff in E. apply Qle_not_lt in E. contradiction.
Qed.
Global Instance signed_proper w : Proper (Qeq ==> Qeq) (signed w).
Proof. intros x y E. destruct w; unfold signed; now rewrite E. Qed.
Lemma signed_eq (w : bool) m s q : ((if w then - (1) else 1) * m * s * q == signed w (m * s * q))%Q.
Proof. destruct w; unfold signed; ring. Qed.

Lemma in_kept w c f p e x r : In (x, r) (kept w c f p e) <->
  exists a q, In (a, q) (e_fraction e) /\ x = {| zz := Z.to_N (e_z e); za := Z.to_N a; zabx := None |} /\
    (c < f_mixture f * share w f p * q)%Q /\ r = ((if w then - (1) else 1) * f_mixture f * share w f p * q)%Q.
Proof.
  unfold kept, entries. rewrite in_map_iff. split.
  - intros ((z & q) & E & I). cbn [fst snd] in E. apply filter_In in I as [I A]. cbn [snd] in A.
    apply in_map_iff in I as ((a & q') & E' & I). unfold the_zaid in E'. cbn [fst snd] in E'. injection E' as <- <-.
    injection E as <- <-. exists a, q'. repeat split; auto. now apply above_lt.
  - intros (a & q & I & -> & A & ->). exists (the_zaid e (a, q)). split; [reflexivity|].
    apply filter_In. split; [apply in_map; exact I|]. now apply above_lt.
Qed.

Theorem formula_contents n fs w c : well_given fs -> (n < 100000000)%Z ->
  exists m, from_formula n fs w c = ((n + 1)%Z, Ok m) /\ m_suffix m = n /\
    (forall x r, In (x, r) (m_substances m) -> zabx x = None /\
       exists amount, contributes w fs (Z.of_N (zz x)) (Z.of_N (za x)) amount /\ (c < amount)%Q /\ (r == signed w amount)%Q) /\
    (forall z a amount, contributes w fs z a amount -> (c < amount)%Q ->
       exists x r, In (x, r) (m_substances m) /\ Z.of_N (zz x) = z /\ Z.of_N (za x) = a /\ zabx x = None /\ (r == signed w amount)%Q).
Proof.
  intros W N. eexists. split; [apply formula_runs; assumption|]. split; [reflexivity|]. cbn [m_substances]. split.
  - intros x r I. unfold kept_all in I. apply in_flat_map in I as (f & If & I). apply in_flat_map in I as (p & Ip & I).
    apply in_kept in I as (a & q & Ia & -> & A & ->). split; [reflexivity|].
    destruct (W f p If Ip) as [K _]. apply found_in in K. set (e := found (p_symbol p)) in *.
    destruct (table _ e K) as (Hz & Hm & Hf & _). destruct (Hf _ _ Ia) as ((m & Im) & _). destruct (Hm _ _ Im) as [Ha _].
    exists (f_mixture f * share w f p * q)%Q. cbn [zz za]. rewrite !Z2N.id by lia. split; [|split].
    + econstructor; [exact If | exact Ip | exists e; repeat split; eassumption | reflexivity].
    + exact A.
    + apply signed_eq.
  - intros z a amount [f p q If Ip (e & Ie & <- & Ia) E] A.
    destruct (table _ e Ie) as (Hz & Hm & Hf & _). destruct (Hf _ _ Ia) as ((m & Im) & _). destruct (Hm _ _ Im) as [Ha _].
    exists {| zz := Z.to_N (e_z e); za := Z.to_N a; zabx := None |}, ((if w then - (1) else 1) * f_mixture f * share w f p * q)%Q.
    cbn [zz za zabx]. rewrite !Z2N.id by lia. split; [|repeat split].
    + apply in_flat_map. exists f. split; [exact If|]. apply in_flat_map. exists p. split; [exact Ip|].
      rewrite (found_eq _ _ Ie). apply in_kept. exists a, q. repeat split; auto. now rewrite <- E.
    + rewrite signed_eq. destruct w; unfold signed; now rewrite E.
Qed.

(** An element the table has not. *)
Lemma mapM_py A B (g : A -> result B) l e : (forall x, In x l -> (exists y, g x = Ok y) \/ g x = Py e) ->
  (exists x, In x l /\ g x = Py e) -> mapM g l = Py e.
Proof.
  induction l as [|x t IH]; intros H (y & I & E); [destruct I|]. cbn [mapM].
  destruct (H x (or_introl eq_refl)) as [(v & V)|V]; rewrite V; [|reflexivity]. cbn [bind].
  destruct I as [->|I]; [congruence|].
  rewrite IH; [reflexivity | intros; apply H; now right | exists y; auto].
Qed.
Lemma known_dec s : known s \/ ~ known s.
Proof.
  destruct (find_element s) as [e|l|p] eqn:E.
  - left. unfold find_element in E. destruct (find _ ELEMENTS) as [[s' e']|] eqn:F; [|discriminate].
    apply find_some in F as [I Q]. cbn [fst] in Q. apply seqb_eq in Q. subst s'. exists e'. exact I.
  - right. intros [e I]. rewrite (find_known _ _ I) in E. discriminate.
  - right. intros [e I]. rewrite (find_known _ _ I) in E. discriminate.
Qed.
Lemma part_cases w c f p : ~ (f_mass f == 0)%Q ->
  (known (p_symbol p) /\ exists l, part_entries w c f p = Ok l) \/ (~ known (p_symbol p) /\ part_entries w c f p = Py KeyError).
Proof.
  intros M. destruct (known_dec (p_symbol p)) as [K|K].
  - left. split; [exact K|]. eexists. apply part_ok; [apply found_in; exact K | exact M].
  - right. split; [exact K|]. unfold part_entries, compound_fraction.
    destruct w; [|destruct (Qeq_bool (f_mass f) 0) eqn:E; [apply Qeq_bool_iff in E; contradiction|]];
      cbn [bind]; rewrite (find_unknown _ K); reflexivity.
Qed.
Lemma formula_cases w c f : ~ (f_mass f == 0)%Q ->
  (exists l, formula_entries w c f = Ok l) \/ formula_entries w c f = Py KeyError.
Proof.
  intros M. unfold formula_entries.
  assert (G : (exists l, mapM (part_entries w c f) (f_parts f) = Ok l) \/ mapM (part_entries w c f) (f_parts f) = Py KeyError).
  { generalize (f_parts f). induction l as [|p t IH]; [left; exists []; reflexivity|]. cbn [mapM].
    destruct (part_cases w c f p M) as [(_ & l & E)|(_ & E)]; rewrite E; [|right; reflexivity]. cbn [bind].
    destruct IH as [(l' & ->)| ->]; [left; eexists; reflexivity | right; reflexivity]. }
  destruct G as [(l & ->)| ->]; [left; eexists; reflexivity | right; reflexivity].
Qed.
Theorem unknown_raises n fs w c : (forall f, In f fs -> ~ (f_mass f == 0)%Q) ->
  (exists f p, In f fs /\ In p (f_parts f) /\ ~ known (p_symbol p)) ->
  from_formula n fs w c = (n, Py KeyError).
Proof.
  intros M (f & p & If & Ip & K). unfold from_formula, all_entries.
  rewrite (mapM_py _ _ _ _ KeyError); [reflexivity | |].
  - intros g Ig. exact (formula_cases w c g (M g Ig)).
  - exists f. split; [exact If|]. unfold formula_entries. rewrite (mapM_py _ _ _ _ KeyError); [reflexivity | |].
    + intros x Ix. destruct (part_cases w c f x (M f If)) as [(_ & l & E)|(_ & E)]; [left; eexists; exact E | right; exact E].
    + exists p. split; [exact Ip|]. destruct (part_cases w c f p (M f If)) as [(K' & _)|(_ & E)]; [contradiction | exact E].
Qed.

(** * Amounts *)

Lemma qsum_cons a l : qsum (a :: l) = (a + qsum l)%Q.
Proof. reflexivity. Qed.
Lemma qsum_app a b : (qsum (a ++ b) == qsum a + qsum b)%Q.
Proof.
  induction a as [|x t IH]; [change (qsum b == 0 + qsum b)%Q; ring|]. cbn [app]. rewrite !qsum_cons, IH. ring.
Qed.

Lemma kept_sum w c f p e : e_fraction e <> [] -> element_ok e = true ->
  (forall a q, In (a, q) (e_fraction e) -> (c < f_mixture f * share w f p * q)%Q) ->
  (qsum (map snd (kept w c f p e)) == signed w (f_mixture f * share w f p))%Q.
Proof.
  intros NE OK A. assert (S : (qsum (map snd (e_fraction e)) == 1)%Q).
  { unfold element_ok in OK. apply andb_prop in OK as [_ OK]. destruct (e_fraction e); [contradiction|]. now apply Qeq_bool_iff. }
  unfold kept, entries.
  assert (G : forall l, (forall a q, In (a, q) l -> (c < f_mixture f * share w f p * q)%Q) ->
    (qsum (map snd (map (fun i : zaid * Q => (fst i, (if w then - (1) else 1) * f_mixture f * share w f p * snd i)%Q)
       (filter (fun i : zaid * Q => above c (f_mixture f * share w f p * snd i)) (map (the_zaid e) l))))
     == signed w (f_mixture f * share w f p) * qsum (map snd l))%Q).
  { induction l as [|[a q] t IH]; intros H.
    - cbn [map filter]. change (qsum []) with 0%Q. ring.
    - cbn [map filter the_zaid fst snd].
      rewrite (proj2 (above_lt c _) (H a q (or_introl eq_refl))). cbn [map fst snd]. rewrite !qsum_cons.
      rewrite IH by (intros; eapply H; right; eassumption). rewrite signed_eq. change (snd (the_zaid e (a, q))) with q. destruct w; unfold signed; ring. }
  rewrite (G _ A), S. ring.
Qed.

Theorem formula_total n fs w c m n' : well_given fs ->
  (forall f p, In f fs -> In p (f_parts f) -> natural (p_symbol p)) ->
  (forall z a amount, contributes w fs z a amount -> (c < amount)%Q) ->
  from_formula n fs w c = (n', Ok m) -> (held m == signed w (asked w fs))%Q.
Proof.
  intros W NAT A R. unfold from_formula in R. rewrite (all_ok _ _ _ W) in R.
  destruct (next_number n) as [[z k]|]; [|discriminate]. injection R as <- <-. unfold held, asked, kept_all. cbn [m_substances].
  assert (G : forall l, (forall f, In f l -> In f fs) ->
    (qsum (map snd (flat_map (fun f => flat_map (fun p => kept w c f p (found (p_symbol p))) (f_parts f)) l))
     == signed w (qsum (flat_map (fun f => map (fun p => f_mixture f * share w f p)%Q (f_parts f)) l)))%Q).
  { induction l as [|f t IH]; intros Hl; [destruct w; reflexivity|]. cbn [flat_map]. rewrite map_app, !qsum_app.
    rewrite IH by (intros; apply Hl; now right).
    assert (P : forall ps, (forall p, In p ps -> In p (f_parts f)) ->
       (qsum (map snd (flat_map (fun p => kept w c f p (found (p_symbol p))) ps)) == signed w (qsum (map (fun p => f_mixture f * share w f p)%Q ps)))%Q).
    { induction ps as [|p ps IHp]; intros Hp; [destruct w; reflexivity|]. cbn [flat_map map]. rewrite map_app, qsum_app, qsum_cons.
      rewrite IHp by (intros; apply Hp; now right).
      assert (If : In f fs) by (apply Hl; now left). assert (Ip : In p (f_parts f)) by (apply Hp; now left).
      destruct (NAT f p If Ip) as (z0 & a0 & q0 & e0 & Ie & _ & I0).
      rewrite (found_eq _ _ Ie). rewrite kept_sum.
      - destruct w; unfold signed; ring.
      - intros E. rewrite E in I0. destruct I0.
      - eapply element_checked. exact Ie.
      - intros a q Ia. apply (A (e_z e0) a). econstructor; [exact If | exact Ip | exists e0; repeat split; eassumption | reflexivity]. }
    rewrite (P _ (fun p H => H)). destruct w; unfold signed; ring. }
  exact (G fs (fun f H => H)).
Qed.

(** Nothing is added. *)
Lemma kept_le w c f p e : element_ok e = true -> (0 <= f_mixture f * share w f p)%Q ->
  (0 <= signed w (qsum (map snd (kept w c f p e))) <= f_mixture f * share w f p)%Q.
Proof.
  intros OK P.
  assert (S : (0 <= qsum (map snd (e_fraction e)) <= 1)%Q /\ (forall a q, In (a, q) (e_fraction e) -> (0 <= q)%Q)).
  { unfold element_ok in OK. apply andb_prop in OK as [OK OK1]. repeat (apply andb_prop in OK as [OK ?H]). split.
    - destruct (e_fraction e); [split; discriminate|]. apply Qeq_bool_iff in OK1. rewrite OK1. split; discriminate.
    - intros a q I. rewrite forallb_forall in H2. specialize (H2 _ I). unfold isotope_ok in H2. cbn [snd] in H2.
      apply andb_prop in H2 as [H2 _]. apply andb_prop in H2 as [_ H2]. apply Qlt_le_weak. now apply Qle_neg. }
  destruct S as [S Hq]. unfold kept, entries.
  assert (G : forall l, (forall a q, In (a, q) l -> (0 <= q)%Q) ->
    (0 <= signed w (qsum (map snd (map (fun i : zaid * Q => (fst i, (if w then - (1) else 1) * f_mixture f * share w f p * snd i)%Q)
       (filter (fun i : zaid * Q => above c (f_mixture f * share w f p * snd i)) (map (the_zaid e) l)))))
     <= f_mixture f * share w f p * qsum (map snd l))%Q).
  { induction l as [|[a q] t IH]; intros H.
    - cbn [map filter]. unfold qsum. cbn [fold_right]. split; [destruct w; discriminate|].
      setoid_replace (f_mixture f * share w f p * 0)%Q with 0%Q by ring. destruct w; discriminate.
    - cbn [map filter fst snd]. change (snd (the_zaid e (a, q))) with q. specialize (IH (fun a q I => H a q (or_intror I))).
      assert (Q0 : (0 <= f_mixture f * share w f p * q)%Q).
      { apply Qmult_le_0_compat; [exact P | apply (H a q); now left]. }
      destruct (above c (f_mixture f * share w f p * q)); cbn [map fst snd]; change (snd (the_zaid e (a, q))) with q; rewrite !qsum_cons.
      + rewrite signed_eq. destruct w; unfold signed in *; lra.
      + destruct w; unfold signed in *; lra. }
  specialize (G _ Hq). destruct G as [G1 G2]. split; [exact G1|].
  eapply Qle_trans; [exact G2|].
  generalize dependent (f_mixture f * share w f p)%Q. generalize dependent (qsum (map snd (e_fraction e))). intros; nra.
Qed.
Theorem formula_bounded n fs w c m n' : well_given fs ->
  (forall f p, In f fs -> In p (f_parts f) -> (0 <= f_mixture f * share w f p)%Q) ->
  from_formula n fs w c = (n', Ok m) -> (0 <= signed w (held m) <= asked w fs)%Q.
Proof.
  intros W POS R. unfold from_formula in R. rewrite (all_ok _ _ _ W) in R.
  destruct (next_number n) as [[z k]|]; [|discriminate]. injection R as <- <-. unfold held, asked, kept_all. cbn [m_substances].
  assert (G : forall l, (forall f, In f l -> In f fs) ->
    (0 <= signed w (qsum (map snd (flat_map (fun f => flat_map (fun p => kept w c f p (found (p_symbol p))) (f_parts f)) l)))
     <= qsum (flat_map (fun f => map (fun p => f_mixture f * share w f p)%Q (f_parts f)) l))%Q).
  { induction l as [|f t IH]; intros Hl; [destruct w; split; discriminate|]. cbn [flat_map]. rewrite map_app, !qsum_app.
    specialize (IH (fun g I => Hl g (or_intror I))).
    assert (P : forall ps, (forall p, In p ps -> In p (f_parts f)) ->
       (0 <= signed w (qsum (map snd (flat_map (fun p => kept w c f p (found (p_symbol p))) ps))) <= qsum (map (fun p => f_mixture f * share w f p)%Q ps))%Q).
    { induction ps as [|p ps IHp]; intros Hp; [destruct w; split; discriminate|]. cbn [flat_map map]. rewrite map_app, qsum_app, qsum_cons.
      specialize (IHp (fun g I => Hp g (or_intror I))).
      assert (If : In f fs) by (apply Hl; now left). assert (Ip : In p (f_parts f)) by (apply Hp; now left).
      assert (K : (0 <= signed w (qsum (map snd (kept w c f p (found (p_symbol p))))) <= f_mixture f * share w f p)%Q).
      { apply kept_le; [|apply POS; assumption]. destruct (W f p If Ip) as [KN _]. eapply element_checked. apply found_in. exact KN. }
      destruct w; unfold signed in *; lra. }
    specialize (P _ (fun p H => H)). destruct w; unfold signed in *; lra. }
  exact (G fs (fun f H => H)).
Qed.

(** * The two modes *)

Lemma consistent_share f p : consistent f -> In p (f_parts f) -> (share true f p == share false f p)%Q.
Proof. intros (_ & _ & H) I. unfold share. apply H. exact I. Qed.
Definition opposite (x y : zaid * Q) : Prop := fst x = fst y /\ (snd y == - snd x)%Q.
Lemma Qle_bool_comp a b c : (a == b)%Q -> Qle_bool a c = Qle_bool b c.
Proof. intros E. apply eq_true_iff_eq. rewrite !Qle_bool_iff. now rewrite E. Qed.
Lemma kept_modes c f p e : (share true f p == share false f p)%Q -> Forall2 opposite (kept true c f p e) (kept false c f p e).
Proof.
  intros E. unfold kept, entries. generalize (map (the_zaid e) (e_fraction e)).
  induction l as [|[z q] t IH]; [constructor|]. cbn [filter fst snd].
  assert (A : above c (f_mixture f * share true f p * q) = above c (f_mixture f * share false f p * q)).
  { unfold above. f_equal. apply Qle_bool_comp. now rewrite E. }
  rewrite A. destruct (above c (f_mixture f * share false f p * q)); [|exact IH]. cbn [map fst snd]. constructor; [|exact IH].
  split; cbn [fst snd]; [reflexivity|]. rewrite E. ring.
Qed.
Lemma flat_map_forall2 A B (R : B -> B -> Prop) (g h : A -> list B) l :
  (forall x, In x l -> Forall2 R (g x) (h x)) -> Forall2 R (flat_map g l) (flat_map h l).
Proof.
  induction l as [|x t IH]; intros H; [constructor|]. cbn [flat_map]. apply Forall2_app; [apply H; now left | apply IH; intros; apply H; now right].
Qed.
Theorem modes_agree n fs c m n' m' k : well_given fs -> (forall f, In f fs -> consistent f) ->
  from_formula n fs true c = (n', Ok m) -> from_formula n fs false c = (k, Ok m') ->
  Forall2 opposite (m_substances m) (m_substances m').
Proof.
  intros W C R R'. unfold from_formula in *. rewrite (all_ok _ _ _ W) in R. rewrite (all_ok _ _ _ W) in R'.
  destruct (next_number n) as [[z j]|]; [|discriminate]. injection R as <- <-. injection R' as <- <-. cbn [m_substances].
  apply flat_map_forall2. intros f If. apply flat_map_forall2. intros p Ip. apply kept_modes. apply consistent_share; auto.
Qed.

(** A formula of one element. *)
Theorem one_element n fs c m n' : well_given fs -> (forall f, In f fs -> consistent f) ->
  (forall f, In f fs -> exists p, f_parts f = [p] /\ ~ (p_count p == 0)%Q) ->
  from_formula n fs false c = (n', Ok m) ->
  forall x r, In (x, r) (m_substances m) -> exists f p q, In f fs /\ In p (f_parts f) /\
    isotope (p_symbol p) (Z.of_N (zz x)) (Z.of_N (za x)) q /\ (r == f_mixture f * atom_share f p * q)%Q.
Proof.
  intros W C O R x r I.
  assert (N : (n < 100000000)%Z).
  { unfold from_formula in R. rewrite (all_ok _ _ _ W) in R. unfold next_number in R.
    destruct (n <? 100000000)%Z eqn:E; [now apply Z.ltb_lt | discriminate]. }
  destruct (formula_contents n fs false c W N) as (m0 & R0 & _ & H & _). rewrite R in R0. injection R0 as -> <-.
  destruct (H x r I) as (_ & amount & [f p q If Ip Iq E] & _ & Er). exists f, p, q.
  split; [exact If|]. split; [exact Ip|]. split; [exact Iq|]. rewrite Er. unfold signed. rewrite E.
  destruct (O f If) as (p' & F & NZ). destruct (C f If) as (Pos & Sum & _). rewrite F in Ip, Sum. destruct Ip as [<-|[]].
  unfold share, atom_share. rewrite F. cbn [map] in *. change (qsum [p_mass p']) with (p_mass p' + 0)%Q in Sum.
  change (qsum [p_count p']) with (p_count p' + 0)%Q.
  assert (E1 : (p_mass p' == f_mass f)%Q) by lra.
  assert (NM : ~ (f_mass f == 0)%Q) by lra.
  rewrite E1. field. split; [lra | exact NM].
Qed.

(** * Particular elements *)

Lemma isotope_zaid s z a q : isotope s z a q -> exists x, mk_zaid z a None = Ok x /\ Z.of_N (zz x) = z /\ Z.of_N (za x) = a.
Proof.
  intros (e & I & <- & Ia). destruct (table s e I) as (Hz & Hm & Hf & _).
  destruct (Hf _ _ Ia) as ((m & Im) & _). destruct (Hm _ _ Im) as [Ha _].
  eexists. split; [apply mk_zaid_ok; lia|]. cbn [zz za]. rewrite !Z2N.id by lia. auto.
Qed.
Lemma unknown_by s : find_element s = Py KeyError -> ~ known s.
Proof. intros F [e I]. rewrite (find_known _ _ I) in F. discriminate. Qed.
Lemma unknown_symbols : ~ known (L "2H") /\ ~ known (L "D") /\ ~ known (L "e-").
Proof. repeat split; apply unknown_by; vm_compute; reflexivity. Qed.
Lemma water_given : well_given [water].
Proof.
  intros f p [<-|[]] Ip. split; [|vm_compute; discriminate].
  destruct Ip as [<-|[<-|[]]]; [exists el_H; left; reflexivity | exists el_O; do 7 right; left; reflexivity].
Qed.
Lemma water_consistent : consistent water.
Proof. split; [reflexivity|]. split; [vm_compute; reflexivity|]. intros p [<-|[<-|[]]]; vm_compute; reflexivity. Qed.
Lemma unnatural_lost n f p w c : (n < 100000000)%Z -> ~ (f_mass f == 0)%Q -> f_parts f = [p] -> known (p_symbol p) -> ~ natural (p_symbol p) ->
  from_formula n [f] w c = ((n + 1)%Z, Ok {| m_suffix := n; m_substances := [] |}).
Proof.
  intros N M F [e K] U.
  assert (W : well_given [f]).
  { intros g x [<-|[]] Ix. rewrite F in Ix. destruct Ix as [<-|[]]. split; [exists e; exact K | exact M]. }
  rewrite (formula_runs _ _ _ _ W N). unfold kept_all. cbn [flat_map]. rewrite F. cbn [flat_map]. rewrite (found_eq _ _ K).
  assert (E : e_fraction e = []).
  { destruct (e_fraction e) as [|[a q] t] eqn:Ee; [reflexivity|]. exfalso. apply U. exists (e_z e), a, q, e.
    rewrite Ee. repeat split; [exact K | now left]. }
  unfold kept. rewrite E. reflexivity.
Qed.
Lemma plutonium : known (L "Pu") /\ ~ natural (L "Pu").
Proof.
  split.
  - exists el_Pu. do 93 right. left. reflexivity.
  - intros (z & a & q & e & I & _ & Ia). apply find_known in I. vm_compute in I. injection I as <-. destruct Ia.
Qed.
Lemma atoms_wrong : exists m x r, from_formula 1 [water] false 0.01 = (2%Z, Ok m) /\ In (x, r) (m_substances m) /\ zz x = 1%N /\
     (atom_share water hydrogen == 2 # 3)%Q /\ (r < 1 # 8)%Q.
Proof. do 3 eexists. split; [vm_compute; reflexivity|]. split; [left; reflexivity|]. split; [reflexivity|]. split; vm_compute; reflexivity. Qed.
Lemma weights_wrong : exists m x r, from_formula 1 [lithium] true 0 = (2%Z, Ok m) /\ In (x, r) (m_substances m) /\ zz x = 3%N /\ za x = 6%N /\
     ~ isotope_weight el_Li 6 0.0759 (- r).
Proof.
  do 3 eexists. split; [vm_compute; reflexivity|]. split; [left; reflexivity|]. split; [reflexivity|]. split; [reflexivity|].
  intros (m & l & Im & Fl & E). cbn in Im.
  assert (Hm : m = 6.0151228874%Q) by (repeat (destruct Im as [Im|Im]; [try discriminate Im; injection Im as <-; reflexivity|]); destruct Im).
  inversion Fl as [|? x ? l1 (m1 & I1 & E1) F1]; subst. inversion F1 as [|? y ? l2 (m2 & I2 & E2) F2]; subst. inversion F2; subst.
  cbn [fst snd] in *. cbn in I1, I2.
  assert (H1 : m1 = 6.0151228874%Q) by (repeat (destruct I1 as [I1|I1]; [try discriminate I1; injection I1 as <-; reflexivity|]); destruct I1).
  assert (H2 : m2 = 7.0160034366%Q) by (repeat (destruct I2 as [I2|I2]; [try discriminate I2; injection I2 as <-; reflexivity|]); destruct I2).
  subst. rewrite !qsum_cons in E. rewrite E1, E2 in E. revert E. vm_compute. discriminate.
Qed.
