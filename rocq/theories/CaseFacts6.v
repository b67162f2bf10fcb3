(** Lemmas about reading in small letters: the other way round, for texts without a capital E. *)

From Coq Require Import Ascii String NArith ZArith Bool Arith List Lia.
From Verif Require Import PyStr Regex RegexParse RegexFacts RegexDer RegexLang PyNum PyNumFacts Types CardText Cards CaseSpec Calm CalmFacts CalmFacts2 CalmFacts3 GeometryFacts5 Lattice CaseFacts CaseFacts2 CaseFacts3 CaseFacts4.
From Verif Require CardsFacts2 CardTextFacts6.
Import ListNotations.

(** What is read in small letters was read. *)
Definition up {A} (r r' : result A) : Prop := forall y, r' = Ok y -> exists x, r = Ok x.

(** ** Numbers *)
Definition not_E (c : ascii) : bool := negb (ceqb c "E").
Definition head_E (s : str) : bool := match s with c :: _ => ceqb c "E" | [] => false end.
Lemma not_E_head s : allc not_E s -> head_E s = false.
Proof. intros H. destruct H as [|c s H _]; [reflexivity|]. cbn [head_E]. unfold not_E in H. now destruct (ceqb c "E"). Qed.
Lemma sub_head r f s : (forall p u o, match_at r p u = Some o -> f o <> [] /\ head_E (f o) = false) -> head_E s = false -> head_E (sub r f s) = false.
Proof.
  intros HF H. unfold sub. cbn [sub_f]. destruct (match_at r [] s) as [o|] eqn:E.
  - destruct (HF _ _ _ E) as [N HH]. destruct (f o) as [|c t]; [congruence|]. destruct (mtext o); exact HH.
  - destruct s; exact H.
Qed.
Lemma fortran_head s : head_E s = false -> head_E (fortran s) = false.
Proof.
  intros H. unfold fortran. apply sub_head; [intros p u o _; split; [discriminate|reflexivity]|]. apply sub_head; [|exact H].
  intros p u o M. split; [destruct (grp 1 o); discriminate|]. unfold grp at 1. destruct (group 1 o) as [t|] eqn:EG; [|reflexivity]. destruct t as [|c t]; [reflexivity|].
  destruct (group_at _ _ _ _ _ _ M (Nat.lt_0_succ 0) EG) as (a & HA & HV). assert (K : forallb no_capitals (grp_res re_fortran 1) = true) by reflexivity.
  rewrite forallb_forall in K. pose proof (no_capitals_V a (c :: t) (K a HA) HV) as Q. cbn [slower map] in Q. injection Q as Q _. cbn [app head_E].
  destruct (ceqb c "E") eqn:EC; [|reflexivity]. apply Ascii.eqb_eq in EC. subst c. discriminate Q.
Qed.
Lemma lead_same s : head_E s = false -> bind (lead_one (slower s)) (fun s => match to_dec s with None => Lib TypesError | Some d => Ok d end) =
  bind (lead_one s) (fun s => match to_dec s with None => Lib TypesError | Some d => Ok d end).
Proof.
  intros H. destruct s as [|c t]; [reflexivity|]. cbn [head_E] in H.
  assert (L1 : forall t, lead_one ("e"%char :: t) = Ok ("1"%char :: "e"%char :: t)) by (intros; reflexivity).
  assert (L2 : forall c t, c <> "e"%char -> lead_one (c :: t) = Ok (c :: t)).
  { intros [[] [] [] [] [] [] [] []] u N; try reflexivity. congruence. }
  cbn [slower map]. destruct (Ascii.eqb_spec c "e") as [->|Ne].
  - change (lower "e") with "e"%char. rewrite !L1. cbn [bind]. change ("1"%char :: "e"%char :: map lower t) with (slower ("1"%char :: "e"%char :: t)). now rewrite to_dec_low.
  - assert (N : lower c <> "e"%char).
    { intros E. pose proof (all_ascii (fun c => implb (ceqb (lower c) "e") (ceqb c "e" || ceqb c "E")) eq_refl c) as Q. cbv beta in Q. rewrite H in Q. unfold ceqb in Q. rewrite E in Q. cbn [implb Ascii.eqb] in Q.
      rewrite (proj2 (Ascii.eqb_neq _ _) Ne) in Q. discriminate Q. }
    rewrite (L2 _ _ N), (L2 _ _ Ne). cbn [bind]. change (lower c :: map lower t) with (slower (c :: t)). now rewrite to_dec_low.
Qed.
Lemma number_bind {A} (r : result str) (k : dec -> result A) : bind r (fun s => match to_dec s with None => Lib TypesError | Some d => k d end) =
  bind (bind r (fun s => match to_dec s with None => Lib TypesError | Some d => Ok d end)) k.
Proof. destruct r as [s| |]; [|reflexivity|reflexivity]. cbn [bind]. destruct (to_dec s); reflexivity. Qed.
Lemma integer_same s : head_E s = false -> integer_from_mcnp (slower s) = integer_from_mcnp s.
Proof.
  intros H. unfold integer_from_mcnp. rewrite horiz_low. destruct (horiz_from_mcnp s); [reflexivity|]. rewrite fortran_low.
  rewrite !(number_bind _ (fun d => bind (dec_to_int d) (fun z => Ok (IVal z)))), (lead_same _ (fortran_head s H)). reflexivity.
Qed.
Lemma real_same s : head_E s = false -> real_from_mcnp (slower s) = real_from_mcnp s.
Proof.
  intros H. unfold real_from_mcnp. rewrite horiz_low. destruct (horiz_from_mcnp s); [reflexivity|]. rewrite fortran_low.
  rewrite !(number_bind _ (fun d => Ok (RVal d))), (lead_same _ (fortran_head s H)). reflexivity.
Qed.
Lemma numbers_same s t : head_E s = false -> head_E t = false -> same_letters s t -> integer_from_mcnp s = integer_from_mcnp t /\ real_from_mcnp s = real_from_mcnp t.
Proof.
  intros HS HT E. rewrite <- (integer_same s HS), <- (integer_same t HT), <- (real_same s HS), <- (real_same t HT), (E : slower s = slower t). split; reflexivity.
Qed.
Lemma horiz_E s : horiz_from_mcnp ("E"%char :: s) = None.
Proof. vm_compute. reflexivity. Qed.
Lemma fortran_E s : exists t, fortran ("E"%char :: s) = "E"%char :: t.
Proof.
  assert (G : forall r f u, match_at r [] ("E"%char :: u) = None -> exists t, sub r f ("E"%char :: u) = "E"%char :: t).
  { intros r f u H. unfold sub. cbn [sub_f length]. rewrite H. eexists. reflexivity. }
  unfold fortran. destruct (G re_fortran (fun o => grp 1 o ++ ["e"%char] ++ grp 2 o ++ grp 3 o) s) as [t ->]; [vm_compute; reflexivity|]. apply G. vm_compute. reflexivity.
Qed.
Lemma numbers_E s : integer_from_mcnp ("E"%char :: s) = Lib TypesError /\ real_from_mcnp ("E"%char :: s) = Lib TypesError.
Proof.
  unfold integer_from_mcnp, real_from_mcnp. rewrite horiz_E. destruct (fortran_E s) as [t ->].
  assert (L : lead_one ("E"%char :: t) = Ok ("E"%char :: t)) by reflexivity. rewrite L. cbn [bind]. rewrite to_dec_E. split; reflexivity.
Qed.

(** ** The others *)
Lemma group_allc P r p s o i t : match_at r p s = Some o -> allc P s -> group i o = Some t -> allc P t.
Proof.
  intros M H G. destruct (CardTextFacts6.match_pres (fun c => P c = true) r p s o M H) as (_ & _ & Q). specialize (Q i). unfold grp in Q. rewrite G in Q. exact Q.
Qed.
Lemma grp_allc P r p s o i : match_at r p s = Some o -> allc P s -> allc P (grp i o).
Proof. intros M H. exact (proj2 (proj2 (CardTextFacts6.match_pres (fun c => P c = true) r p s o M H)) i). Qed.
Lemma distribution_up s : up (distribution_from_mcnp s) (distribution_from_mcnp (slower s)).
Proof.
  intros y H. unfold distribution_from_mcnp in *. pose proof (count_low re_distribution s eq_refl eq_refl) as Q.
  destruct (re_match re_distribution (slower s)), (re_match re_distribution s); try discriminate Q; [rewrite (some_inj _ _ Q) in H; eauto|discriminate H].
Qed.
Lemma zaid_up s : up (zaid_from_mcnp s) (zaid_from_mcnp (slower s)).
Proof.
  intros y H. unfold zaid_from_mcnp in *. rewrite (re_match_low re_zaid s eq_refl) in H. destruct (re_match re_zaid s) as [o|] eqn:E; [|discriminate H]. cbn [option_map] in H.
  unfold grp in *. rewrite !(group_plain re_zaid [] s o _ E) in H by (try lia; reflexivity). rewrite group_low in H. revert H. unfold mk_zaid.
  destruct (_ && _)%bool; [|discriminate]. destruct (_ && _)%bool; [|discriminate]. eauto.
Qed.
Lemma substance_up s : allc not_E s -> up (substance_from_mcnp s) (substance_from_mcnp (slower s)).
Proof.
  intros N y H. unfold substance_from_mcnp in *. rewrite (re_match_low re_substance s eq_refl) in H. destruct (re_match re_substance s) as [o|] eqn:E; [|discriminate H]. cbn [option_map] in H. rewrite !grp_low in H.
  rewrite (real_same (grp 2 o) (not_E_head _ (grp_allc _ _ _ _ _ 2 E N))) in H.
  destruct (zaid_from_mcnp (slower (grp 1 o))) as [z| |] eqn:E1; cbn [bind] in H; try discriminate H. destruct (zaid_up _ _ E1) as [z' ->]. cbn [bind].
  destruct (real_from_mcnp (grp 2 o)) as [r| |]; cbn [bind] in *; try discriminate H. eauto.
Qed.
Lemma index_up s : allc not_E s -> up (index_from_mcnp s) (index_from_mcnp (slower s)).
Proof.
  intros N y H. unfold index_from_mcnp in *. rewrite (re_match_low re_index s eq_refl) in H. destruct (re_match re_index s) as [o|] eqn:E; [|discriminate H]. cbn [option_map] in H. rewrite !grp_low in H.
  rewrite (integer_same (grp 1 o) (not_E_head _ (grp_allc _ _ _ _ _ 1 E N))), (integer_same (grp 2 o) (not_E_head _ (grp_allc _ _ _ _ _ 2 E N))) in H. eauto.
Qed.
Lemma designator_up s : up (designator_from_mcnp s) (designator_from_mcnp (slower s)).
Proof.
  intros y H. unfold designator_from_mcnp in *. rewrite (re_match_low re_designator s eq_refl) in H. destruct (re_match re_designator s) as [o|]; [eauto|discriminate H].
Qed.
Lemma mapM_up {A B C D} (f : A -> result B) (f' : C -> result D) (h : A -> C) l : (forall x, In x l -> forall y, f' (h x) = Ok y -> exists z, f x = Ok z) ->
  forall ys, mapM f' (map h l) = Ok ys -> exists zs, mapM f l = Ok zs.
Proof.
  induction l as [|a l IH]; intros H ys E; cbn [mapM map] in *; [eauto|].
  destruct (f' (h a)) as [y| |] eqn:E1; cbn [bind] in E; try discriminate E. destruct (mapM f' (map h l)) as [zs| |]; cbn [bind] in E; try discriminate E.
  destruct (H a (or_introl eq_refl) y E1) as [z ->]. destruct (IH (fun x I => H x (or_intror I)) zs eq_refl) as [ws ->]. cbn [bind]. eauto.
Qed.
Lemma transf_with_up r n s : caseless r = true -> allc not_E s -> up (transf_with r n s) (transf_with r n (slower s)).
Proof.
  intros C N y H. unfold transf_with in *. rewrite (re_match_low r s C) in H. destruct (re_match r s) as [o|] eqn:M; [|discriminate H]. cbn [option_map] in H.
  assert (E : mapM (fun i => real_from_mcnp (grp i (low_mobj o))) (seq 1 n) = mapM (fun i => real_from_mcnp (grp i o)) (seq 1 n)).
  { generalize (seq 1 n). induction l as [|i l IH]; [reflexivity|]. cbn [mapM]. now rewrite IH, grp_low, (real_same (grp i o) (not_E_head _ (grp_allc _ _ _ _ _ i M N))). }
  rewrite E in H. destruct (mapM (fun i => real_from_mcnp (grp i o)) (seq 1 n)) as [v| |]; cbn [bind] in *; try discriminate H.
  rewrite group_low, truthy_low in H. destruct (truthy (group (S n) o)) as [t|] eqn:T; cbn [option_map] in H; [|eauto].
  assert (G : allc not_E t).
  { destruct (group (S n) o) as [u|] eqn:G; [|discriminate T]. destruct u as [|c u]; [discriminate T|]. injection T as <-. exact (group_allc _ _ _ _ _ _ _ M N G). }
  rewrite (integer_same t (not_E_head t G)) in H. eauto.
Qed.
Lemma transf_up k s : allc not_E s -> up (transf_from_mcnp k s) (transf_from_mcnp k (slower s)).
Proof. rewrite !transf_with_eq. exact (transf_with_up _ _ s (transf_caseless k)). Qed.
Lemma lattice_up s : up (lat_from_mcnp s) (lat_from_mcnp (slower s)).
Proof.
  intros y H. enough (E : slower (strip s) = strip s).
  { exists y. unfold lat_from_mcnp, lat_tokens in *. rewrite strip_low, E in H. exact H. }
  unfold lat_from_mcnp, lat_tokens in H. rewrite strip_low in H. destruct (seqb (concat (lat_raw (slower (strip s)))) (slower (strip s))) eqn:E; [|discriminate H]. apply CardsFacts2.seqb_eq in E.
  assert (F : allc (alpha re_ltoken) (slower (strip s))).
  { rewrite <- E. unfold lat_raw, finditer. pose proof (finditer_alpha re_ltoken (S (length (slower (strip s)))) [] (slower (strip s))) as F. clear - F.
    induction F as [|o l HO F IH]; [constructor|]. cbn [map concat]. apply Forall_app. split; [exact HO|exact IH]. }
  clear - F. generalize dependent (strip s). intros u F. induction u as [|c u IH]; [reflexivity|]. cbn [slower map] in *. inversion F as [|? ? F1 F2]. subst. f_equal; [|exact (IH F2)].
  destruct (capital c) as [Q|I]; [exact Q|]. pose proof (proj1 (forallb_forall (fun c => negb (alpha re_ltoken (lower c))) capitals) eq_refl c I) as Q. cbv beta in Q. rewrite F1 in Q. discriminate Q.
Qed.

(** ** Tests that do not depend on the case of letters *)
(** A constant without letters. *)
Definition bare (t : str) : bool := forallb (fun d => forallb (fun x => implb (ceqb (lower x) d) (ceqb x d)) all_chars) t.
Definition bare_of (f : nexp) : bool := match f with ES t => bare t | _ => false end.
Lemma seqb_bare t : bare t = true -> slower t = t -> forall s, seqb (slower s) t = seqb s t.
Proof.
  intros B E. induction t as [|d t IH]; intros [|c s]; try reflexivity. cbn [bare forallb] in B. apply andb_prop in B as [BD B]. cbn [slower map] in E. injection E as ED E.
  cbn [slower map seqb]. rewrite (lower_eqb c d ED (lower_back d BD)). destruct (ceqb c d); [|reflexivity]. exact (IH B E s).
Qed.
Fixpoint evenn (e : nexp) : bool :=
  match e with
  | ES s => seqb (slower s) s
  | EVal e | ELower e | ELen e | EMin e | EMod e _ | EMul _ e => evenn e
  | EIte b e f => if evenb b then if evenn e then evenn f else false else false
  | _ => true
  end
with evenb (b : bexp) : bool :=
  match b with
  | BConst _ | BExt _ => true
  | BIsNone e | BJump e | BTruth e => evenn e
  | BNot b => evenb b
  | BAnd a b | BOr a b => if evenb a then evenb b else false
  | BIte b c d => if evenb b then if evenb c then evenb d else false else false
  | BCmp o e f => if evenn e then if evenn f then if ordering o then true else if bare_of f then true else apart e f else false else false
  | BIn e l => if evenn e then if forallb evenn l then forallb (apart e) l else false else false
  end.
Definition rmap {A B} (f : A -> B) (r : result A) : result B := match r with Ok x => Ok (f x) | Lib e => Lib e | Py e => Py e end.
Lemma compare_even op p q : (ordering op = true \/ is_text p = false \/ is_text q = false \/ (spv p = p /\ spv q = q)) -> compare op (spv p) (spv q) = compare op p q.
Proof.
  intros D. unfold compare. rewrite !num_low.
  assert (T : (exists s t, num_of p = NStr s /\ num_of q = NStr t) \/ (is_text p = false \/ is_text q = false)).
  { unfold is_text. destruct (num_of p), (num_of q); eauto. }
  destruct T as [(s & t & EP & EQ)|T].
  - unfold is_text in D. rewrite EP, EQ in D. rewrite EP, EQ. cbn [snum]. destruct D as [D|[D|[D|[D1 D2]]]]; [now rewrite D|discriminate D|discriminate D|].
    rewrite <- D1, num_low in EP. rewrite <- D2, num_low in EQ.
    assert (A : slower s = s) by (destruct (num_of p); try discriminate EP; cbn in EP; injection EP as <-; apply slower_twice).
    assert (B : slower t = t) by (destruct (num_of q); try discriminate EQ; cbn in EQ; injection EQ as <-; apply slower_twice).
    now rewrite A, B.
  - unfold is_text in T. destruct (num_of p), (num_of q); cbn [snum]; try reflexivity. destruct T; discriminate.
Qed.
Lemma compare_bare op p t : bare t = true -> slower t = t -> compare op (spv p) (spv (PS t)) = compare op p (PS t).
Proof.
  intros B E. cbn [spv]. rewrite E. unfold compare. rewrite num_low. destruct (num_of p); cbn [snum num_of]; try reflexivity. now rewrite (seqb_bare t B E).
Qed.
Lemma pmin_even l : forall best, pmin (spv best) (map spv l) = rmap spv (pmin best l).
Proof.
  induction l as [|x l IH]; intros best; [reflexivity|]. cbn [pmin map]. rewrite (compare_even OLt x best (or_introl eq_refl)).
  destruct (compare OLt x best) as [b| |]; [|reflexivity|reflexivity]. cbn [bind]. destruct b; apply IH.
Qed.
Lemma value_even p : value_of (spv p) = rmap spv (value_of p).
Proof.
  destruct p as [|v| | | |]; try reflexivity. destruct v as [i|r|s|n|z|s|x|x|k t|l|c l|l|z|s]; try reflexivity; [destruct i|destruct r|destruct x]; reflexivity.
Qed.
Section Even.
  Variables (o : obj) (x : option val).
  Let o' := small_obj o.
  Let x' := option_map small x.
  Definition N_even (e : nexp) : Prop := evenn e = true -> neval o' x' e = rmap spv (neval o x e).
  Definition B_even (b : bexp) : Prop := evenb b = true -> beval o' x' b = beval o x b.
  Lemma sharp_even e p : evenn e = true -> sharp e = true -> neval o x e = Ok p -> spv p = p.
  Proof.
    intros N S H. destruct e; try discriminate S; cbn [neval] in H; try (injection H as <-; reflexivity).
    - injection H as <-. cbn [evenn] in N. apply CardsFacts2.seqb_eq in N. cbn [spv]. now rewrite N.
    - destruct (neval o x e) as [q| |]; cbn [bind] in H; try discriminate H. destruct (value_of q) as [w| |]; cbn [bind] in H; try discriminate H.
      destruct w; try discriminate H. injection H as <-. cbn [spv]. now rewrite slower_twice.
    - destruct (neval o x e) as [q| |]; cbn [bind] in H; try discriminate H. destruct q as [|v| | | |]; try discriminate H. destruct v; try discriminate H; injection H as <-; reflexivity.
    - destruct (neval o x e) as [q| |]; cbn [bind] in H; try discriminate H. destruct q as [|v| | | |]; try discriminate H. destruct v as [i| | | | | | | | | | | | |]; try discriminate H; try (injection H as <-; reflexivity). destruct i; try discriminate H; injection H as <-; reflexivity.
    - destruct (neval o x e) as [q| |]; cbn [bind] in H; try discriminate H. destruct q as [|v| | | |]; try discriminate H; try (injection H as <-; reflexivity). destruct v as [i| | | | | | | | | | | | |]; try discriminate H; try (injection H as <-; reflexivity). destruct i; try discriminate H; injection H as <-; reflexivity.
  Qed.
  Lemma apart_even e f p q : evenn e = true -> evenn f = true -> apart e f = true -> neval o x e = Ok p -> neval o x f = Ok q ->
    is_text p = false \/ is_text q = false \/ (spv p = p /\ spv q = q).
  Proof.
    intros NE NF A HP HQ. unfold apart in A. destruct (plain e) eqn:PE; [left; exact (plain_ok o x _ _ PE HP)|]. destruct (plain f) eqn:PF; [right; left; exact (plain_ok o x _ _ PF HQ)|].
    destruct (sharp e) eqn:SE; [|discriminate A]. right. right. split; [exact (sharp_even _ _ NE SE HP)|exact (sharp_even _ _ NF A HQ)].
  Qed.
  Lemma any_even e p l : Forall N_even l -> evenn e = true -> neval o x e = Ok p -> forallb evenn l = true -> forallb (apart e) l = true ->
    (fix any l := match l with
                  | [] => Ok false
                  | f :: l' => bind (neval o' x' f) (fun q => bind (compare OEq (spv p) q) (fun c => if c then Ok true else any l'))
                  end) l =
    (fix any l := match l with
                  | [] => Ok false
                  | f :: l' => bind (neval o x f) (fun q => bind (compare OEq p q) (fun c => if c then Ok true else any l'))
                  end) l.
  Proof.
    intros F NE HP. induction F as [|f l HN F IH]; intros NL HV; [reflexivity|]. cbn [forallb] in NL, HV. apply andb_prop in NL as [NF NL]. apply andb_prop in HV as [HA HV].
    rewrite (HN NF). destruct (neval o x f) as [q| |] eqn:EF; [|reflexivity|reflexivity]. cbn [rmap bind].
    rewrite (compare_even OEq p q (or_intror (apart_even e f p q NE NF HA HP EF))). destruct (compare OEq p q) as [[]| |]; try reflexivity. cbn [bind]. exact (IH NL HV).
  Qed.
  Lemma even_EIte b e f : evenn (EIte b e f) = if evenb b then if evenn e then evenn f else false else false.
  Proof. reflexivity. Qed.
  Lemma even_BNot b : evenb (BNot b) = evenb b.
  Proof. reflexivity. Qed.
  Lemma even_BAnd a b : evenb (BAnd a b) = if evenb a then evenb b else false.
  Proof. reflexivity. Qed.
  Lemma even_BOr a b : evenb (BOr a b) = if evenb a then evenb b else false.
  Proof. reflexivity. Qed.
  Lemma even_BIte b c d : evenb (BIte b c d) = if evenb b then if evenb c then evenb d else false else false.
  Proof. reflexivity. Qed.
  Lemma even_BCmp op e f : evenb (BCmp op e f) = if evenn e then if evenn f then if ordering op then true else if bare_of f then true else apart e f else false else false.
  Proof. reflexivity. Qed.
  Lemma even_BIn e l : evenb (BIn e l) = if evenn e then if forallb evenn l then forallb (apart e) l else false else false.
  Proof. reflexivity. Qed.
  Fixpoint N_evenly (e : nexp) : N_even e
  with B_evenly (b : bexp) : B_even b.
  Proof.
    - destruct e; intros HN.
      + cbn [neval rmap]. f_equal. apply opt_pv_low.
      + reflexivity.
      + reflexivity.
      + cbn [evenn] in HN. apply CardsFacts2.seqb_eq in HN. cbn [neval rmap spv]. now rewrite HN.
      + cbn [neval]. unfold o'. rewrite assoc_low. destruct (assoc name o); [|reflexivity]. cbn [option_map rmap]. f_equal. apply opt_pv_low.
      + cbn [neval evenn] in *. rewrite (N_evenly e HN). destruct (neval o x e) as [q| |]; [|reflexivity|reflexivity]. cbn [rmap bind]. apply value_even.
      + cbn [neval evenn] in *. rewrite (N_evenly e HN). destruct (neval o x e) as [q| |]; [|reflexivity|reflexivity]. cbn [rmap bind]. rewrite value_even. destruct (value_of q) as [w| |]; [|reflexivity|reflexivity].
        cbn [rmap bind]. destruct w; reflexivity.
      + cbn [neval evenn] in *. rewrite (N_evenly e HN). destruct (neval o x e) as [q| |]; [|reflexivity|reflexivity]. cbn [rmap bind].
        destruct q as [|v| | | |]; try reflexivity. destruct v as [i|r|s|n|z|s|y|y|k t|l|c l|l|z|s]; cbn [spv small rmap]; try reflexivity; try (rewrite slower_length; reflexivity). destruct y; reflexivity.
      + cbn [neval evenn] in *. rewrite (N_evenly e HN). destruct (neval o x e) as [q| |]; [|reflexivity|reflexivity]. cbn [rmap bind].
        destruct q as [|v| | | |]; try reflexivity. destruct v as [i|r|s|n|z|s|y|y|k t|l|c l|l|z|s]; cbn [spv small rmap]; try reflexivity; [destruct y; reflexivity|]. destruct l as [|v l]; [reflexivity|]. cbn [map].
        replace (map PLib (map small l)) with (map spv (map PLib l)) by (rewrite !map_map; reflexivity). exact (pmin_even _ (PLib v)).
      + cbn [neval evenn] in *. rewrite (N_evenly e HN). destruct (neval o x e) as [q| |]; [|reflexivity|reflexivity]. cbn [rmap bind].
        destruct q as [|v| | | |]; try reflexivity. destruct v as [i|r|s|n0|z|s|y|y|k t|l|c l|l|z|s]; cbn [spv small rmap]; try reflexivity; [destruct i|destruct y]; reflexivity.
      + cbn [neval evenn] in *. rewrite (N_evenly e HN). destruct (neval o x e) as [q| |]; [|reflexivity|reflexivity]. cbn [rmap bind].
        destruct q as [|v| | | |]; try reflexivity. destruct v as [i|r|s|n0|z|s|y|y|k t|l|c l|l|z|s]; cbn [spv small rmap]; try reflexivity; [destruct i|destruct y]; reflexivity.
      + rewrite even_EIte in HN. rewrite !nn_EIte. destruct (evenb b) eqn:K; [|discriminate HN]. destruct (evenn e1) eqn:K1; [|discriminate HN]. rewrite (B_evenly b K).
        destruct (beval o x b) as [c| |]; [|reflexivity|reflexivity]. cbn [bind]. destruct c; [exact (N_evenly e1 K1)|exact (N_evenly e2 HN)].
    - destruct b; intros HN; rewrite ?bb_BConst, ?bb_BIsNone, ?bb_BNot, ?bb_BAnd, ?bb_BOr, ?bb_BIte, ?bb_BCmp, ?bb_BIn, ?bb_BJump, ?bb_BTruth, ?bb_BExt.
      + reflexivity.
      + cbn [evenb] in HN. rewrite (N_evenly e HN). destruct (neval o x e) as [q| |]; [|reflexivity|reflexivity]. destruct q; reflexivity.
      + rewrite even_BNot in HN. now rewrite (B_evenly b HN).
      + rewrite even_BAnd in HN. destruct (evenb b1) eqn:K; [|discriminate HN]. now rewrite (B_evenly b1 K), (B_evenly b2 HN).
      + rewrite even_BOr in HN. destruct (evenb b1) eqn:K; [|discriminate HN]. now rewrite (B_evenly b1 K), (B_evenly b2 HN).
      + rewrite even_BIte in HN. destruct (evenb b1) eqn:K; [|discriminate HN]. destruct (evenb b2) eqn:K2; [|discriminate HN]. now rewrite (B_evenly b1 K), (B_evenly b2 K2), (B_evenly b3 HN).
      + rewrite even_BCmp in HN. destruct (evenn e) eqn:NE; [|discriminate HN]. destruct (evenn f) eqn:NF; [|discriminate HN]. rewrite (N_evenly e NE), (N_evenly f NF).
        destruct (neval o x e) as [p| |] eqn:E1; [|reflexivity|reflexivity]. cbn [rmap bind]. destruct (neval o x f) as [q| |] eqn:E2; [|reflexivity|reflexivity]. cbn [rmap bind].
        destruct (ordering o0) eqn:OR; [exact (compare_even o0 p q (or_introl OR))|]. destruct (bare_of f) eqn:BF; [|exact (compare_even o0 p q (or_intror (apart_even e f p q NE NF HN E1 E2)))].
        destruct f; try discriminate BF. injection E2 as <-. cbn [evenn] in NF. apply CardsFacts2.seqb_eq in NF. exact (compare_bare o0 p s BF NF).
      + rewrite even_BIn in HN. destruct (evenn e) eqn:NE; [|discriminate HN]. destruct (forallb evenn l) eqn:NL; [|discriminate HN]. rewrite (N_evenly e NE).
        destruct (neval o x e) as [p| |] eqn:E1; [|reflexivity|reflexivity]. cbn [rmap bind]. rewrite hash_low. destruct (hashable p); [|reflexivity].
        refine (any_even e p l _ NE E1 NL HN). clear - N_evenly. revert l. fix go 1. intros [|e l]; constructor; [apply N_evenly|apply go].
      + cbn [evenb] in HN. rewrite (N_evenly e HN). destruct (neval o x e) as [q| |]; [|reflexivity|reflexivity]. cbn [rmap bind]. rewrite value_even. destruct (value_of q) as [w| |]; [|reflexivity|reflexivity]. destruct w; reflexivity.
      + cbn [evenb] in HN. rewrite (N_evenly e HN). destruct (neval o x e) as [q| |]; [|reflexivity|reflexivity]. cbn [rmap bind]. apply truth_low.
      + reflexivity.
  Qed.
  Lemma checks_even l : forallb evenb l = true -> run_checks o' x' l = run_checks o x l.
  Proof.
    induction l as [|b l IH]; intros K; [reflexivity|]. cbn [run_checks forallb] in *. apply andb_prop in K as [K KL]. rewrite (B_evenly b K). destruct (beval o x b) as [[]| |]; try reflexivity. exact (IH KL).
  Qed.
End Even.
