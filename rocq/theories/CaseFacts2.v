(** Lemmas about reading in small letters: the scalar types. *)

From Coq Require Import Ascii String NArith ZArith Bool Arith List Lia.
From Verif Require Import PyStr Regex RegexParse RegexFacts RegexDer RegexLang PyNum Types CardText Cards CaseSpec Calm CalmFacts GeometryFacts5 Lattice CaseFacts.
Import ListNotations.

(** What was read is read again in small letters. *)
Definition down {A} (f : A -> A) (r r' : result A) : Prop := forall x, r = Ok x -> r' = Ok (f x).
Definition same {A} (x : A) : A := x.

Lemma lower_space c : is_space (lower c) = is_space c.
Proof. apply Bool.eqb_prop. exact (all_ascii (fun c => Bool.eqb (is_space (lower c)) (is_space c)) eq_refl c). Qed.
Lemma lower_digit c : is_digit (lower c) = is_digit c.
Proof. apply Bool.eqb_prop. exact (all_ascii (fun c => Bool.eqb (is_digit (lower c)) (is_digit c)) eq_refl c). Qed.
Lemma digit_lower c : is_digit c = true -> lower c = c.
Proof. intros H. pose proof (all_ascii (fun c => implb (is_digit c) (ceqb (lower c) c)) eq_refl c) as Q. cbv beta in Q. rewrite H in Q. now apply Ascii.eqb_eq. Qed.
Lemma digits_lower s : allc is_digit s -> slower s = s.
Proof. induction 1 as [|c s H _ IH]; [reflexivity|]. cbn [slower map]. rewrite (digit_lower c H). f_equal. exact IH. Qed.
(** A small letter or no letter. *)
Lemma lower_eqb c d : lower d = d -> (forall x, lower x = d -> x = d) -> ceqb (lower c) d = ceqb c d.
Proof.
  intros HD HX. unfold ceqb. destruct (Ascii.eqb_spec c d) as [->|N]; [rewrite HD; apply Ascii.eqb_refl|]. apply Ascii.eqb_neq. intros E. now apply HX in E.
Qed.
Lemma lower_back d : forallb (fun x => implb (ceqb (lower x) d) (ceqb x d)) all_chars = true -> forall x, lower x = d -> x = d.
Proof. intros H x E. rewrite forallb_forall in H. specialize (H x (all_chars_in x)). unfold ceqb in H. rewrite E, Ascii.eqb_refl in H. now apply Ascii.eqb_eq. Qed.

Lemma lstrip_low s : lstrip (slower s) = slower (lstrip s).
Proof. induction s as [|c s IH]; [reflexivity|]. cbn [slower map lstrip]. rewrite lower_space. destruct (is_space c); [exact IH|reflexivity]. Qed.
Lemma strip_low s : strip (slower s) = slower (strip s).
Proof. unfold strip, rstrip. now rewrite lstrip_low, <- slower_rev, lstrip_low, slower_rev. Qed.
Lemma span_low s : span_digits (slower s) = (fst (span_digits s), slower (snd (span_digits s))).
Proof.
  induction s as [|c s IH]; [reflexivity|]. cbn [slower map span_digits]. rewrite lower_digit. destruct (is_digit c) eqn:E; [|reflexivity].
  fold (slower s). rewrite IH. destruct (span_digits s) as [a b]. cbn [fst snd]. now rewrite (digit_lower c E).
Qed.
Lemma slower_nil s : slower s = [] <-> s = [].
Proof. destruct s; cbn; split; congruence. Qed.

Definition sign_of (s : str) : bool * str := match s with "-" :: u => (true, u) | "+" :: u => (false, u) | _ => (false, s) end%char.
Lemma sign_low s : sign_of (slower s) = (fst (sign_of s), slower (snd (sign_of s))).
Proof. destruct s as [|[[] [] [] [] [] [] [] []] s]; reflexivity. Qed.
Definition after_dot (t : str) : str * str := match t with "." :: u => span_digits u | _ => ([], t) end%char.
Lemma dot_low t : after_dot (slower t) = (fst (after_dot t), slower (snd (after_dot t))).
Proof. destruct t as [|[[] [] [] [] [] [] [] []] t]; try reflexivity. apply span_low. Qed.
Lemma parse_exp_cons c u : parse_exp (c :: u) = if ceqb (lower c) "e" then let '(neg, u) := sign_of u in
  match span_digits u with ([], _) => None | (ds, []) => let n := Z.of_N (N_of_digits ds) in Some (if neg then Z.opp n else n) | _ => None end else None.
Proof. reflexivity. Qed.
Lemma parse_exp_low t : parse_exp (slower t) = parse_exp t.
Proof.
  destruct t as [|c u]; [reflexivity|]. cbn [slower map]. rewrite !parse_exp_cons.
  replace (lower (lower c)) with (lower c) by (symmetry; apply Ascii.eqb_eq; exact (all_ascii (fun c => Ascii.eqb (lower (lower c)) (lower c)) eq_refl c)).
  destruct (ceqb (lower c) "e"); [|reflexivity]. fold (slower u).
  rewrite sign_low. destruct (sign_of u) as [neg v]. cbn [fst snd]. rewrite span_low. destruct (span_digits v) as [[|d ds] [|x r]]; reflexivity.
Qed.
Lemma parse_unsigned_eq neg s : parse_unsigned neg s = let '(ip, t) := span_digits s in let '(fp, t) := after_dot t in
  match ip ++ fp with [] => None | ds => match parse_exp t with
    Some e => let c := N_of_digits ds in let e := (e - Z.of_nat (length fp))%Z in if dec_ok c e then Some (Fin neg c e) else None | None => None end end.
Proof. reflexivity. Qed.
Lemma parse_unsigned_low neg s : parse_unsigned neg (slower s) = parse_unsigned neg s.
Proof.
  rewrite !parse_unsigned_eq, span_low. destruct (span_digits s) as [ip t]. cbn [fst snd].
  rewrite dot_low. destruct (after_dot t) as [fp u]. cbn [fst snd]. now rewrite parse_exp_low.
Qed.
Lemma to_dec_eq s : to_dec s = let '(neg, t) := sign_of (filter (fun c => negb (ceqb c "_")) (strip s)) in
  match parse_unsigned neg t with Some d => Some d | None => parse_special neg t end.
Proof. reflexivity. Qed.
Lemma parse_nan_low neg sig t : parse_nan neg sig (slower t) = parse_nan neg sig t.
Proof. unfold parse_nan. rewrite span_low. destruct (span_digits t) as [ds [|x r]]; reflexivity. Qed.
Lemma slower_skipn n s : skipn n (slower s) = slower (skipn n s).
Proof. apply skipn_map. Qed.
Lemma to_dec_low s : to_dec (slower s) = to_dec s.
Proof.
  rewrite !to_dec_eq, strip_low.
  assert (E : forall u, filter (fun c => negb (ceqb c "_")) (slower u) = slower (filter (fun c => negb (ceqb c "_")) u)).
  { induction u as [|c u IH]; [reflexivity|]. cbn [slower map filter]. rewrite (lower_eqb c "_" eq_refl (lower_back "_" eq_refl)). destruct (ceqb c "_"); cbn [negb]; [exact IH|]. cbn [map]. f_equal. exact IH. }
  rewrite E. generalize (filter (fun c => negb (ceqb c "_")) (strip s)). intros u.
  rewrite sign_low. destruct (sign_of u) as [neg v]. cbn [fst snd]. rewrite parse_unsigned_low. destruct (parse_unsigned neg v); [reflexivity|].
  unfold parse_special. rewrite slower_twice, !slower_skipn, !parse_nan_low. reflexivity.
Qed.

(** ** Groups of digits *)
Lemma group_at r p s o i t : match_at r p s = Some o -> 0 < i -> group i o = Some t -> exists a, In a (grp_res r i) /\ V a t.
Proof.
  unfold match_at. destruct (m r (mkst p s []) Some) as [s'|] eqn:E; [|discriminate]. intros [= <-] HI HG.
  apply m_sound in E as (s1 & HM & [= <-]). apply M_caps in HM as (c & EC & F). cbn [caps] in EC. rewrite app_nil_r in EC.
  destruct i as [|i]; [lia|]. cbn [group mcaps] in HG. rewrite EC in HG. apply lookup_in in HG.
  unfold caps_ok in F. rewrite Forall_forall in F. destruct (F _ HG) as (a & HA & HV). exists a. split; [|exact HV].
  unfold grp_res. apply in_map_iff. exists (S i, a). split; [reflexivity|]. apply filter_In. split; [exact HA|]. cbn [fst]. apply Nat.eqb_refl.
Qed.
Definition no_capitals (a : re) : bool := forallb (fun c => negb (alpha a c)) capitals.
Lemma no_capitals_V a t : no_capitals a = true -> V a t -> slower t = t.
Proof.
  intros H HV. apply alpha_V in HV. induction HV as [|c t Hc _ IH]; [reflexivity|]. cbn [slower map]. f_equal; [|exact IH].
  destruct (capital c) as [E|I]; [exact E|]. unfold no_capitals in H. rewrite forallb_forall in H. specialize (H c I). rewrite Hc in H. discriminate.
Qed.
Lemma group_plain r p s o i : match_at r p s = Some o -> 0 < i -> forallb no_capitals (grp_res r i) = true -> group i (low_mobj o) = group i o.
Proof.
  intros HM HI H. rewrite group_low. destruct (group i o) as [t|] eqn:E; [|reflexivity]. cbn. f_equal.
  destruct (group_at _ _ _ _ _ _ HM HI E) as (a & HA & HV). rewrite forallb_forall in H. exact (no_capitals_V a t (H a HA) HV).
Qed.

(** ** Numbers *)
Lemma count_low r s : caseless r = true -> forallb no_capitals (grp_res r 1) = true ->
  match re_match r (slower s) with None => None | Some o => Some (group 1 o) end = match re_match r s with None => None | Some o => Some (group 1 o) end.
Proof.
  intros HC HG. rewrite (re_match_low r s HC). destruct (re_match r s) as [o|] eqn:E; [|reflexivity]. cbn [option_map]. f_equal.
  apply (group_plain r [] s o 1 E); auto.
Qed.
Lemma some_inj {A} (x y : A) : Some x = Some y -> x = y.
Proof. congruence. Qed.
Lemma horiz_low s : horiz_from_mcnp (slower s) = horiz_from_mcnp s.
Proof.
  pose proof (count_low re_repeat s eq_refl eq_refl) as H1. pose proof (count_low re_insert s eq_refl eq_refl) as H2.
  pose proof (count_low re_multiply s eq_refl eq_refl) as H3. pose proof (count_low re_jump s eq_refl eq_refl) as H4. pose proof (count_low re_log s eq_refl eq_refl) as H5.
  unfold horiz_from_mcnp, repeat_from_mcnp, insert_from_mcnp, multiply_from_mcnp, jump_from_mcnp, log_from_mcnp, opt_count.
  destruct (re_match re_repeat (slower s)), (re_match re_repeat s); try discriminate H1; [rewrite (some_inj _ _ H1); reflexivity|].
  destruct (re_match re_insert (slower s)), (re_match re_insert s); try discriminate H2; [rewrite (some_inj _ _ H2); reflexivity|].
  assert (E : match re_match re_multiply (slower s) with None => None | Some o => Some (match group 1 o with Some t => N_of_digits t | None => 0%N end) end =
              match re_match re_multiply s with None => None | Some o => Some (match group 1 o with Some t => N_of_digits t | None => 0%N end) end).
  { destruct (re_match re_multiply (slower s)), (re_match re_multiply s); try discriminate H3; [rewrite (some_inj _ _ H3); reflexivity|reflexivity]. }
  assert (J : match match re_match re_jump (slower s) with Some o => Ok (HJump (option_map N_of_digits (truthy (group 1 o)))) | None => Lib TypesError end with
              | Ok h => Some h | _ => match match re_match re_log (slower s) with Some o => Ok (HLog (option_map N_of_digits (truthy (group 1 o)))) | None => Lib TypesError end with Ok h => Some h | _ => None end end =
              match match re_match re_jump s with Some o => Ok (HJump (option_map N_of_digits (truthy (group 1 o)))) | None => Lib TypesError end with
              | Ok h => Some h | _ => match match re_match re_log s with Some o => Ok (HLog (option_map N_of_digits (truthy (group 1 o)))) | None => Lib TypesError end with Ok h => Some h | _ => None end end).
  { destruct (re_match re_jump (slower s)), (re_match re_jump s); try discriminate H4; [rewrite (some_inj _ _ H4); reflexivity|].
    destruct (re_match re_log (slower s)), (re_match re_log s); try discriminate H5; [rewrite (some_inj _ _ H5); reflexivity|reflexivity]. }
  destruct (re_match re_multiply (slower s)), (re_match re_multiply s); try discriminate E; [|exact J].
  rewrite (some_inj _ _ E). destruct (_ =? 0)%N; [exact J|reflexivity].
Qed.
Lemma fortran_low s : fortran (slower s) = slower (fortran s).
Proof.
  unfold fortran. rewrite (sub_low re_fortran (fun o => grp 1 o ++ ["e"%char] ++ grp 2 o ++ grp 3 o)) by (try reflexivity; intros p u o _; rewrite !grp_low, !slower_app; reflexivity).
  apply sub_low; [reflexivity|]. intros p u o _. reflexivity.
Qed.
Lemma to_dec_E t : to_dec ("E"%char :: t) = None.
Proof.
  assert (E : exists u, filter (fun c => negb (ceqb c "_")) (strip ("E"%char :: t)) = "E"%char :: u).
  { destruct (strip_split ("E"%char :: t)) as (a & b & E & HA & HB). destruct a as [|x a]; [|injection E as <- _; inversion HA as [|? ? K _]; discriminate K].
    cbn [app] in E. destruct (strip ("E"%char :: t)) as [|y v].
    - cbn [app] in E. subst b. inversion HB as [|? ? K _]; discriminate K.
    - injection E as <- _. cbn [filter]. eexists. reflexivity. }
  destruct E as [u E]. unfold to_dec. rewrite E. unfold parse_unsigned. cbn [span_digits]. change (is_digit "E") with false. cbv iota. cbn [app].
  unfold parse_special. cbn [slower map]. change (lower "E") with "e"%char. reflexivity.
Qed.
Lemma lead_low s : forall x, bind (lead_one s) (fun s => match to_dec s with None => Lib TypesError | Some d => Ok d end) = Ok x ->
  bind (lead_one (slower s)) (fun s => match to_dec s with None => Lib TypesError | Some d => Ok d end) = Ok x.
Proof.
  intros x H. destruct s as [|c t]; [discriminate H|].
  destruct (Ascii.eqb_spec c "E") as [->|NE].
  { cbn [lead_one bind] in H. rewrite to_dec_E in H. discriminate H. }
  assert (L1 : forall c t, c = "e"%char -> lead_one (c :: t) = Ok ("1"%char :: c :: t)) by (intros ? ? ->; reflexivity).
  assert (L2 : forall c t, c <> "e"%char -> lead_one (c :: t) = Ok (c :: t)).
  { intros [[] [] [] [] [] [] [] []] u N; try reflexivity. congruence. }
  cbn [slower map]. destruct (Ascii.eqb_spec c "e") as [->|Ne].
  - change (lower "e") with "e"%char. rewrite L1 in H |- * by reflexivity. cbn [bind] in *.
    change ("1"%char :: "e"%char :: map lower t) with (slower ("1"%char :: "e"%char :: t)). now rewrite to_dec_low.
  - assert (N : lower c <> "e"%char).
    { intros E. pose proof (all_ascii (fun c => implb (ceqb (lower c) "e") (ceqb c "e" || ceqb c "E")) eq_refl c) as Q. cbv beta in Q. unfold ceqb in Q. rewrite E in Q. cbn [implb Ascii.eqb] in Q.
      rewrite (proj2 (Ascii.eqb_neq _ _) Ne), (proj2 (Ascii.eqb_neq _ _) NE) in Q. discriminate Q. }
    rewrite (L2 _ _ N). rewrite (L2 _ _ Ne) in H. cbn [bind] in *. change (lower c :: map lower t) with (slower (c :: t)). now rewrite to_dec_low.
Qed.
Lemma integer_low s : down same (integer_from_mcnp s) (integer_from_mcnp (slower s)).
Proof.
  intros x H. unfold integer_from_mcnp in *. rewrite horiz_low. destruct (horiz_from_mcnp s); [exact H|]. rewrite fortran_low.
  pose proof (lead_low (fortran s)) as Q. destruct (lead_one (fortran s)) as [u| |]; cbn [bind] in *; try discriminate H.
  destruct (to_dec u) as [d|]; [|discriminate H]. specialize (Q d eq_refl). destruct (lead_one (slower (fortran s))) as [v| |]; cbn [bind] in *; try discriminate Q.
  destruct (to_dec v); [injection Q as ->; exact H|discriminate Q].
Qed.
Lemma real_low s : down same (real_from_mcnp s) (real_from_mcnp (slower s)).
Proof.
  intros x H. unfold real_from_mcnp in *. rewrite horiz_low. destruct (horiz_from_mcnp s); [exact H|]. rewrite fortran_low.
  pose proof (lead_low (fortran s)) as Q. destruct (lead_one (fortran s)) as [u| |]; cbn [bind] in *; try discriminate H.
  destruct (to_dec u) as [d|]; [|discriminate H]. specialize (Q d eq_refl). destruct (lead_one (slower (fortran s))) as [v| |]; cbn [bind] in *; try discriminate Q.
  destruct (to_dec v); [injection Q as ->; exact H|discriminate Q].
Qed.
(** ** The others *)
Lemma distribution_low s : down same (distribution_from_mcnp s) (distribution_from_mcnp (slower s)).
Proof.
  intros x H. unfold distribution_from_mcnp in *. pose proof (count_low re_distribution s eq_refl eq_refl) as Q.
  destruct (re_match re_distribution (slower s)), (re_match re_distribution s); try discriminate Q; [rewrite (some_inj _ _ Q); exact H|exact H].
Qed.
Lemma zaid_low s : down small_zaid (zaid_from_mcnp s) (zaid_from_mcnp (slower s)).
Proof.
  intros x H. unfold zaid_from_mcnp in *. rewrite (re_match_low re_zaid s eq_refl). destruct (re_match re_zaid s) as [o|] eqn:E; [|discriminate H]. cbn [option_map].
  unfold grp. rewrite !(group_plain re_zaid [] s o _ E) by (try lia; reflexivity). fold (grp 1 o) (grp 2 o). unfold grp in H. rewrite group_low.
  unfold grp. revert H. unfold mk_zaid.
  destruct (_ && _)%bool; [|discriminate]. destruct (_ && _)%bool; [|discriminate]. intros [= <-]. reflexivity.
Qed.
Lemma substance_low s : down (fun x => (small_zaid (fst x), snd x)) (substance_from_mcnp s) (substance_from_mcnp (slower s)).
Proof.
  intros x H. unfold substance_from_mcnp in *. rewrite (re_match_low re_substance s eq_refl). destruct (re_match re_substance s) as [o|]; [|discriminate H]. cbn [option_map]. rewrite !grp_low.
  destruct (zaid_from_mcnp (grp 1 o)) as [z| |] eqn:E1; cbn [bind] in *; try discriminate H. destruct (real_from_mcnp (grp 2 o)) as [r| |] eqn:E2; cbn [bind] in *; try discriminate H.
  rewrite (zaid_low _ _ E1), (real_low _ _ E2). injection H as <-. reflexivity.
Qed.
Lemma index_low s : down same (index_from_mcnp s) (index_from_mcnp (slower s)).
Proof.
  intros x H. unfold index_from_mcnp in *. rewrite (re_match_low re_index s eq_refl). destruct (re_match re_index s) as [o|]; [|discriminate H]. cbn [option_map]. rewrite !grp_low.
  destruct (integer_from_mcnp (grp 1 o)) as [z| |] eqn:E1; cbn [bind] in *; try discriminate H. destruct (integer_from_mcnp (grp 2 o)) as [r| |] eqn:E2; cbn [bind] in *; try discriminate H.
  rewrite (integer_low _ _ E1), (integer_low _ _ E2). injection H as <-. reflexivity.
Qed.
Lemma designator_low s : down slower (designator_from_mcnp s) (designator_from_mcnp (slower s)).
Proof.
  intros x H. unfold designator_from_mcnp in *. rewrite (re_match_low re_designator s eq_refl). destruct (re_match re_designator s) as [o|]; [|discriminate H]. injection H as <-. reflexivity.
Qed.
Lemma mapM_down {A B C} (f : A -> result B) (f' : C -> result B) (h : A -> C) (g : B -> B) l : (forall x, In x l -> down g (f x) (f' (h x))) ->
  down (map g) (mapM f l) (mapM f' (map h l)).
Proof.
  induction l as [|a l IH]; intros H ys E; cbn [mapM map] in *; [injection E as <-; reflexivity|].
  destruct (f a) as [y| |] eqn:E1; cbn [bind] in E; try discriminate E. destruct (mapM f l) as [zs| |]; cbn [bind] in E; try discriminate E. injection E as <-.
  rewrite (H a (or_introl eq_refl) _ E1). cbn [bind]. rewrite (IH (fun x I => H x (or_intror I)) zs eq_refl). reflexivity.
Qed.
Lemma map_same {A} (l : list A) : map same l = l.
Proof. apply map_id. Qed.
Lemma transf_caseless k : caseless (re_transformation k) = true.
Proof. destruct k as [|[|[|[|k]]]]; [vm_compute; reflexivity..|]. change (re_transformation (S (S (S (S k))))) with (re_transformation 4). vm_compute. reflexivity. Qed.
Definition transf_with (r : re) (n : nat) (s : str) : result transf :=
  match re_match r s with
  | None => Lib TypesError
  | Some o =>
      bind (mapM (fun i => real_from_mcnp (grp i o)) (seq 1 n)) (fun v =>
      bind (match truthy (group (S n) o) with
            | Some t => bind (integer_from_mcnp t) (fun m => Ok (Some m))
            | None => Ok None
            end) (fun m => mk_transf v m))
  end.
Lemma transf_with_eq k s : transf_from_mcnp k s = transf_with (re_transformation k) (trans_fields k) s.
Proof. unfold transf_from_mcnp, transf_with. cbv zeta. reflexivity. Qed.
Lemma transf_with_low r n s : caseless r = true -> down same (transf_with r n s) (transf_with r n (slower s)).
Proof.
  intros C x H. unfold transf_with in *. rewrite (re_match_low r s C). destruct (re_match r s) as [o|]; [|discriminate H]. cbn [option_map].
  destruct (mapM (fun i => real_from_mcnp (grp i o)) (seq 1 n)) as [v| |] eqn:E1; cbn [bind] in H; try discriminate H.
  assert (E : mapM (fun i => real_from_mcnp (grp i (low_mobj o))) (seq 1 n) = Ok v).
  { pose proof (mapM_down (fun i => real_from_mcnp (grp i o)) (fun i => real_from_mcnp (grp i (low_mobj o))) (fun i => i) same (seq 1 n)) as Q. rewrite map_id in Q.
    specialize (Q ltac:(intros i _; rewrite grp_low; apply real_low) v E1). rewrite map_same in Q. exact Q. }
  rewrite E. cbn [bind].
  rewrite group_low, truthy_low. destruct (truthy (group (S n) o)) as [t|]; cbn [option_map]; [|exact H].
  destruct (integer_from_mcnp t) as [z| |] eqn:E2; cbn [bind] in H; try discriminate H. rewrite (integer_low _ _ E2). exact H.
Qed.
Lemma transf_low k s : down same (transf_from_mcnp k s) (transf_from_mcnp k (slower s)).
Proof. rewrite !transf_with_eq. exact (transf_with_low _ _ s (transf_caseless k)). Qed.
Lemma lattice_low s : down same (lat_from_mcnp s) (lat_from_mcnp (slower s)).
Proof.
  intros x H. enough (E : slower (strip s) = strip s).
  { unfold lat_from_mcnp, lat_tokens in *. rewrite strip_low, E. exact H. }
  unfold lat_from_mcnp, lat_tokens in H. destruct (seqb (concat (lat_raw (strip s))) (strip s)) eqn:E; [|discriminate H]. apply CardsFacts2.seqb_eq in E. rewrite <- E.
  unfold lat_raw, finditer. pose proof (finditer_alpha re_ltoken (S (length (strip s))) [] (strip s)) as F. clear - F.
  induction F as [|o l HO F IH]; [reflexivity|]. cbn [map concat]. rewrite slower_app, IH. f_equal.
  assert (NC : no_capitals re_ltoken = true) by reflexivity. clear - HO NC. induction HO as [|c t Hc _ IH]; [reflexivity|]. cbn [slower map]. f_equal; [|exact IH].
  destruct (capital c) as [E|I]; [exact E|]. unfold no_capitals in NC. rewrite forallb_forall in NC. specialize (NC c I). rewrite Hc in NC. discriminate.
Qed.
