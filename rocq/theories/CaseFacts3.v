(** Lemmas about reading in small letters: patterns without regard to case, and the text layer. *)

From Coq Require Import Ascii String NArith ZArith Bool Arith List Lia.
From Verif Require Import PyStr Regex RegexParse RegexFacts RegexDer RegexLang PyNum Types CardText Cards CaseSpec Calm CalmFacts PyNumFacts CaseFacts CaseFacts2.
Import ListNotations.

(** ** [re.IGNORECASE] *)
Lemma capital_code c : In c capitals -> (65 <= code c <= 90)%N /\ code (lower c) = (code c + 32)%N.
Proof.
  intros H. pose proof (proj1 (forallb_forall (fun c => (65 <=? code c)%N && (code c <=? 90)%N && (code (lower c) =? code c + 32)%N) capitals) eq_refl c H) as Q. cbv beta in Q.
  apply andb_prop in Q as [Q E]. apply andb_prop in Q as [A B]. apply N.leb_le in A. apply N.leb_le in B. apply N.eqb_eq in E. auto.
Qed.
Lemma fold_range_low r n : (65 <= n <= 90)%N -> in_ranges (fold_range r) (n + 32) = in_ranges (fold_range r) n.
Proof.
  intros H. destruct r as [a b]. unfold fold_range, in_ranges. cbn [existsb]. rewrite !existsb_app. cbv zeta.
  assert (E : forall c d m, existsb (fun '(a, b) => ((a <=? m)%N && (m <=? b)%N)%bool) (if (c <=? d)%N then [(c, d)] else []) = ((c <=? m)%N && (m <=? d)%N)%bool).
  { intros c d m. destruct (N.leb_spec c d); cbn [existsb]; [apply Bool.orb_false_r|]. destruct (N.leb_spec c m), (N.leb_spec m d); try reflexivity. lia. }
  assert (E1 : forall c d m, (32 <= m)%N -> existsb (fun '(a, b) => ((a <=? m)%N && (m <=? b)%N)%bool) (if (c <=? d)%N then [(c + 32, d + 32)%N] else []) = ((c <=? m - 32)%N && (m - 32 <=? d)%N)%bool).
  { intros c d m M. rewrite <- (E c d (m - 32)%N). destruct (N.leb_spec c d); cbn [existsb]; [|reflexivity]. f_equal. f_equal; apply Bool.eq_iff_eq_true; rewrite !N.leb_le; lia. }
  assert (E2 : forall c d m, (32 <= c)%N -> existsb (fun '(a, b) => ((a <=? m)%N && (m <=? b)%N)%bool) (if (c <=? d)%N then [(c - 32, d - 32)%N] else []) = ((c <=? m + 32)%N && (m + 32 <=? d)%N)%bool).
  { intros c d m M. rewrite <- (E c d (m + 32)%N). destruct (N.leb_spec c d); cbn [existsb]; [|reflexivity]. f_equal. f_equal; apply Bool.eq_iff_eq_true; rewrite !N.leb_le; lia. }
  rewrite !E1, !E2 by lia. replace (n + 32 - 32)%N with n by lia. clear E E1 E2.
  apply Bool.eq_iff_eq_true. rewrite !Bool.orb_true_iff, !Bool.andb_true_iff, !N.leb_le. lia.
Qed.
Lemma mkset_low neg l : case_set (mkset true neg l) = true.
Proof.
  unfold case_set. apply forallb_forall. intros c I. destruct (capital_code c I) as [R E]. apply Bool.eqb_true_iff. unfold inset, mkset. cbn [cneg cranges]. f_equal. rewrite E.
  induction l as [|r l IH]; [reflexivity|]. cbn [flat_map]. unfold in_ranges in *. rewrite !existsb_app, IH. f_equal. exact (fold_range_low r (code c) R).
Qed.
Lemma class_low c rs : class_escape c = Some rs -> case_set {| cneg := false; cranges := rs |} = true.
Proof. intros E. pose proof (all_ascii (fun c => match class_escape c with Some rs => case_set {| cneg := false; cranges := rs |} | None => true end) eq_refl c) as Q. cbv beta in Q. now rewrite E in Q. Qed.
Lemma behind_lit_low s : forall acc l t, forallb case_set acc = true -> behind_lit true s acc = Some (l, t) -> forallb case_set l = true.
Proof.
  induction s as [|c s IH]; intros acc l t HA H; [discriminate H|].
  assert (Q : behind_lit true (c :: s) acc = behind_lit true s (lit_set true c :: acc) \/ behind_lit true (c :: s) acc = Some (acc, s)) by (destruct c as [[] [] [] [] [] [] [] []]; (left; reflexivity) || (right; reflexivity)).
  destruct Q as [Q|Q]; rewrite Q in H.
  - apply (IH (lit_set true c :: acc) l t); [|exact H]. cbn [forallb]. unfold lit_set. rewrite mkset_low. exact HA.
  - injection H as <- <-. exact HA.
Qed.
Definition okr (r : option (re * str * nat)) : Prop := match r with Some (a, _, _) => caseless a = true | None => True end.
Lemma apply_quant_low a s : caseless a = true -> caseless (fst (apply_quant a s)) = true.
Proof. intros H. unfold apply_quant. destruct (quant s) as [[[mn mx] t]|]; [|exact H]. destruct t as [|[[] [] [] [] [] [] [] []] t]; exact H. Qed.
Lemma rcat_low a b : caseless a = true -> caseless b = true -> caseless (rcat a b) = true.
Proof. intros HA HB. destruct b; cbn [rcat]; try exact HA; cbn [caseless] in *; rewrite HA; exact HB. Qed.
Definition after_bar (a : re) (t : str) (g' : nat) (f : str -> nat -> option (re * str * nat)) : option (re * str * nat) :=
  match t with "|"%char :: t => match f t g' with Some (b, t', g'') => Some (RAlt a b, t', g'') | None => None end | _ => Some (a, t, g') end.
Lemma palt_raw f s g : palt true (S f) s g = match pcat true f s g with
  | Some (a, "|"%char :: t, g') => match palt true f t g' with Some (b, t', g'') => Some (RAlt a b, t', g'') | None => None end
  | r => r end.
Proof. reflexivity. Qed.
Lemma palt_eq f s g : palt true (S f) s g = match pcat true f s g with Some (a, t, g') => after_bar a t g' (palt true f) | None => None end.
Proof. rewrite palt_raw. destruct (pcat true f s g) as [[[a [|c t]] g']|]; [reflexivity| |reflexivity]. destruct c as [[] [] [] [] [] [] [] []]; reflexivity. Qed.
Definition atom_then (f : nat) (s : str) (g : nat) : option (re * str * nat) :=
  match patom true f s g with
  | Some (a, t, g') => let '(a', t') := apply_quant a t in match pcat true f t' g' with Some (b, t'', g'') => Some (rcat a' b, t'', g'') | None => None end
  | None => None
  end.
Lemma pcat_eq f s g : pcat true (S f) s g = Some (REps, s, g) \/ pcat true (S f) s g = atom_then f s g.
Proof. destruct s as [|c s]; [left; reflexivity|]. destruct c as [[] [] [] [] [] [] [] []]; (right; reflexivity) || (left; reflexivity). Qed.
Definition closed (r : option (re * str * nat)) (w : re -> re) : option (re * str * nat) :=
  match r with Some (a, ")"%char :: t', g') => Some (w a, t', g') | _ => None end.
Lemma closed_ok r w : okr r -> (forall a, caseless a = true -> caseless (w a) = true) -> okr (closed r w).
Proof. intros H W. destruct r as [[[a [|c t]] g']|]; try exact I. destruct c as [[] [] [] [] [] [] [] []]; try exact I. exact (W a H). Qed.
Inductive atom_case (f : nat) (s : str) (g : nat) : option (re * str * nat) -> Prop :=
| ac_none : atom_case f s g None
| ac_group t : atom_case f s g (closed (palt true f t g) (fun a => a))
| ac_capture t : atom_case f s g (closed (palt true f t (S g)) (RGrp g))
| ac_behind b l t u : behind_lit true u [] = Some (l, t) -> atom_case f s g (Some (RBehind b l, t, g))
| ac_set b l t : atom_case f s g (Some (RSet (mkset true b l), t, g))
| ac_dot t : atom_case f s g (Some (RSet {| cneg := true; cranges := [(10, 10)%N] |}, t, g))
| ac_beg t : atom_case f s g (Some (RBeg, t, g))
| ac_end t : atom_case f s g (Some (REnd, t, g))
| ac_class c rs t : class_escape c = Some rs -> atom_case f s g (Some (RSet {| cneg := false; cranges := rs |}, t, g)).
Definition look (b : bool) (t : str) (g : nat) : option (re * str * nat) := match behind_lit true t [] with Some (l, t') => Some (RBehind b l, t', g) | None => None end.
Definition items_of (f : nat) (b : bool) (t : str) (g : nat) : option (re * str * nat) := match class_items f true t [] with Some (rs, t') => Some (RSet (mkset true b rs), t', g) | None => None end.
Definition escape_of (c : ascii) (t : str) (g : nat) : option (re * str * nat) :=
  match class_escape c with Some rs => Some (RSet {| cneg := false; cranges := rs |}, t, g) | None => Some (RSet (lit_set true (char_escape c)), t, g) end.
Lemma look_ok f s b t g : atom_case f s g (look b t g).
Proof. unfold look. destruct (behind_lit true t []) as [[l u]|] eqn:E; [exact (ac_behind _ _ _ b l u t E)|apply ac_none]. Qed.
Lemma items_ok f s b t g : atom_case f s g (items_of f b t g).
Proof. unfold items_of. destruct (class_items f true t []) as [[l u]|]; [apply ac_set|apply ac_none]. Qed.
Lemma escape_ok f s c t g : atom_case f s g (escape_of c t g).
Proof. unfold escape_of. destruct (class_escape c) as [rs|] eqn:E; [exact (ac_class _ _ _ c rs t E)|apply ac_set]. Qed.
Lemma patom_case f s g : atom_case f s g (patom true (S f) s g).
Proof.
  destruct s as [|c s]; [apply ac_none|].
  destruct (Ascii.eqb_spec c "(") as [->|N1].
  { destruct s as [|d s]; [exact (ac_capture f _ g [])|].
    assert (CAP : forall t, patom true (S f) ("("%char :: t) g = closed (palt true f t (S g)) (RGrp g) -> atom_case f ("("%char :: t) g (patom true (S f) ("("%char :: t) g)) by (intros t ->; apply ac_capture).
    destruct (Ascii.eqb_spec d "?") as [->|N2]; [|apply CAP; clear - N2; destruct d as [[] [] [] [] [] [] [] []]; try reflexivity; congruence].
    destruct s as [|e s]; [apply CAP; reflexivity|].
    destruct (Ascii.eqb_spec e ":") as [->|N3]; [exact (ac_group f _ g s)|].
    destruct (Ascii.eqb_spec e "<") as [->|N4]; [|apply CAP; clear - N3 N4; destruct e as [[] [] [] [] [] [] [] []]; try reflexivity; congruence].
    destruct s as [|h s]; [apply CAP; reflexivity|].
    destruct (Ascii.eqb_spec h "=") as [->|N5]; [exact (look_ok f _ false s g)|].
    destruct (Ascii.eqb_spec h "!") as [->|N6]; [exact (look_ok f _ true s g)|].
    apply CAP; clear - N5 N6; destruct h as [[] [] [] [] [] [] [] []]; try reflexivity; congruence. }
  destruct (Ascii.eqb_spec c "[") as [->|N2].
  { destruct s as [|d s]; [exact (items_ok f _ false [] g)|]. destruct (Ascii.eqb_spec d "^") as [->|N3]; [exact (items_ok f _ true s g)|].
    replace (patom true (S f) ("["%char :: d :: s) g) with (items_of f false (d :: s) g); [apply items_ok|]. clear - N3. destruct d as [[] [] [] [] [] [] [] []]; try reflexivity; congruence. }
  destruct (Ascii.eqb_spec c ".") as [->|N3]; [apply ac_dot|].
  destruct (Ascii.eqb_spec c "\") as [->|N4].
  { destruct s as [|d s]; [apply (ac_set f _ g false [(code "\", code "\")])|]. destruct (Ascii.eqb_spec d "A") as [->|N5]; [apply ac_beg|]. destruct (Ascii.eqb_spec d "Z") as [->|N6]; [apply ac_end|].
    replace (patom true (S f) ("\"%char :: d :: s) g) with (escape_of d s g); [apply escape_ok|]. clear - N5 N6. destruct d as [[] [] [] [] [] [] [] []]; try reflexivity; congruence. }
  replace (patom true (S f) (c :: s) g) with (Some (RSet (lit_set true c), s, g)); [apply ac_set|].
  clear - N1 N2 N3 N4. destruct c as [[] [] [] [] [] [] [] []]; try reflexivity; congruence.
Qed.
Lemma parse_low f : (forall s g, okr (palt true f s g)) /\ (forall s g, okr (pcat true f s g)) /\ (forall s g, okr (patom true f s g)).
Proof.
  induction f as [|f (IA & IC & IT)]; [split; [|split]; intros; exact I|]. split; [|split]; intros s g.
  - rewrite palt_eq. pose proof (IC s g) as Q. destruct (pcat true f s g) as [[[a t] g']|]; [|exact I]. cbn [okr] in Q.
    assert (G : okr (Some (a, t, g'))) by exact Q. unfold after_bar. destruct t as [|c t]; [exact G|].
    destruct (Ascii.eqb_spec c "|") as [->|N].
    + pose proof (IA t g') as R. destruct (palt true f t g') as [[[b u] g'']|]; [|exact I]. cbn [okr caseless] in *. rewrite Q. exact R.
    + clear - G N. destruct c as [[] [] [] [] [] [] [] []]; try exact G; congruence.
  - destruct (pcat_eq f s g) as [->| ->]; [reflexivity|]. unfold atom_then. pose proof (IT s g) as Q. destruct (patom true f s g) as [[[a t] g']|]; [|exact I]. cbn [okr] in Q.
    pose proof (apply_quant_low a t Q) as R. destruct (apply_quant a t) as [a' t']. cbn [fst] in R. pose proof (IC t' g') as W. destruct (pcat true f t' g') as [[[b u] g'']|]; [|exact I].
    cbn [okr] in *. exact (rcat_low _ _ R W).
  - destruct (patom_case f s g) as [|t|t|b l t u E|b l t|t|t|t|c rs t E]; cbn [okr caseless]; try reflexivity.
    + apply closed_ok; auto.
    + apply closed_ok; auto.
    + exact (behind_lit_low u [] l t eq_refl E).
    + apply mkset_low.
    + exact (class_low _ _ E).
Qed.
Lemma caseless_compile p : caseless (compile true p) = true.
Proof.
  unfold compile, compile_opt. pose proof (proj1 (parse_low (S (3 * length p))) p 1) as Q. destruct (palt true (S (3 * length p)) p 1) as [[[r [|c t]] g]|]; [exact Q|reflexivity|reflexivity].
Qed.

(** ** The text layer *)
Lemma words_aux_low s : forall cur, words_aux (slower s) (slower cur) = map slower (words_aux s cur).
Proof.
  induction s as [|c s IH]; intros cur; cbn [slower map words_aux].
  - destruct cur as [|x cur]; [reflexivity|]. cbn [slower map]. cbn [map]. f_equal. symmetry. exact (slower_rev (x :: cur)).
  - rewrite lower_space. destruct (is_space c).
    + destruct cur as [|x cur]; cbn [slower map]; [exact (IH [])|]. f_equal; [symmetry; exact (slower_rev (x :: cur))|exact (IH [])].
    + exact (IH (c :: cur)).
Qed.
Lemma words_low s : words (slower s) = map slower (words s).
Proof. exact (words_aux_low s []). Qed.
Lemma digits_slower s : digits s -> slower s = s.
Proof. induction 1 as [|c s H _ IH]; [reflexivity|]. cbn [slower map]. rewrite (digit_lower c H). f_equal. exact IH. Qed.
Lemma srepeat_low n s : slower (srepeat n s) = srepeat n (slower s).
Proof. induction n as [|n IH]; [reflexivity|]. cbn [srepeat]. now rewrite slower_app, IH. Qed.
Lemma join_low sep l : slower (join sep l) = join (slower sep) (map slower l).
Proof.
  induction l as [|w l IH]; [reflexivity|]. destruct l as [|v l]; [reflexivity|]. cbn [join map] in *. rewrite !slower_app. f_equal. f_equal. exact IH.
Qed.
Lemma split_on_low d s : lower d = d -> (forall x, lower x = d -> x = d) -> split_on d (slower s) = map slower (split_on d s).
Proof.
  intros H1 H2. induction s as [|c s IH]; [reflexivity|]. cbn [slower map split_on]. rewrite (lower_eqb c d H1 H2). fold (slower s). rewrite IH.
  destruct (ceqb c d); [reflexivity|]. destruct (split_on d s); reflexivity.
Qed.
Lemma split1_low d s : lower d = d -> (forall x, lower x = d -> x = d) -> split1 d (slower s) = (slower (fst (split1 d s)), option_map slower (snd (split1 d s))).
Proof.
  intros H1 H2. induction s as [|c s IH]; [reflexivity|]. cbn [slower map split1]. rewrite (lower_eqb c d H1 H2). destruct (ceqb c d); [reflexivity|].
  fold (slower s). rewrite IH. destruct (split1 d s); reflexivity.
Qed.
Lemma sub_const r t s : caseless r = true -> slower t = t -> sub r (fun _ => t) (slower s) = slower (sub r (fun _ => t) s).
Proof. intros C E. apply sub_low; [exact C|]. intros p u o _. now rewrite E. Qed.
Lemma tidy_low s : tidy (slower s) = slower (tidy s).
Proof.
  unfold tidy. cbv zeta.
  rewrite (sub_const re_cont [sp] s eq_refl eq_refl). generalize (sub re_cont (fun _ => [sp]) s). clear s. intros s.
  rewrite (sub_const re_blanks [sp] s eq_refl eq_refl). generalize (sub re_blanks (fun _ => [sp]) s). clear s. intros s.
  rewrite (sub_const re_open ["("%char] s eq_refl eq_refl). generalize (sub re_open (fun _ => ["("%char]) s). clear s. intros s.
  rewrite (sub_const re_close [")"%char] s eq_refl eq_refl). generalize (sub re_close (fun _ => [")"%char]) s). clear s. intros s.
  rewrite (sub_const re_blankline [nl; nl] s eq_refl eq_refl). generalize (sub re_blankline (fun _ => [nl; nl]) s). clear s. intros s.
  rewrite (sub_const re_equals [sp] s eq_refl eq_refl). generalize (sub re_equals (fun _ => [sp]) s). clear s. intros s.
  rewrite (sub_const re_tab [sp; sp; sp; sp] s eq_refl eq_refl). generalize (sub re_tab (fun _ => [sp; sp; sp; sp]) s). clear s. intros s.
  apply strip_low.
Qed.
Lemma shorten_low pat name s : caseless (re_run pat) = true -> slower (L name) = L name -> shorten pat name (slower s) = slower (shorten pat name s).
Proof.
  intros C E. unfold shorten. apply sub_low; [exact C|]. intros p u o _. rewrite !grp_low, strip_low, words_low, map_length, !slower_app, E, (digits_slower (str_of_N _) (str_of_N_digits _)). reflexivity.
Qed.
Lemma compress_low s : compress (slower s) = slower (compress s).
Proof. unfold compress. cbv zeta. rewrite !shorten_low by (vm_compute; reflexivity). reflexivity. Qed.
Lemma lengthen_low pat name s : caseless (re_count pat) = true -> forallb no_capitals (grp_res (re_count pat) 1) = true -> slower (L name) = L name ->
  lengthen pat name (slower s) = slower (lengthen pat name s).
Proof.
  intros C G E. unfold lengthen. apply sub_low; [exact C|]. intros p u o M. rewrite slower_app, srepeat_low, (grp_low 2 o). unfold grp at 1.
  rewrite (group_plain _ _ _ _ 1 M (Nat.lt_0_succ 0) G). fold (grp 1 o). f_equal. f_equal. cbn [slower map]. f_equal. symmetry. exact E.
Qed.
Lemma expand_low s : expand (slower s) = slower (expand s).
Proof. unfold expand. cbv zeta. rewrite !lengthen_low by (vm_compute; reflexivity). reflexivity. Qed.
Lemma preprocess_low s : preprocess (slower s) = slower (preprocess s).
Proof. unfold preprocess. now rewrite tidy_low, compress_low, expand_low. Qed.
Lemma card_preprocess_low s : card_preprocess (slower s) = (slower (fst (card_preprocess s)), map slower (snd (card_preprocess s))).
Proof.
  unfold card_preprocess, split_comments. cbn [fst snd].
  rewrite (split_on_low nl s eq_refl (lower_back nl eq_refl)). generalize (split_on nl s). intros l. rewrite map_map, <- preprocess_low, join_low. f_equal.
  - f_equal. f_equal. rewrite !map_map. apply map_ext. intros w. rewrite (split1_low "$" w eq_refl (lower_back "$"%char eq_refl)). reflexivity.
  - induction l as [|w l IH]; [reflexivity|]. cbn [map flat_map]. rewrite (split1_low "$" w eq_refl (lower_back "$"%char eq_refl)). cbn [snd]. rewrite map_app. f_equal; [|exact IH].
    destruct (snd (split1 "$" w)); reflexivity.
Qed.
