(** More facts about the scalar types: errors, distributions, zaids, pairs,
    transformations. *)

From Coq Require Import Ascii String NArith ZArith Bool Arith Lia List.
From Verif Require Import PyStr Regex RegexParse RegexFacts RegexLang PyNum PyNumFacts Types TypesSpec TypesFacts.
Import ListNotations.
Open Scope char_scope.

(** * Characters of written values *)

Definition is_wordchar (c : ascii) : bool :=
  is_numchar c || existsb (ceqb c) (L "rimjlog").

Lemma wordchar_digits ds : digits ds -> allc is_wordchar ds.
Proof. apply allc_impl. vm_compute. reflexivity. Qed.
Lemma wordchar_num s : allc is_numchar s -> allc is_wordchar s.
Proof. apply allc_impl. vm_compute. reflexivity. Qed.

Lemma horiz_chars h : allc is_wordchar (horiz_to_mcnp h).
Proof.
  destruct h as [n|n|x|n|n]; cbn [horiz_to_mcnp]; apply allc_app; split;
    try (apply wordchar_digits; apply or_empty_digits || apply str_of_N_digits);
    try (repeat constructor; fail).
  destruct n; [apply wordchar_digits, str_of_N_digits|constructor].
Qed.
Lemma horiz_nonempty h : horiz_to_mcnp h <> [].
Proof. destruct h; cbn [horiz_to_mcnp]; intros E; apply app_eq_nil in E as [_ E]; discriminate. Qed.

Lemma str_of_Z_numchars z : allc is_numchar (str_of_Z z).
Proof. rewrite str_of_Z_dec. apply dec_str_numchars. Qed.

Lemma integer_chars i : allc is_wordchar (integer_to_mcnp i).
Proof.
  destruct i; cbn [integer_to_mcnp]; [|apply horiz_chars]. apply wordchar_num, str_of_Z_numchars.
Qed.
Lemma integer_nonempty i : integer_to_mcnp i <> [].
Proof.
  destruct i; cbn [integer_to_mcnp]; [|apply horiz_nonempty].
  rewrite str_of_Z_dec. apply dec_str_nonempty.
Qed.
Lemma real_chars r : real_ok r = true -> allc is_wordchar (real_to_mcnp r).
Proof.
  destruct r as [[neg c e| |]|h]; cbn [real_ok]; try discriminate; intros H; [|apply horiz_chars].
  apply wordchar_num, dec_str_numchars.
Qed.
Lemma real_nonempty r : real_ok r = true -> real_to_mcnp r <> [].
Proof.
  destruct r as [[neg c e| |]|h]; cbn [real_ok]; try discriminate; intros H; [|apply horiz_nonempty].
  apply dec_str_nonempty.
Qed.

(** * Integer against Real (C04) *)

Lemma integer_real s i :
  integer_from_mcnp s = Ok i ->
  match i with
  | IHor h => real_from_mcnp s = Ok (RHor h)
  | IVal z => exists neg c e, real_from_mcnp s = Ok (RVal (Fin neg c e)) /\ dec_to_int (Fin neg c e) = Ok z
  end.
Proof.
  unfold integer_from_mcnp, real_from_mcnp. destruct (horiz_from_mcnp s) as [h|].
  - intros [= <-]. reflexivity.
  - destruct (lead_one (fortran s)) as [t|e|e]; cbn [bind]; try discriminate.
    destruct (to_dec t) as [d|]; [|discriminate].
    destruct d as [neg c e| |]; cbn [dec_to_int bind]; try discriminate.
    intros [= <-]. exists neg, c, e. split; reflexivity.
Qed.

(** Truncation: [z] is the integer part of [(-1)^neg * c * 10^e]. *)
Lemma dec_to_int_trunc neg c e z :
  dec_to_int (Fin neg c e) = Ok z ->
  ((0 <= e -> z = (if neg then -1 else 1) * Z.of_N c * 10 ^ e) /\
   (e < 0 -> exists r, 0 <= r < 10 ^ (- e) /\ Z.of_N c = Z.abs z * 10 ^ (- e) + r /\
             z = (if neg then -1 else 1) * Z.abs z))%Z.
Proof.
  unfold dec_to_int. intros [= <-]. destruct (0 <=? e)%Z eqn:E; split; intros HE; try lia.
  - destruct neg; lia.
  - assert (HP : (0 < 10 ^ (- e))%Z) by (apply Z.pow_pos_nonneg; lia).
    assert (HQ : (0 <= Z.of_N c / 10 ^ (- e))%Z) by (apply Z.div_pos; lia).
    exists (Z.of_N c mod 10 ^ (- e))%Z. split; [apply Z.mod_pos_bound; auto|].
    pose proof (Z.div_mod (Z.of_N c) (10 ^ (- e))%Z ltac:(lia)) as HM.
    destruct neg.
    + rewrite Z.abs_opp, Z.abs_eq by lia. split; lia.
    + rewrite Z.abs_eq by lia. split; lia.
Qed.

(** * Only library errors (C05) *)

Lemma sub_f_nonempty n r f p s : (forall o, f o <> []) -> s <> [] -> 0 < n -> sub_f n r f p s <> [].
Proof.
  intros HF HS HN. destruct n as [|n]; [lia|]. cbn [sub_f].
  destruct (match_at r p s) as [o|].
  - destruct (mtext o); intros E; apply app_eq_nil in E as [E _]; eapply HF; eauto.
  - destruct s; [congruence|discriminate].
Qed.

Lemma fortran_nonempty s : s <> [] -> fortran s <> [].
Proof.
  intros H. unfold fortran. apply sub_f_nonempty; [discriminate| |lia].
  apply sub_f_nonempty; auto; [|lia]. intros o E. apply app_eq_nil in E as [_ E]. discriminate.
Qed.

Lemma lead_one_ok s : s <> [] -> exists t, lead_one s = Ok t.
Proof.
  intros H. destruct s as [|c s]; [congruence|].
  destruct c as [[] [] [] [] [] [] [] []]; cbn; eauto.
Qed.

Theorem real_no_py s : s <> [] -> is_py (real_from_mcnp s) = false.
Proof.
  intros H. unfold real_from_mcnp. destruct (horiz_from_mcnp s); [reflexivity|].
  destruct (lead_one_ok (fortran s)) as (t & ->). { now apply fortran_nonempty. }
  cbn [bind]. destruct (to_dec t); reflexivity.
Qed.

Lemma real_empty : real_from_mcnp [] = Py IndexError.
Proof. vm_compute. reflexivity. Qed.

(** Substitution keeps a character predicate that the replacement respects. *)
Lemma m_text_split r p s o : match_at r p s = Some o -> s = mtext o ++ mrest o.
Proof.
  unfold match_at. destruct (m r (mkst p s []) Some) as [s'|] eqn:E; [|discriminate].
  intros [= <-]. cbn [mtext mrest]. apply m_sound in E as (s1 & HM & [= ->]).
  apply M_consumes in HM as (u & [C _] & _). simpl in C. rewrite C at 1 2. 
  rewrite C at 1. now rewrite firstn_consumed.
Qed.

Lemma sub_f_allc (P : ascii -> bool) r f :
  (forall p s o, allc P s -> match_at r p s = Some o -> allc P (f o)) ->
  forall n p s, allc P s -> allc P (sub_f n r f p s).
Proof.
  intros HF. induction n as [|n IH]; intros p s HS; cbn [sub_f]; auto.
  destruct (match_at r p s) as [o|] eqn:E.
  - pose proof (HF _ _ _ HS E) as HO. pose proof (m_text_split _ _ _ _ E) as HT.
    destruct (mtext o) eqn:ET.
    + apply allc_app. split; auto. destruct s as [|c s]; [constructor|].
      inversion HS; subst. constructor; auto. now apply IH.
    + apply allc_app. split; auto. apply IH. rewrite HT in HS. now apply allc_app in HS as [_ HS].
  - destruct s as [|c s]; [constructor|]. inversion HS; subst. constructor; auto. now apply IH.
Qed.

(** Captured texts are pieces of the subject. *)
Lemma W_caps_allc P r : forall u c, W r u c -> allc P u ->
  Forall (fun x => allc P (snd x)) c.
Proof.
  induction r; simpl; intros u c H HP; try contradiction.
  - destruct H as [_ ->]. constructor.
  - destruct H as (x & _ & _ & ->). constructor.
  - destruct H as (u1 & u2 & c1 & c2 & H1 & H2 & -> & ->).
    apply allc_app in HP as [P1 P2]. apply Forall_app. split; eauto.
  - destruct H as [H|H]; eauto.
  - destruct H as (l & F & _ & _ & -> & ->). clear mn mx.
    induction F as [|[x y] l H F IH]; simpl in *; [constructor|].
    apply allc_app in HP as [P1 P2]. rewrite concat_app. apply Forall_app. split; auto.
    simpl. rewrite app_nil_r. eauto.
  - destruct H as (c' & H & ->). constructor; eauto.
Qed.

Lemma match_at_W r p s o : plain r = true -> match_at r p s = Some o ->
  s = mtext o ++ mrest o /\ W r (mtext o) (mcaps o).
Proof.
  intros PL. unfold match_at. destruct (m r (mkst p s []) Some) as [s'|] eqn:E; [|discriminate].
  intros [= <-]. cbn [mtext mrest mcaps]. apply m_sound in E as (s1 & HM & [= ->]).
  apply M_W in HM as (u & c & HW & C & _ & D); auto. simpl in C, D. rewrite app_nil_r in D. subst c.
  assert (ET : firstn (length s - length (rest s')) s = u).
  { rewrite C. apply firstn_consumed. }
  rewrite ET. auto.
Qed.

Lemma lookup_allc P c n t : Forall (fun x => allc P (snd x)) c -> lookup n c = Some t -> allc P t.
Proof.
  induction 1 as [|[i u] c H F IH]; simpl; [discriminate|].
  destruct (Nat.eqb i n); [intros [= <-]; exact H|exact IH].
Qed.

Lemma grp_allc P o n : allc P (mtext o) -> Forall (fun x => allc P (snd x)) (mcaps o) -> allc P (grp n o).
Proof.
  intros H1 H2. unfold grp, group. destruct n; [exact H1|].
  destruct (lookup (S n) (mcaps o)) eqn:E; [|constructor]. eapply lookup_allc; eauto.
Qed.

Definition no_n (c : ascii) : bool := negb (ceqb (lower c) "n").

Lemma fortran_allc P s : P "e" = true -> allc P s -> allc P (fortran s).
Proof.
  intros HE H. unfold fortran, sub. apply sub_f_allc; [|apply sub_f_allc; auto].
  - intros p t o _ _. repeat constructor. exact HE.
  - intros p t o Ht E. rewrite re_fortran_eq in E.
    apply match_at_W in E as [E1 E2]; [|reflexivity].
    rewrite E1 in Ht. apply allc_app in Ht as [Ht _].
    pose proof (W_caps_allc _ _ _ _ E2 Ht) as HC.
    apply allc_app; split; [apply grp_allc; auto|].
    constructor; [exact HE|]. apply allc_app; split; apply grp_allc; auto.
Qed.

Lemma lead_one_allc P s t : P "1" = true -> allc P s -> lead_one s = Ok t -> allc P t.
Proof.
  intros H1 H E. destruct s as [|c s]; [discriminate|].
  destruct c as [[] [] [] [] [] [] [] []]; inversion E; subst; auto. constructor; auto.
Qed.

Lemma lstrip_allc P s : allc P s -> allc P (lstrip s).
Proof. induction 1 as [|c s Hc H IH]; simpl; [constructor|]. destruct (is_space c); auto. constructor; auto. Qed.
Lemma strip_allc P s : allc P s -> allc P (strip s).
Proof. intros H. unfold strip, rstrip. apply allc_rev, lstrip_allc, allc_rev, lstrip_allc, H. Qed.
Lemma filter_allc P f s : allc P s -> allc P (filter f s).
Proof.
  intros H. apply Forall_forall. intros x Hx. apply filter_In in Hx as [Hx _].
  unfold allc in H. rewrite Forall_forall in H. auto.
Qed.

Lemma parse_special_no_n neg s : allc no_n s -> parse_special neg s = None.
Proof.
  intros H.
  assert (HL : allc (fun c => negb (ceqb c "n")) (slower s)).
  { unfold slower. induction H as [|c s Hc HS IH]; [constructor|]. simpl. constructor; auto. }
  unfold parse_special. destruct (slower s) as [|a l]; [reflexivity|].
  inversion HL as [|? ? Ha Hl]; subst. unfold ceqb in *.
  assert (E1 : forall u, seqb (a :: l) ("i" :: "n" :: u) = false).
  { intros u. cbn [seqb]. destruct l as [|b l]; [apply andb_false_r|].
    inversion Hl as [|? ? Hb Hl']; subst. cbn [seqb]. unfold ceqb. apply negb_true_iff in Hb. rewrite Hb.
    apply andb_false_r. }
  cbv [L list_ascii_of_string]. rewrite !E1. cbn [orb].
  assert (E2 : starts_with ["n"; "a"; "n"] (a :: l) = false).
  { cbn [starts_with]. unfold ceqb. rewrite (Ascii.eqb_sym "n" a). apply negb_true_iff in Ha. now rewrite Ha. }
  rewrite E2.
  assert (E3 : starts_with ["s"; "n"; "a"; "n"] (a :: l) = false).
  { cbn [starts_with]. destruct l as [|b l]; [apply andb_false_r|].
    inversion Hl as [|? ? Hb Hl']; subst. cbn [starts_with]. unfold ceqb. apply negb_true_iff in Hb.
    rewrite (Ascii.eqb_sym "n" b), Hb. apply andb_false_r. }
  now rewrite E3.
Qed.

Lemma to_dec_no_n s d : allc no_n s -> to_dec s = Some d -> exists neg c e, d = Fin neg c e.
Proof.
  intros H. unfold to_dec.
  assert (HS : allc no_n (filter (fun c => negb (ceqb c "_")) (strip s))).
  { apply filter_allc, strip_allc, H. }
  revert HS. generalize (filter (fun c => negb (ceqb c "_")) (strip s)) as t. clear s H. intros s H.
  assert (A : forall neg t, allc no_n t ->
    match parse_unsigned neg t with Some d => Some d | None => parse_special neg t end = Some d ->
    exists neg c e, d = Fin neg c e).
  { intros neg t Ht. rewrite parse_special_no_n by assumption. unfold parse_unsigned.
    destruct (span_digits t) as [ip t1].
    destruct (match t1 with "." :: u => span_digits u | _ => ([], t1) end) as [fp t2].
    destruct (ip ++ fp); [discriminate|]. destruct (parse_exp t2); [|discriminate].
    destruct (dec_ok _ _); [|discriminate]. intros [= <-]. eauto. }
  destruct s as [|c s]; [now apply A|]. inversion H; subst.
  destruct c as [[] [] [] [] [] [] [] []]; apply A; auto.
Qed.

(** Without the letter n the integer reader answers or raises a library error. *)
Theorem integer_no_py s : s <> [] -> allc no_n s -> is_py (integer_from_mcnp s) = false.
Proof.
  intros N H. unfold integer_from_mcnp. destruct (horiz_from_mcnp s); [reflexivity|].
  destruct (lead_one_ok (fortran s)) as (t & E). { now apply fortran_nonempty. }
  rewrite E. cbn [bind].
  destruct (to_dec t) as [d|] eqn:ED; [|reflexivity].
  apply to_dec_no_n in ED as (neg & c & e & ->); [reflexivity|].
  eapply lead_one_allc; [| |exact E]; [reflexivity|]. now apply fortran_allc.
Qed.

(** The library's own pattern for numbers. *)
Definition re_number : re := compile true pat_number.
Definition cs_num1 : cset := cs [(45,45);(43,43);(48,57);(46,46);(101,101);(69,69);(69,69);(101,101)]%N.
Definition cs_num : cset := cs [(45,45);(43,43);(48,57);(46,46);(101,101);(69,69);(69,69);(101,101);(100,100);(68,68);(68,68);(100,100)]%N.
Definition r_numrun : re := RCat (RSet cs_num1) (RRep false 0 None (RSet cs_num)).
Definition r_short : re :=
  RAlt (one_letter 106 74) (RAlt r_log (RAlt r_ilog
    (RAlt (RCat (RRep false 0 None (RSet cs_dig)) (one_letter 109 77))
      (RAlt (one_letter 105 73) (one_letter 114 82))))).
Definition r_number : re :=
  RAlt (one_letter 106 74) (RAlt r_log (RAlt r_ilog
    (RAlt (RCat (RRep false 0 None (RSet cs_dig)) (one_letter 109 77))
      (RAlt (one_letter 105 73) (RAlt (one_letter 114 82) r_numrun))))).
Lemma re_number_eq : re_number = whole r_number.
Proof. vm_compute. reflexivity. Qed.

Lemma number_no_py s : re_match re_number s <> None -> is_py (integer_from_mcnp s) = false.
Proof.
  intros H. destruct (re_match re_number s) as [o|] eqn:E; [|congruence]. clear H.
  rewrite re_number_eq in E. apply match_whole_inv in E as [_ HW]; [|reflexivity].
  apply integer_no_py.
  - apply (must_W {| cneg := true; cranges := [] |}) in HW; [|vm_compute; reflexivity].
    intros ->. inversion HW.
  - apply W_alpha in HW. revert HW. apply allc_impl. vm_compute. reflexivity.
Qed.

Lemma is_py_bind {A B} (r : result A) (f : A -> result B) :
  is_py r = false -> (forall a, r = Ok a -> is_py (f a) = false) -> is_py (bind r f) = false.
Proof. destruct r; simpl; auto. Qed.

Theorem integer_py_iff s :
  is_py (integer_from_mcnp s) = true <->
  s = [] \/ exists t d, horiz_from_mcnp s = None /\ lead_one (fortran s) = Ok t /\ to_dec t = Some d /\
                        (forall neg c e, d <> Fin neg c e).
Proof.
  split.
  - intros H. destruct s as [|c s]; [now left|]. right. unfold integer_from_mcnp in H.
    destruct (horiz_from_mcnp (c :: s)); [discriminate|].
    destruct (lead_one_ok (fortran (c :: s))) as (t & E). { apply fortran_nonempty. discriminate. }
    rewrite E in H. cbn [bind] in H. destruct (to_dec t) as [d|] eqn:ED; [|discriminate].
    exists t, d. repeat split; auto. intros neg n e ->. discriminate.
  - intros [->|(t & d & H1 & H2 & H3 & H4)].
    + vm_compute. reflexivity.
    + unfold integer_from_mcnp. rewrite H1, H2. cbn [bind]. rewrite H3.
      destruct d; try reflexivity. now edestruct H4.
Qed.


(** * Distribution (C07) *)

Definition r_d3 : re :=
  RAlt (RSet cs_dig) (RAlt (RCat (RSet cs_dig) (RSet cs_dig)) (RCat (RSet cs_dig) (RCat (RSet cs_dig) (RSet cs_dig)))).
Lemma re_distribution_eq : re_distribution =
  RAlt (RCat RBeg (RCat (RSet (cs [(100,100);(68,68)]%N)) (RGrp 1 r_d3)))
       (RCat (RSet (cs [(48,48)]%N)) REnd).
Proof. vm_compute. reflexivity. Qed.

Lemma one_digit c : is_digit c = true -> N_of_digits [c] = digit_val c /\ (digit_val c <= 9)%N.
Proof.
  intros H. unfold N_of_digits. simpl. split.
  - destruct (digit_val c); reflexivity.
  - unfold digit_val, is_digit in *. apply andb_prop in H as [_ H]. apply N.leb_le in H. lia.
Qed.

Lemma str_of_digit c : is_digit c = true -> str_of_N (digit_val c) = [c].
Proof.
  intros H.
  pose proof (all_ascii (fun c => implb (is_digit c) (seqb (str_of_N (digit_val c)) [c])) eq_refl c) as A.
  cbv beta in A. rewrite H in A. cbn [implb] in A. revert A. generalize (str_of_N (digit_val c)).
  intros [|x [|y l]]; cbn [seqb]; try discriminate.
  - rewrite andb_true_r. unfold ceqb. intros E. apply Ascii.eqb_eq in E. now subst.
  - rewrite andb_false_r. discriminate.
Qed.

Lemma integer_digits ds : digits ds -> ds <> [] -> dec_ok (N_of_digits ds) 0 = true ->
  integer_from_mcnp ds = Ok (IVal (Z.of_N (N_of_digits ds))).
Proof.
  intros D N OK. unfold integer_from_mcnp. rewrite horiz_reject by now apply digits_fchar.
  rewrite fortran_id; [|now apply adj_digits_all|now apply numchar_nodD, digits_numchar].
  rewrite lead_one_num; auto; [|now apply digits_numchar]. cbn [bind].
  unfold to_dec. rewrite to_dec_clean by now apply digits_numchar.
  assert (E : match ds return bool * list ascii with
              | "-" :: u => (true, u) | "+" :: u => (false, u) | _ => @pair bool (list ascii) false ds
              end = (false, ds)).
  { destruct ds as [|c ds]; [congruence|]. inversion D as [|? ? Hc]; subst.
    destruct c as [[] [] [] [] [] [] [] []]; try reflexivity; discriminate. }
  cbv zeta. rewrite E. unfold parse_unsigned. rewrite span_digits_all by assumption.
  cbv beta iota. rewrite app_nil_r. destruct ds as [|c ds]; [congruence|].
  cbn [parse_exp length Z.of_nat]. rewrite Z.sub_0_r, OK.
  cbn [dec_to_int bind Z.leb Z.compare]. rewrite Z.mul_1_r. reflexivity.
Qed.

(** Reading [d] followed by digits keeps the first digit only. *)
Lemma distribution_read c t :
  is_digit c = true -> distribution_from_mcnp ("d" :: c :: t) = Ok (IVal (Z.of_N (digit_val c))).
Proof.
  intros H. unfold distribution_from_mcnp, re_match, match_at.
  rewrite re_distribution_eq. cbn [m rest pre].
  change (inset (cs [(100,100);(68,68)]%N) "d") with true. cbv iota.
  cbn [m r_d3 rest pre caps]. rewrite inset_dig, H.
  pose proof (firstn_consumed ["d"; c] t) as F. cbn [app] in F.
  pose proof (fun p cp p' cp' => addcap_app 1 p [c] t cp p' cp') as AG. cbn [app] in AG. rewrite AG.
  cbn [rest caps truthy group lookup mcaps Nat.eqb].
  destruct (one_digit c H) as [E1 E2].
  rewrite integer_digits; [|repeat constructor; auto|discriminate|].
  - rewrite E1. cbn [bind mk_distribution].
    replace ((0 <=? Z.of_N (digit_val c)) && (Z.of_N (digit_val c) <=? 999))%Z with true; [reflexivity|].
    symmetry. apply andb_true_iff. split; apply Z.leb_le; lia.
  - rewrite E1. unfold dec_ok, ndigits. rewrite str_of_digit by assumption. reflexivity.
Qed.

Theorem distribution_rt n : (n <= 9)%N ->
  distribution_from_mcnp (distribution_to_mcnp (IVal (Z.of_N n))) = Ok (IVal (Z.of_N n)).
Proof.
  intros H. unfold distribution_to_mcnp, integer_to_mcnp.
  assert (E : exists c, str_of_Z (Z.of_N n) = [c] /\ is_digit c = true /\ digit_val c = n).
  { assert (C : In n [0;1;2;3;4;5;6;7;8;9]%N) by (simpl; lia).
    simpl in C; repeat destruct C as [<-|C]; try contradiction; eexists; repeat split. }
  destruct E as (c & -> & Hc & <-). now apply distribution_read.
Qed.

Theorem distribution_truncates n : (10 <= n)%N ->
  exists k, (k <= 9)%N /\
  distribution_from_mcnp (distribution_to_mcnp (IVal (Z.of_N n))) = Ok (IVal (Z.of_N k)).
Proof.
  intros H. unfold distribution_to_mcnp, integer_to_mcnp.
  assert (E : str_of_Z (Z.of_N n) = str_of_N n) by (destruct n; reflexivity).
  rewrite E. pose proof (str_of_N_digits n) as D. pose proof (str_of_N_nonempty n) as NE.
  destruct (str_of_N n) as [|c t]; [congruence|]. inversion D; subst.
  exists (digit_val c). split; [now apply one_digit|]. now apply distribution_read.
Qed.

(** * Zaid (C08) *)

Definition cs_S : cset := cs [(0, 8); (14, 27); (33, 132); (134, 159); (161, 255)]%N.
Definition r_S : re := RRep false 1 None (RSet cs_S).
Lemma inset_S c : inset cs_S c = negb (is_space c).
Proof.
  apply eqb_prop, (all_ascii (fun c => eqb (inset cs_S c) (negb (is_space c)))). vm_compute. reflexivity.
Qed.

Lemma allc_S u : allc (inset cs_S) u <-> nospace u.
Proof. unfold nospace, allc. split; apply Forall_impl; intros c; now rewrite inset_S. Qed.

Definition r_3d : re := RCat (RSet cs_dig) (RCat (RSet cs_dig) (RSet cs_dig)).
Definition r_zaid : re :=
  RCat (RGrp 1 (RRep false 1 (Some 3) (RSet cs_dig)))
    (RCat (RGrp 2 r_3d)
       (RRep false 0 (Some 1) (RCat (RSet (cs [(46, 46)]%N)) (RGrp 3 r_S)))).
Lemma re_zaid_eq : re_zaid = whole r_zaid.
Proof. vm_compute. reflexivity. Qed.

Lemma W_3d u c : W r_3d u c -> digits u /\ length u = 3 /\ c = [].
Proof.
  intros (a & v & ca & cv & (x & -> & Hx & ->) & (b & w & cb & cw & (y & -> & Hy & ->) & (z & -> & Hz & ->) & -> & ->) & -> & ->).
  rewrite inset_dig in *. repeat split. repeat constructor; auto.
Qed.
Lemma accc_3d u : digits u -> length u = 3 -> accc r_3d u [].
Proof.
  intros D E. destruct u as [|x [|y [|z [|]]]]; try discriminate.
  inversion D as [|? ? Hx D1]; subst. inversion D1 as [|? ? Hy D2]; subst. inversion D2 as [|? ? Hz D3]; subst.
  rewrite <- inset_dig in *.
  apply (accc_cat _ _ [x] [y; z] [] []); [now apply accc_set|].
  apply (accc_cat _ _ [y] [z] [] []); now apply accc_set.
Qed.

Lemma digit_head_split u v t t' :
  digits u -> digits v -> nodigit_head t -> nodigit_head t' -> u ++ t = v ++ t' -> u = v /\ t = t'.
Proof.
  intros A B C D E. pose proof (span_digits_app u t A C) as S1. pose proof (span_digits_app v t' B D) as S2.
  rewrite E in S1. rewrite S1 in S2. now inversion S2.
Qed.

(** Reading of the suffix part. *)
Definition suffix_text (o : option str) : str := match o with Some t => "." :: t | None => [] end.
Definition suffix_caps (o : option str) : capl := match o with Some t => [(3, t)] | None => [] end.

Lemma W_suffix u c :
  W (RRep false 0 (Some 1) (RCat (RSet (cs [(46, 46)]%N)) (RGrp 3 r_S))) u c ->
  exists o, u = suffix_text o /\ c = suffix_caps o /\
            match o with Some t => t <> [] /\ nospace t | None => True end.
Proof.
  intros H. apply W_opt in H as [[-> ->]|H]; [exists None; auto|].
  destruct H as (u1 & u2 & c1 & c2 & (x & -> & Hx & ->) & (c2' & H2 & ->) & -> & ->).
  apply W_rep_set in H2 as (A & B & _ & ->). exists (Some u2). repeat split.
  - simpl. f_equal. 
    pose proof (all_ascii (fun c => implb (inset (cs [(46, 46)]%N) c) (ceqb c ".")) eq_refl x) as Q.
    cbv beta in Q. rewrite Hx in Q. now apply Ascii.eqb_eq in Q.
  - intros ->. simpl in B. lia.
  - now apply allc_S.
Qed.
Lemma accc_suffix o : match o with Some t => t <> [] /\ nospace t | None => True end ->
  accc (RRep false 0 (Some 1) (RCat (RSet (cs [(46, 46)]%N)) (RGrp 3 r_S))) (suffix_text o) (suffix_caps o).
Proof.
  destruct o as [t|]; intros H; cbn [suffix_text suffix_caps].
  - apply accc_opt_some; [|discriminate]. apply (accc_cat _ _ ["."] t [] [(3, t)]).
    + now apply accc_set.
    + apply accc_grp. apply acc_accc, acc_plus_set; [apply allc_S|]; tauto.
  - apply accc_opt_none.
Qed.

Lemma suffix_head o : nodigit_head (suffix_text o).
Proof. destruct o; reflexivity. Qed.

Lemma suffix_inj a b : suffix_text a = suffix_text b -> a = b.
Proof. destruct a, b; cbn; congruence. Qed.

Lemma match_zaid z a o :
  digits z -> 1 <= length z <= 3 -> digits a -> length a = 3 ->
  match o with Some t => t <> [] /\ nospace t | None => True end ->
  re_match re_zaid (z ++ a ++ suffix_text o)
  = Some {| mpre := []; mtext := z ++ a ++ suffix_text o; mrest := [];
            mcaps := (suffix_caps o ++ [(2, a)]) ++ [(1, z)] |}.
Proof.
  intros Dz Lz Da La Ho. rewrite re_zaid_eq. apply match_whole; [reflexivity| |].
  - apply (accc_cat _ _ z (a ++ suffix_text o) [(1, z)] (suffix_caps o ++ [(2, a)])).
    + apply accc_grp. apply acc_accc.
      replace z with (concat (map (fun c => [c]) z)) by (clear; induction z; simpl; congruence).
      apply acc_rep; rewrite ?map_length; try lia. apply Forall_map. eapply Forall_impl; [|exact Dz].
      intros c Hc. split; [|discriminate]. apply acc_set. now rewrite inset_dig.
    + apply accc_cat; [|now apply accc_suffix]. apply accc_grp. now apply accc_3d.
  - intros c (u1 & v & c1 & cv & (c1' & H1 & ->) & (u2 & u3 & c2 & c3 & (c2' & H2 & ->) & H3 & -> & ->) & E & ->).
    apply W_rep_set in H1 as (A1 & B1 & C1 & ->). apply allc_dig in A1.
    apply W_3d in H2 as (A2 & B2 & ->). apply W_suffix in H3 as (o' & -> & -> & _).
    rewrite !app_assoc in E. apply digit_head_split in E as [E1 E2]; auto using suffix_head.
    2, 3: apply digits_app; auto.
    apply suffix_inj in E2. subst o'.
    assert (u2 = a /\ u1 = z) as [-> ->]; [|reflexivity].
    assert (EL : length (z ++ a) = length (u1 ++ u2)) by now rewrite E1.
    rewrite !app_length in EL.
    assert (length u1 = length z) by lia.
    apply app_eq_app in E1 as (l & [[-> ->]|[-> ->]]); rewrite app_length in *;
      (destruct l; [now rewrite !app_nil_r|simpl in *; lia]).
Qed.
