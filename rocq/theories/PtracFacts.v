(** Numbers in fixed-width fields: reading and writing. *)

From Coq Require Import Ascii String NArith ZArith Bool Arith List Lia.
From Coq Require Decimal DecimalN DecimalFacts.
From Verif Require Import PyStr Regex RegexParse RegexFacts RegexLang PyNum PyNumFacts Types TypesSpec TypesFacts TypesFacts2 TypesFacts3 TypesFacts4 CardsFacts2 Ptrac PtracSpec.
Import ListNotations.
Open Scope char_scope.

Definition blanks (n : nat) : str := srepeat n [sp].

Lemma lstrip_blanks n s : lstrip (blanks n ++ s) = lstrip s.
Proof. induction n; cbn; auto. Qed.
Lemma to_dec_blanks n s : to_dec (blanks n ++ s) = to_dec s.
Proof. unfold to_dec, strip. now rewrite lstrip_blanks. Qed.

Definition padchar (c : ascii) : bool := is_fchar c || ceqb c sp.
Lemma horiz_reject_pad s : allc padchar s -> horiz_from_mcnp s = None.
Proof.
  intros H. unfold horiz_from_mcnp.
  rewrite repeat_reject, insert_reject, multiply_reject, jump_reject, log_reject; auto;
    revert H; apply allc_impl; vm_compute; reflexivity.
Qed.
Lemma adj_blanks n s : adj false (blanks n ++ s) = adj false s.
Proof. induction n; cbn; auto. Qed.
Lemma padchars n s : allc is_fchar s -> allc padchar (blanks n ++ s).
Proof.
  intros H. apply allc_app. split.
  - clear. induction n; repeat constructor. auto.
  - revert H. apply allc_impl. vm_compute. reflexivity.
Qed.
Lemma nodD_pad n s : allc (fun c => negb (inset cs_dD c)) s -> allc (fun c => negb (inset cs_dD c)) (blanks n ++ s).
Proof. intros H. apply allc_app. split; auto. clear. induction n; repeat constructor. auto. Qed.
Lemma lead_one_pad n s : lead_one s = Ok s -> lead_one (blanks n ++ s) = Ok (blanks n ++ s).
Proof. destruct n; auto. Qed.

(** A padded number is read as the number. *)
Record number_text (s : str) : Prop := {
  nt_f : allc is_fchar s;
  nt_a : adj false s = true;
  nt_d : allc (fun c => negb (inset cs_dD c)) s;
  nt_l : lead_one s = Ok s }.
Lemma real_pad n s d : number_text s -> to_dec s = Some d -> real_from_mcnp (blanks n ++ s) = Ok (RVal d).
Proof.
  intros [F A D LO] HD. unfold real_from_mcnp. rewrite horiz_reject_pad by now apply padchars.
  rewrite fortran_id; [|now rewrite adj_blanks|now apply nodD_pad].
  rewrite lead_one_pad by auto. cbn [bind]. now rewrite to_dec_blanks, HD.
Qed.
Lemma integer_pad n s d z : number_text s -> to_dec s = Some d -> dec_to_int d = Ok z ->
  integer_from_mcnp (blanks n ++ s) = Ok (IVal z).
Proof.
  intros [F A D LO] HD HZ. unfold integer_from_mcnp. rewrite horiz_reject_pad by now apply padchars.
  rewrite fortran_id; [|now rewrite adj_blanks|now apply nodD_pad].
  rewrite lead_one_pad by auto. cbn [bind]. now rewrite to_dec_blanks, HD, HZ.
Qed.

Lemma number_text_dec neg c e : number_text (dec_str (Fin neg c e)).
Proof.
  constructor.
  - apply numchar_fchar, dec_str_numchars.
  - apply dec_str_adj.
  - apply numchar_nodD, dec_str_numchars.
  - apply lead_one_num; [apply dec_str_numchars|apply dec_str_nonempty].
Qed.

Lemma rjust_blanks w s : rjust w s = blanks (w - length s) ++ s.
Proof. reflexivity. Qed.

Lemma abs_len z : length (str_of_N (Z.abs_N z)) <= length (str_of_Z z).
Proof. unfold str_of_Z. destruct z; cbn; lia. Qed.
Lemma fits_ok w z : fits w z -> w <= 1000 -> dec_ok (Z.abs_N z) 0 = true.
Proof.
  unfold fits. intros H HW. pose proof (abs_len z). unfold dec_ok, ndigits.
  apply andb_true_intro. split; [reflexivity|]. apply Z.leb_le. unfold MAX_EMAX. lia.
Qed.

Lemma int_field_real w z : fits w z -> w <= 1000 ->
  real_from_mcnp (int_field w z) = Ok (RVal (Fin (z <? 0)%Z (Z.abs_N z) 0)).
Proof.
  intros H HW. unfold int_field. rewrite rjust_blanks, str_of_Z_dec. apply real_pad; [apply number_text_dec|].
  apply to_dec_str. eapply fits_ok; eauto.
Qed.
Lemma int_field_int w z : fits w z -> w <= 1000 -> integer_from_mcnp (int_field w z) = Ok (IVal z).
Proof.
  intros H HW. unfold int_field. rewrite rjust_blanks, str_of_Z_dec.
  eapply integer_pad; [apply number_text_dec|apply to_dec_str; eapply fits_ok; eauto|apply dec_to_int_exact].
Qed.
Lemma int_field_value w k z : fits w z -> w <= 1000 -> fval_from_mcnp k (int_field w z) = Ok (int_value k z).
Proof.
  intros H HW. unfold fval_from_mcnp, int_value. destruct k.
  - now rewrite int_field_real.
  - now rewrite int_field_int.
Qed.
Lemma int_value_str k z : fval_str (int_value k z) = str_of_Z z.
Proof. unfold int_value. destruct k; cbn; auto. now rewrite str_of_Z_dec. Qed.

Lemma rjust_length w s : length s <= w -> length (rjust w s) = w.
Proof. intros H. rewrite rjust_blanks, app_length. unfold blanks. rewrite srepeat_length. cbn. lia. Qed.
Lemma int_field_length w z : fits w z -> length (int_field w z) = w.
Proof. apply rjust_length. Qed.

Definition notnl (c : ascii) : bool := negb (ceqb c nl).
Lemma numchar_notnl s : allc is_numchar s -> allc notnl s.
Proof. apply allc_impl. vm_compute. reflexivity. Qed.
Lemma blanks_notnl n : allc notnl (blanks n).
Proof. induction n; repeat constructor. auto. Qed.
Lemma rjust_notnl w s : allc notnl s -> allc notnl (rjust w s).
Proof. intros H. rewrite rjust_blanks. apply allc_app. split; auto. apply blanks_notnl. Qed.
Lemma int_field_notnl w z : allc notnl (int_field w z).
Proof. apply rjust_notnl. apply numchar_notnl, str_of_Z_numchars. Qed.

(** ** Digits of a given number *)

Lemma N_of_digits_cons c s : N_of_digits (c :: s) = (digit_val c * 10 ^ N.of_nat (length s) + N_of_digits s)%N.
Proof.
  unfold N_of_digits. cbn [fold_left]. rewrite N.mul_0_r, N.add_0_l.
  generalize (digit_val c) as a. induction s as [|x s IH] using rev_ind; intros a.
  - cbn. lia.
  - rewrite !fold_left_app. cbn [fold_left]. rewrite IH, app_length. cbn [length].
    replace (N.of_nat (length s + 1)) with (N.succ (N.of_nat (length s))) by lia. rewrite N.pow_succ_r'. lia.
Qed.
Lemma str_of_N_head n : n <> 0%N -> exists c s, str_of_N n = c :: s /\ (1 <= digit_val c)%N.
Proof.
  intros H. unfold str_of_N.
  pose proof (DecimalN.Unsigned.to_of (N.to_uint n)) as E. rewrite DecimalN.Unsigned.of_to in E.
  unfold Decimal.unorm in E. pose proof (DecimalFacts.nzhead_nonzero (N.to_uint n)) as NZ.
  destruct (Decimal.nzhead (N.to_uint n)) as [|u|u|u|u|u|u|u|u|u|u] eqn:EN.
  - exfalso. apply H. rewrite <- (DecimalN.Unsigned.of_to n), E. reflexivity.
  - exfalso. eapply NZ. reflexivity.
  - rewrite E. cbn [str_of_uint]. eexists _, _. split; [reflexivity|]. now vm_compute.
  - rewrite E. cbn [str_of_uint]. eexists _, _. split; [reflexivity|]. now vm_compute.
  - rewrite E. cbn [str_of_uint]. eexists _, _. split; [reflexivity|]. now vm_compute.
  - rewrite E. cbn [str_of_uint]. eexists _, _. split; [reflexivity|]. now vm_compute.
  - rewrite E. cbn [str_of_uint]. eexists _, _. split; [reflexivity|]. now vm_compute.
  - rewrite E. cbn [str_of_uint]. eexists _, _. split; [reflexivity|]. now vm_compute.
  - rewrite E. cbn [str_of_uint]. eexists _, _. split; [reflexivity|]. now vm_compute.
  - rewrite E. cbn [str_of_uint]. eexists _, _. split; [reflexivity|]. now vm_compute.
  - rewrite E. cbn [str_of_uint]. eexists _, _. split; [reflexivity|]. now vm_compute.
Qed.
Lemma str_of_N_length n k : (1 <= k)%nat -> (10 ^ (N.of_nat k - 1) <= n < 10 ^ N.of_nat k)%N -> length (str_of_N n) = k.
Proof.
  intros HK [A B]. assert (n <> 0%N).
  { intros ->. pose proof (N.pow_nonzero 10 (N.of_nat k - 1)). lia. }
  destruct (str_of_N_head n) as (c & s & E & HC); auto.
  pose proof (N_of_str_of_N n) as V. pose proof (str_of_N_digits n) as D. rewrite E in *.
  pose proof (N_of_digits_lt _ D) as U. rewrite V in U. rewrite N_of_digits_cons in V. cbn [length] in *.
  assert (P1 : (10 ^ N.of_nat (length s) <= n)%N) by nia.
  assert (P2 : (N.of_nat (length s) < N.of_nat k)%N) by (apply (N.pow_lt_mono_r_iff 10); lia).
  assert (P3 : (N.of_nat k - 1 < N.of_nat (S (length s)))%N) by (apply (N.pow_lt_mono_r_iff 10); lia).
  lia.
Qed.

(** ** Numbers in scientific notation *)

Lemma digits_field_digits n m : digits (digits_field n m).
Proof. unfold digits_field, zpad. apply digits_app. split; [apply srepeat_digits|apply str_of_N_digits]. Qed.
Lemma digits_field_value n m : N_of_digits (digits_field n m) = m.
Proof. unfold digits_field, zpad. now rewrite N_of_digits_zeros, N_of_str_of_N. Qed.
Lemma digits_field_length n x : (1 <= n)%nat -> normal n x -> length (digits_field n (mant x)) = n.
Proof.
  intros HN [[R _]|[-> _]].
  - unfold digits_field, zpad. rewrite app_length, srepeat_length, (str_of_N_length _ n) by auto. cbn. lia.
  - unfold digits_field, zpad. rewrite app_length, srepeat_length. cbn. lia.
Qed.

Definition exps : list Z := map (fun n => (Z.of_nat n - 99)%Z) (seq 0 199).
Lemma exps_in e : (-99 <= e <= 99)%Z -> In e exps.
Proof. intros H. apply in_map_iff. exists (Z.to_nat (e + 99)). split; [lia|]. apply in_seq. lia. Qed.
Lemma normal_exp n x : normal n x -> (-99 <= expo x <= 99)%Z.
Proof. intros [[_ H]|[_ ->]]; lia. Qed.
Lemma exp_field_fmt e : (-99 <= e <= 99)%Z -> fmt_plus03 e = exp_field e.
Proof.
  intros H. apply exps_in in H.
  assert (A : forallb (fun e => seqb (fmt_plus03 e) (exp_field e)) exps = true) by (vm_compute; reflexivity).
  rewrite forallb_forall in A. apply A in H. now apply seqb_eq in H.
Qed.
Definition exp_digits (e : Z) : str := let n := Z.abs_N e in [digit (n / 10); digit (n mod 10)].
Lemma exp_field_split e : exp_field e = exp_sign (Some (e <? 0)%Z) ++ exp_digits e.
Proof. unfold exp_field, exp_digits. destruct (e <? 0)%Z; reflexivity. Qed.
Lemma exp_digits_ok e : (-99 <= e <= 99)%Z -> digits (exp_digits e) /\ N_of_digits (exp_digits e) = Z.abs_N e.
Proof.
  intros H. apply exps_in in H.
  assert (A : forallb (fun e => forallb is_digit (exp_digits e) && (N_of_digits (exp_digits e) =? Z.abs_N e)%N)%bool exps = true) by (vm_compute; reflexivity).
  rewrite forallb_forall in A. apply A in H. apply andb_prop in H as [A1 A2]. split.
  - apply Forall_forall. rewrite forallb_forall in A1. auto.
  - now apply N.eqb_eq.
Qed.

Definition sgn (b : bool) : option bool := if b then Some true else None.
Definition sci_body (neg : bool) (ip fp : str) (e : Z) : str :=
  mant_text (sgn neg) ip true fp ++ "E" :: exp_field e.

Lemma number_text_sci neg ip fp e : (-99 <= e <= 99)%Z -> digits ip -> digits fp -> ip <> [] ->
  number_text (sci_body neg ip fp e).
Proof.
  intros HE Di Df NI. destruct (exp_digits_ok e HE) as [De _].
  unfold sci_body. rewrite exp_field_split. constructor.
  - apply allc_app; split; [apply numchar_fchar, mant_numchars; auto|].
    constructor; [reflexivity|]. apply allc_app; split; [destruct (e <? 0)%Z; repeat constructor|now apply digits_fchar].
  - assert (T : forall b, adj b ("E" :: exp_sign (Some (e <? 0)%Z) ++ exp_digits e) = true).
    { intros b. cbn [adj]. change (inset cs_sign "E") with false. rewrite andb_false_r. cbn [negb andb].
      destruct (e <? 0)%Z; cbn [exp_sign app adj andb negb]; apply adj_digits_all; auto. }
    assert (T2 : forall b, adj b ("." :: fp ++ "E" :: exp_sign (Some (e <? 0)%Z) ++ exp_digits e) = true).
    { intros b. cbn [adj]. change (inset cs_sign ".") with false. rewrite andb_false_r. cbn [negb andb].
      rewrite adj_digits by auto. destruct fp; apply T. }
    assert (T3 : forall b, adj b (ip ++ "." :: fp ++ "E" :: exp_sign (Some (e <? 0)%Z) ++ exp_digits e) = true).
    { intros b. rewrite adj_digits by auto. destruct ip; apply T2. }
    unfold mant_text. destruct neg; cbn [sgn app]; rewrite <- app_assoc; cbn [app adj andb negb]; apply T3.
  - apply allc_app; split; [apply numchar_nodD, mant_numchars; auto|].
    constructor; [reflexivity|]. apply allc_app; split; [destruct (e <? 0)%Z; repeat constructor|].
    apply numchar_nodD. now apply digits_numchar.
  - apply lead_one_mant; auto; [destruct ip; [congruence|discriminate]|discriminate].
Qed.

Lemma real_sci n neg ip fp e : (-99 <= e <= 99)%Z -> digits ip -> digits fp -> ip <> [] ->
  length (ip ++ fp) <= 100 ->
  real_from_mcnp (blanks n ++ sci_body neg ip fp e)
  = Ok (RVal (Fin neg (N_of_digits (ip ++ fp)) (e - Z.of_nat (length fp)))).
Proof.
  intros HE Di Df NI HL. apply real_pad; [now apply number_text_sci|].
  destruct (exp_digits_ok e HE) as [De Ve].
  unfold sci_body. rewrite exp_field_split, to_dec_mant; auto;
    [|discriminate|destruct ip; [congruence|discriminate]|discriminate].
  unfold denotes. rewrite Ve.
  assert (EE : (if is_neg (Some (e <? 0)%Z) then (- Z.of_N (Z.abs_N e))%Z else Z.of_N (Z.abs_N e)) = e).
  { cbn [is_neg]. destruct (Z.ltb_spec e 0); lia. }
  rewrite EE.
  assert (OK : dec_ok (N_of_digits (ip ++ fp)) (e - Z.of_nat (length fp)) = true).
  { assert (D : digits (ip ++ fp)) by (apply digits_app; auto).
    pose proof (N_of_digits_lt _ D) as U. rewrite app_length in *.
    assert (LN : ndigits (N_of_digits (ip ++ fp)) <= 101).
    { unfold ndigits. set (v := N_of_digits (ip ++ fp)) in *. destruct (N.eq_dec v 0) as [->|NV]; [cbn; lia|].
      destruct (str_of_N_head v NV) as (c & s & ES & HC). rewrite ES. cbn [length].
      pose proof (N_of_str_of_N v) as V. rewrite ES, N_of_digits_cons in V.
      assert (P1 : (10 ^ N.of_nat (length s) <= v)%N) by nia.
      assert (P2 : (N.of_nat (length s) < N.of_nat (length ip + length fp))%N) by (apply (N.pow_lt_mono_r_iff 10); lia).
      lia. }
    unfold dec_ok. apply andb_true_intro. split; apply Z.leb_le; unfold MIN_ETINY, MAX_EMAX; lia. }
  rewrite OK. destruct neg; reflexivity.
Qed.

Lemma E_field_body d x : E_field d x = blanks (if sneg x then 1 else 2) ++ sci_body (sneg x) (L "0") (digits_field d (mant x)) (expo x).
Proof. unfold E_field, sci_body, mant_text. destruct (sneg x); reflexivity. Qed.
Lemma P_field_body d x : P_field d x = blanks (if sneg x then 1 else 2) ++
  sci_body (sneg x) (firstn 1 (digits_field (S d) (mant x))) (skipn 1 (digits_field (S d) (mant x))) (expo x).
Proof.
  unfold P_field, sci_body, mant_text. destruct (sneg x); cbn [sgn blanks srepeat app]; now rewrite <- ?app_assoc.
Qed.

Lemma E_field_real d x : (1 <= d <= 90)%nat -> normal d x -> real_from_mcnp (E_field d x) = Ok (sci_value d x).
Proof.
  intros Hd N. pose proof (digits_field_length d x ltac:(lia) N) as LD. rewrite E_field_body, real_sci.
  - unfold sci_value. cbn [L list_ascii_of_string app]. now rewrite N_of_digits_0, digits_field_value, LD.
  - eapply normal_exp; eauto.
  - repeat constructor.
  - apply digits_field_digits.
  - discriminate.
  - rewrite app_length, LD. cbn. lia.
Qed.
Lemma P_field_real d x : (d <= 90)%nat -> normal (S d) x -> real_from_mcnp (P_field d x) = Ok (sci_value d x).
Proof.
  intros Hd N. pose proof (digits_field_length (S d) x ltac:(lia) N) as LD.
  pose proof (digits_field_digits (S d) (mant x)) as DD.
  rewrite <- (firstn_skipn 1 (digits_field (S d) (mant x))) in DD. apply digits_app in DD as [D1 D2].
  rewrite P_field_body, real_sci; auto.
  - unfold sci_value. rewrite firstn_skipn, digits_field_value, skipn_length, LD. do 4 f_equal. lia.
  - eapply normal_exp; eauto.
  - destruct (digits_field (S d) (mant x)); discriminate.
  - rewrite firstn_skipn, LD. lia.
Qed.

Lemma seqb_neq_len a b : length a <> length b -> seqb a b = false.
Proof. intros H. destruct (seqb a b) eqn:E; auto. apply seqb_eq in E. congruence. Qed.
Lemma zpad_full n s : length s = n -> zpad n s = s.
Proof. intros <-. unfold zpad. now rewrite Nat.sub_diag. Qed.

Lemma E_format d x : (2 <= d)%nat -> normal d x -> real_format d 1 (sci_value d x) = Ok (tl (E_field d x)).
Proof.
  intros Hd N. unfold real_format, sci_value. unfold ndigits.
  destruct N as [[R HE]|[M0 E0]].
  - assert (LN : length (str_of_N (mant x)) = d) by (apply str_of_N_length; auto; lia). rewrite LN.
    rewrite firstn_all2 by lia. rewrite seqb_neq_len by (rewrite LN; cbn; lia).
    rewrite exp_field_fmt by lia. unfold E_field. cbn [tl]. unfold digits_field. rewrite zpad_full by auto.
    replace (expo x - Z.of_nat d + Z.of_nat d - 1 + Z.of_nat 1)%Z with (expo x) by lia.
    destruct (sneg x); reflexivity.
  - unfold E_field. rewrite M0, E0. cbn [tl]. change (str_of_N 0) with (L "0").
    destruct d as [|d]; [lia|]. replace (S d - 1 + 1) with (S d) by lia. 
    replace (digits_field (S d) 0) with (srepeat (S d) (L "0")).
    + destruct (sneg x); cbn [firstn L list_ascii_of_string]; rewrite firstn_nil; reflexivity.
    + unfold digits_field, zpad. change (str_of_N 0) with (L "0"). cbn [L list_ascii_of_string length].
      replace (S d - 1) with d by lia. clear. induction d; cbn in *; congruence.
Qed.
Lemma P_format d x : (1 <= d)%nat -> normal (S d) x -> real_format d 0 (sci_value d x) = Ok (tl (P_field d x)).
Proof.
  intros Hd N. unfold real_format, sci_value. unfold ndigits.
  destruct N as [[R HE]|[M0 E0]].
  - assert (LN : length (str_of_N (mant x)) = S d) by (apply str_of_N_length; auto; lia). rewrite LN.
    rewrite firstn_all2 by lia. rewrite seqb_neq_len by (rewrite LN; cbn; lia).
    unfold P_field. cbn [tl]. unfold digits_field. rewrite zpad_full by auto.
    replace (expo x - Z.of_nat d + Z.of_nat (S d) - 1 + Z.of_nat 0)%Z with (expo x) by lia.
    rewrite exp_field_fmt by lia.
    destruct (sneg x); reflexivity.
  - unfold P_field. rewrite M0, E0. cbn [tl]. change (str_of_N 0) with (L "0").
    replace (d - 0 + 1) with (S d) by lia. 
    replace (digits_field (S d) 0) with (srepeat (S d) (L "0")).
    + destruct (sneg x); cbn [firstn L list_ascii_of_string]; rewrite firstn_nil; reflexivity.
    + unfold digits_field, zpad. change (str_of_N 0) with (L "0"). cbn [L list_ascii_of_string length].
      replace (S d - 1) with d by lia. clear. induction d; cbn in *; congruence.
Qed.

Lemma sci_body_chars neg ip fp e : (-99 <= e <= 99)%Z -> digits ip -> digits fp -> allc is_numchar (sci_body neg ip fp e).
Proof.
  intros HE Di Df. destruct (exp_digits_ok e HE) as [De _]. unfold sci_body. rewrite exp_field_split.
  apply allc_app; split; [now apply mant_numchars|]. constructor; [reflexivity|].
  apply allc_app; split; [destruct (e <? 0)%Z; repeat constructor|now apply digits_numchar].
Qed.
Lemma exp_field_length e : length (exp_field e) = 3.
Proof. reflexivity. Qed.
Lemma E_field_length d x : (1 <= d)%nat -> normal d x -> length (E_field d x) = d + 8.
Proof.
  intros Hd N. unfold E_field. cbn [length]. rewrite !app_length, (digits_field_length d x) by auto. cbn [length].
  rewrite exp_field_length. cbn. lia.
Qed.
Lemma P_field_length d x : normal (S d) x -> length (P_field d x) = d + 8.
Proof.
  intros N. unfold P_field. cbn [length]. rewrite app_length, firstn_length. cbn [length].
  rewrite app_length, skipn_length, (digits_field_length (S d) x) by (auto; lia). cbn [length].
  rewrite exp_field_length. lia.
Qed.
Lemma E_field_notnl d x : normal d x -> allc notnl (E_field d x).
Proof.
  intros N. rewrite E_field_body. apply allc_app; split; [apply blanks_notnl|].
  apply numchar_notnl, sci_body_chars; [eapply normal_exp; eauto|repeat constructor|apply digits_field_digits].
Qed.
Lemma P_field_chars d x : normal (S d) x -> exists n w, P_field d x = blanks (S n) ++ w /\ plain_number w /\ P_field d x = sp :: tl (P_field d x).
Proof.
  intros N. pose proof (digits_field_digits (S d) (mant x)) as DD.
  pose proof (digits_field_length (S d) x ltac:(lia) N) as LD.
  exists (if sneg x then 0 else 1), (sci_body (sneg x) (firstn 1 (digits_field (S d) (mant x))) (skipn 1 (digits_field (S d) (mant x))) (expo x)).
  split; [rewrite P_field_body; destruct (sneg x); reflexivity|]. split; [|reflexivity].
  destruct (digits_field (S d) (mant x)) as [|c ds]; [discriminate|]. inversion DD; subst.
  assert (A : allc is_numchar (sci_body (sneg x) [c] ds (expo x))).
  { apply sci_body_chars; auto; [eapply normal_exp; eauto|repeat constructor; auto]. }
  cbn [firstn skipn]. unfold sci_body, mant_text in *. destruct (sneg x); cbn [sgn app] in *.
  - eexists "-", _. split; [reflexivity|]. split; [reflexivity|]. now inversion A.
  - eexists c, _. split; [reflexivity|]. split; [now rewrite H1|]. now inversion A.
Qed.
Lemma P_field_notnl d x : normal (S d) x -> allc notnl (P_field d x).
Proof.
  intros N. destruct (P_field_chars d x N) as (n & w & -> & (c & w' & -> & Hc & A) & _).
  apply allc_app; split; [apply blanks_notnl|]. constructor; [|now apply numchar_notnl].
  pose proof (all_ascii (fun c => implb (is_digit c || ceqb c "-") (notnl c)) eq_refl c) as Q. cbv beta in Q.
  now rewrite Hc in Q.
Qed.
