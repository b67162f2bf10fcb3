(** Facts about integer and decimal texts. *)

From Coq Require Import Decimal DecimalN Ascii String NArith ZArith Bool Arith Lia List.
From Coq Require DecimalPos.
From Verif Require Import PyStr PyNum Regex RegexFacts.
Import ListNotations.
Open Scope char_scope.

Definition digits (s : str) : Prop := allc is_digit s.

Lemma digits_app a b : digits (a ++ b) <-> digits a /\ digits b.
Proof. apply allc_app. Qed.

Lemma str_of_uint_digits d : digits (str_of_uint d).
Proof. induction d; constructor; auto. Qed.

Lemma str_of_N_digits n : digits (str_of_N n).
Proof. apply str_of_uint_digits. Qed.

Lemma fold_digits_acc d a :
  fold_left (fun a c => 10 * a + digit_val c)%N (str_of_uint d) a
  = match a with N0 => N.of_uint d | Npos p => Npos (Pos.of_uint_acc d p) end.
Proof.
  revert a; induction d; intros a; simpl str_of_uint; cbn [fold_left]; try rewrite IHd.
  - destruct a; reflexivity.
  - destruct a; reflexivity.
  - rewrite N.add_comm; destruct a; reflexivity.
  - rewrite N.add_comm; destruct a; reflexivity.
  - rewrite N.add_comm; destruct a; reflexivity.
  - rewrite N.add_comm; destruct a; reflexivity.
  - rewrite N.add_comm; destruct a; reflexivity.
  - rewrite N.add_comm; destruct a; reflexivity.
  - rewrite N.add_comm; destruct a; reflexivity.
  - rewrite N.add_comm; destruct a; reflexivity.
  - rewrite N.add_comm; destruct a; reflexivity.
Qed.

Lemma N_of_str_of_N n : N_of_digits (str_of_N n) = n.
Proof.
  unfold N_of_digits, str_of_N. rewrite fold_digits_acc. apply DecimalN.Unsigned.of_to.
Qed.

Lemma str_of_N_nonempty n : str_of_N n <> [].
Proof.
  unfold str_of_N. intros H.
  destruct n; [discriminate|]. simpl in H.
  pose proof (DecimalPos.Unsigned.to_uint_nonnil p) as H0.
  destruct (Pos.to_uint p); try discriminate. congruence.
Qed.

Lemma str_of_N_inj a b : str_of_N a = str_of_N b -> a = b.
Proof. intros H. rewrite <- (N_of_str_of_N a), <- (N_of_str_of_N b), H. reflexivity. Qed.

(** Leading zeros do not change the value. *)
Lemma N_of_digits_zeros k s : N_of_digits (srepeat k ["0"] ++ s) = N_of_digits s.
Proof. induction k; simpl; auto. Qed.

Lemma N_of_digits_0 s : N_of_digits ("0" :: s) = N_of_digits s.
Proof. reflexivity. Qed.

Lemma srepeat_length k s : length (srepeat k s) = k * length s.
Proof. induction k; simpl; auto. rewrite app_length, IHk. lia. Qed.

Lemma srepeat_digits k : digits (srepeat k ["0"]).
Proof. induction k; simpl; constructor; auto. Qed.

Definition nodigit_head (t : str) : Prop := match t with c :: _ => is_digit c = false | [] => True end.

Lemma span_digits_app d t :
  digits d -> nodigit_head t -> span_digits (d ++ t) = (d, t).
Proof.
  induction 1 as [|c d H HD IH]; intros Ht; simpl.
  - destruct t as [|x t]; simpl in *; [reflexivity|]. now rewrite Ht.
  - rewrite H, IH; auto.
Qed.

Lemma span_digits_all d : digits d -> span_digits d = (d, []).
Proof. intros H. rewrite <- (app_nil_r d) at 1. apply span_digits_app; simpl; auto. Qed.

(** Reading a printed exponent. *)
Lemma parse_exp_printed z :
  parse_exp ("E" :: (if (z <? 0)%Z then "-" else "+") :: str_of_N (Z.abs_N z)) = Some z.
Proof.
  unfold parse_exp. cbn [lower].
  replace (ceqb (lower "E") "e") with true by reflexivity.
  pose proof (str_of_N_digits (Z.abs_N z)) as HD.
  pose proof (str_of_N_nonempty (Z.abs_N z)) as HN.
  destruct (z <? 0)%Z eqn:E.
  - apply Z.ltb_lt in E. rewrite span_digits_all by auto.
    destruct (str_of_N (Z.abs_N z)) eqn:ES; [congruence|]. rewrite <- ES.
    rewrite N_of_str_of_N. f_equal. lia.
  - apply Z.ltb_ge in E. rewrite span_digits_all by auto.
    destruct (str_of_N (Z.abs_N z)) eqn:ES; [congruence|]. rewrite <- ES.
    rewrite N_of_str_of_N. f_equal. lia.
Qed.

(** Reading unsigned text of the printed shape. *)
Lemma parse_unsigned_shape neg ip fp ep e :
  digits ip -> digits fp -> ip <> [] ->
  parse_exp ep = Some e -> nodigit_head ep -> (match ep with "." :: _ => False | _ => True end) ->
  dec_ok (N_of_digits (ip ++ fp)) (e - Z.of_nat (length fp)) = true ->
  parse_unsigned neg (ip ++ (match fp with [] => [] | _ => "." :: fp end) ++ ep)
  = Some (Fin neg (N_of_digits (ip ++ fp)) (e - Z.of_nat (length fp))).
Proof.
  intros Hi Hf Hn He Hd Hdot Hok. unfold parse_unsigned.
  destruct fp as [|c fp].
  - simpl app. rewrite span_digits_app by auto.
    assert (E : (match ep with "." :: u => span_digits u | _ => ([], ep) end) = ([], ep)).
    { destruct ep as [|c ep]; auto. destruct c as [[] [] [] [] [] [] [] []]; auto. now exfalso. }
    rewrite E. rewrite app_nil_r in *. destruct ip as [|x ip]; [congruence|].
    rewrite He, Hok. reflexivity.
  - rewrite <- app_comm_cons, span_digits_app by (simpl; auto).
    rewrite span_digits_app by auto.
    destruct (ip ++ c :: fp) as [|x y] eqn:EE; [destruct ip; discriminate|].
    rewrite He, Hok. reflexivity.
Qed.

Lemma dec_str_ne_minus ds t : digits ds -> ds <> [] ->
  match ds ++ t with
  | "-" :: u => (true, u)
  | "+" :: u => (false, u)
  | _ => (false, ds ++ t)
  end = (false, ds ++ t).
Proof.
  intros H N. destruct ds as [|c ds]; [congruence|]. inversion H; subst.
  simpl. destruct c as [[] [] [] [] [] [] [] []]; try reflexivity; discriminate.
Qed.

Lemma firstn_skipn_N k c :
  N_of_digits (firstn k (str_of_N c) ++ skipn k (str_of_N c)) = c.
Proof. rewrite firstn_skipn. apply N_of_str_of_N. Qed.

(** The pieces of [dec_str]. *)
Lemma dec_str_shape neg c e :
  exists ip fp ep ex,
    dec_str (Fin neg c e)
    = (if neg then ["-"] else []) ++ ip ++ (match fp with [] => [] | _ => "." :: fp end) ++ ep /\
    digits ip /\ digits fp /\ ip <> [] /\
    N_of_digits (ip ++ fp) = c /\
    (ex - Z.of_nat (length fp) = e)%Z /\
    ((ep = [] /\ ex = 0%Z) \/
     ep = "E" :: (if (ex <? 0)%Z then "-" else "+") :: str_of_N (Z.abs_N ex)).
Proof.
  unfold dec_str. set (ds := str_of_N c).
  assert (HD : digits ds) by apply str_of_N_digits.
  assert (HN : ds <> []) by apply str_of_N_nonempty.
  assert (HV : N_of_digits ds = c) by apply N_of_str_of_N.
  assert (HL : length ds > 0) by (destruct ds; [congruence|simpl; lia]).
  set (n := Z.of_nat (length ds)).
  destruct ((e <=? 0)%Z && (-6 <? e + n)%Z) eqn:C.
  - apply andb_prop in C as [C1 C2]. apply Z.leb_le in C1. apply Z.ltb_lt in C2.
    rewrite Z.eqb_refl.
    destruct (e + n <=? 0)%Z eqn:D.
    + apply Z.leb_le in D.
      exists ["0"], (srepeat (Z.to_nat (- (e + n))) ["0"] ++ ds), [], 0%Z.
      repeat split.
      * f_equal. simpl. rewrite !app_nil_r.
        destruct (srepeat (Z.to_nat (- (e + n))) ["0"] ++ ds) eqn:E; auto.
        apply app_eq_nil in E as [_ E]. congruence.
      * now repeat constructor.
      * apply digits_app; split; auto. apply srepeat_digits.
      * discriminate.
      * simpl app. rewrite N_of_digits_0, N_of_digits_zeros. exact HV.
      * rewrite app_length, srepeat_length. simpl length. lia.
      * now left.
    + apply Z.leb_gt in D. destruct (n <=? e + n)%Z eqn:F.
      * apply Z.leb_le in F. assert (e = 0)%Z by lia. subst e.
        exists ds, [], [], 0%Z. repeat split; auto.
        -- replace (0 + n - n)%Z with 0%Z by lia. simpl. now rewrite !app_nil_r.
        -- constructor.
        -- now rewrite app_nil_r.
      * apply Z.leb_gt in F.
        exists (firstn (Z.to_nat (e + n)) ds), (skipn (Z.to_nat (e + n)) ds), [], 0%Z.
        assert (LS : length (skipn (Z.to_nat (e + n)) ds) = Z.to_nat (- e)).
        { rewrite skipn_length. lia. }
        repeat split; auto.
        -- f_equal. f_equal. rewrite !app_nil_r. destruct (skipn _ ds) eqn:E; auto.
           simpl in LS. lia.
        -- rewrite <- (firstn_skipn (Z.to_nat (e + n)) ds) in HD. now apply digits_app in HD.
        -- rewrite <- (firstn_skipn (Z.to_nat (e + n)) ds) in HD. now apply digits_app in HD.
        -- intros E. apply (f_equal (@length _)) in E. rewrite firstn_length in E. simpl in E. lia.
        -- now rewrite firstn_skipn.
        -- rewrite LS. lia.
  - assert (CE : (1 <=? 0)%Z = false) by reflexivity. rewrite CE. clear CE.
    destruct (n <=? 1)%Z eqn:F.
    + apply Z.leb_le in F. assert (n = 1)%Z by lia.
      assert (NE : (e + n =? 1)%Z = (e =? 0)%Z).
      { destruct (e =? 0)%Z eqn:E0; [apply Z.eqb_eq in E0; subst e; apply Z.eqb_eq; lia|].
        apply Z.eqb_neq in E0. apply Z.eqb_neq. lia. }
      assert (e <> 0)%Z.
      { intros ->. rewrite andb_false_iff in C. destruct C as [C|C];
          [apply Z.leb_gt in C|apply Z.ltb_ge in C]; lia. }
      rewrite NE. apply Z.eqb_neq in H0. rewrite H0.
      exists ds, [], ("E" :: (if (e + n - 1 <? 0)%Z then "-" else "+") :: str_of_N (Z.abs_N (e + n - 1))), (e + n - 1)%Z.
      repeat split; auto.
      * replace (1 - n)%Z with 0%Z by lia. simpl. now rewrite app_nil_r.
      * constructor.
      * now rewrite app_nil_r.
      * simpl. lia.
    + apply Z.leb_gt in F.
      assert (NE : (e + n =? 1)%Z = false).
      { apply Z.eqb_neq. intros E. rewrite andb_false_iff in C.
        destruct C as [C|C]; [apply Z.leb_gt in C|apply Z.ltb_ge in C]; lia. }
      rewrite NE.
      exists (firstn (Z.to_nat 1) ds), (skipn (Z.to_nat 1) ds),
        ("E" :: (if (e + n - 1 <? 0)%Z then "-" else "+") :: str_of_N (Z.abs_N (e + n - 1))), (e + n - 1)%Z.
      assert (LS : length (skipn (Z.to_nat 1) ds) = Z.to_nat (n - 1)).
      { rewrite skipn_length. lia. }
      repeat split; auto.
      * f_equal. f_equal. f_equal. destruct (skipn _ ds) eqn:E; auto. simpl in LS. lia.
      * rewrite <- (firstn_skipn (Z.to_nat 1) ds) in HD. now apply digits_app in HD.
      * rewrite <- (firstn_skipn (Z.to_nat 1) ds) in HD. now apply digits_app in HD.
      * intros E. apply (f_equal (@length _)) in E. rewrite firstn_length in E.
        change (Z.to_nat 1) with 1 in E. simpl length in E. lia.
      * now rewrite firstn_skipn.
      * rewrite LS. lia.
Qed.

(** Characters of printed finite decimals. *)
Definition is_numchar (c : ascii) : bool :=
  is_digit c || ceqb c "-" || ceqb c "+" || ceqb c "." || ceqb c "E".

Lemma is_digit_numchar c : is_digit c = true -> is_numchar c = true.
Proof. unfold is_numchar. now intros ->. Qed.

Lemma digits_numchars d : digits d -> allc is_numchar d.
Proof. apply Forall_impl. apply is_digit_numchar. Qed.

Lemma dec_str_numchars neg c e : allc is_numchar (dec_str (Fin neg c e)).
Proof.
  destruct (dec_str_shape neg c e) as (ip & fp & ep & ex & -> & Hi & Hf & _ & _ & _ & He).
  apply allc_app; split; [destruct neg; repeat constructor|].
  apply allc_app; split; [now apply digits_numchars|].
  apply allc_app; split.
  - destruct fp; constructor; auto. now apply digits_numchars.
  - destruct He as [[-> _]| ->]; [constructor|]. constructor; [reflexivity|].
    constructor; [destruct (ex <? 0)%Z; reflexivity|].
    apply digits_numchars, str_of_N_digits.
Qed.

Lemma dec_str_nonempty neg c e : dec_str (Fin neg c e) <> [].
Proof.
  destruct (dec_str_shape neg c e) as (ip & fp & ep & ex & -> & Hi & Hf & Hn & _).
  intros E. apply app_eq_nil in E as [_ E]. apply app_eq_nil in E as [E _]. congruence.
Qed.

(** Whitespace and underscores do not occur. *)
Lemma numchar_not_space c : is_numchar c = true -> is_space c = false.
Proof. destruct c as [[] [] [] [] [] [] [] []]; intros H; try reflexivity; discriminate. Qed.
Lemma numchar_not_us c : is_numchar c = true -> negb (ceqb c "_") = true.
Proof. destruct c as [[] [] [] [] [] [] [] []]; intros H; try reflexivity; discriminate. Qed.

Lemma lstrip_nospace s : allc (fun c => negb (is_space c)) s -> lstrip s = s.
Proof. destruct 1 as [|c s H]; simpl; auto. destruct (is_space c); [discriminate|auto]. Qed.

Lemma allc_rev P s : allc P s -> allc P (rev s).
Proof. apply Forall_rev. Qed.

Lemma strip_nospace s : allc (fun c => negb (is_space c)) s -> strip s = s.
Proof.
  intros H. unfold strip, rstrip. rewrite (lstrip_nospace s H), lstrip_nospace.
  - apply rev_involutive.
  - now apply allc_rev.
Qed.

Lemma numchars_nospace s : allc is_numchar s -> allc (fun c => negb (is_space c)) s.
Proof. apply Forall_impl. intros c H. now rewrite numchar_not_space. Qed.

Lemma filter_all {A} (f : A -> bool) l : Forall (fun x => f x = true) l -> filter f l = l.
Proof. induction 1 as [|x l H HF IH]; simpl; auto. rewrite H. congruence. Qed.

Lemma to_dec_clean s : allc is_numchar s ->
  filter (fun c => negb (ceqb c "_")) (strip s) = s.
Proof.
  intros H. rewrite strip_nospace by now apply numchars_nospace.
  apply filter_all. eapply Forall_impl; [|exact H]. apply numchar_not_us.
Qed.

(** Writing a finite decimal and reading it back is exact. *)
Theorem to_dec_str neg c e :
  dec_ok c e = true -> to_dec (dec_str (Fin neg c e)) = Some (Fin neg c e).
Proof.
  intros Hok. unfold to_dec. rewrite to_dec_clean by apply dec_str_numchars.
  destruct (dec_str_shape neg c e) as (ip & fp & ep & ex & -> & Hi & Hf & Hn & HV & HE & Hep).
  assert (PE : parse_exp ep = Some ex).
  { destruct Hep as [[-> ->]| ->]; [reflexivity|]. apply parse_exp_printed. }
  assert (NH : nodigit_head ep).
  { destruct Hep as [[-> _]| ->]; simpl; auto. }
  assert (ND : match ep with "." :: _ => False | _ => True end).
  { destruct Hep as [[-> _]| ->]; simpl; auto. }
  pose proof (parse_unsigned_shape neg ip fp ep ex Hi Hf Hn PE NH ND) as PU.
  rewrite HV, HE in PU. specialize (PU Hok).
  destruct neg.
  - cbn [app]. cbv beta iota. now rewrite PU.
  - rewrite app_nil_l. rewrite dec_str_ne_minus by auto. now rewrite PU.
Qed.

(** Integers print like decimals with exponent 0. *)
Lemma str_of_Z_dec z :
  str_of_Z z = dec_str (Fin (z <? 0)%Z (Z.abs_N z) 0).
Proof.
  assert (H : forall b c, dec_str (Fin b c 0) = (if b then ["-"] else []) ++ str_of_N c).
  { intros b c. unfold dec_str. set (ds := str_of_N c).
    assert (HL : length ds > 0).
    { pose proof (str_of_N_nonempty c). fold ds in H. destruct ds; [congruence|simpl; lia]. }
    replace ((0 <=? 0) && (-6 <? 0 + Z.of_nat (length ds)))%Z with true.
    2:{ symmetry. apply andb_true_intro; split; [reflexivity|]. apply Z.ltb_lt. lia. }
    replace (0 + Z.of_nat (length ds) <=? 0)%Z with false.
    2:{ symmetry. apply Z.leb_gt. lia. }
    replace (Z.of_nat (length ds) <=? 0 + Z.of_nat (length ds))%Z with true.
    2:{ symmetry. apply Z.leb_le. lia. }
    replace (0 + Z.of_nat (length ds) - Z.of_nat (length ds))%Z with 0%Z by lia.
    rewrite Z.eqb_refl. simpl. now rewrite !app_nil_r. }
  rewrite H. destruct z; reflexivity.
Qed.

Lemma dec_to_int_exact z :
  dec_to_int (Fin (z <? 0)%Z (Z.abs_N z) 0) = Ok z.
Proof.
  unfold dec_to_int. simpl. f_equal. destruct (z <? 0)%Z eqn:E.
  - apply Z.ltb_lt in E. lia.
  - apply Z.ltb_ge in E. lia.
Qed.
