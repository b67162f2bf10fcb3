(** Facts about the scalar types. *)

From Coq Require Import Ascii String NArith ZArith Bool Arith Lia List.
From Verif Require Import PyStr Regex RegexParse RegexFacts RegexLang PyNum PyNumFacts Types TypesSpec.
Import ListNotations.
Open Scope char_scope.

(** * Building blocks of the patterns *)

Definition cs (l : list (N * N)) : cset := {| cneg := false; cranges := l |}.
Definition cs_dig : cset := cs [(48, 57)]%N.
Definition cs_ic (a b : N) : cset := cs [(a, a); (b, b)].

Definition r_dig : re := RRep false 1 None (RSet cs_dig).
Definition r_cnt : re := RRep false 0 (Some 1) (RGrp 1 r_dig).

Lemma inset_dig c : inset cs_dig c = is_digit c.
Proof.
  unfold inset, cs_dig, cs, in_ranges, is_digit. simpl. rewrite orb_false_r.
  now destruct (_ && _).
Qed.

Lemma allc_dig u : allc (inset cs_dig) u <-> digits u.
Proof. unfold digits, allc. split; apply Forall_impl; intros c; now rewrite inset_dig. Qed.

Lemma re_repeat_eq : re_repeat = whole (RCat r_cnt (RSet (cs_ic 114 82))).
Proof. vm_compute. reflexivity. Qed.
Lemma re_insert_eq : re_insert = whole (RCat r_cnt (RSet (cs_ic 105 73))).
Proof. vm_compute. reflexivity. Qed.
Lemma re_multiply_eq : re_multiply = whole (RCat (RGrp 1 r_dig) (RSet (cs_ic 109 77))).
Proof. vm_compute. reflexivity. Qed.
Lemma re_jump_eq : re_jump = whole (RCat r_cnt (RSet (cs_ic 106 74))).
Proof. vm_compute. reflexivity. Qed.

Definition r_log : re := RCat (RSet (cs_ic 108 76)) (RCat (RSet (cs_ic 111 79)) (RSet (cs_ic 103 71))).
Definition r_ilog : re := RCat (RSet (cs_ic 105 73)) r_log.
Lemma re_log_eq : re_log = whole (RCat r_cnt (RGrp 2 (RAlt r_log r_ilog))).
Proof. vm_compute. reflexivity. Qed.

(** * The count prefix *)

Lemma W_cnt u c : W r_cnt u c -> digits u /\ c = (match u with [] => [] | _ => [(1, u)] end).
Proof.
  intros H. apply W_opt in H as [[-> ->]|H]; [split; [constructor|reflexivity]|].
  destruct H as (c' & H & ->). apply W_rep_set in H as (A & B & _ & ->).
  apply allc_dig in A. split; auto. destruct u; [simpl in B; lia|reflexivity].
Qed.

Lemma accc_dig u : digits u -> u <> [] -> accc r_dig u [].
Proof. intros D N. apply acc_accc. apply acc_plus_set; auto. now apply allc_dig. Qed.

Lemma accc_cnt u : digits u -> accc r_cnt u (match u with [] => [] | _ => [(1, u)] end).
Proof.
  intros D. destruct u as [|a u].
  - apply accc_opt_none.
  - apply accc_opt_some; [|discriminate]. apply accc_grp. apply accc_dig; auto. discriminate.
Qed.

(** Digits followed by a digit-free text split in one way only. *)
Lemma digit_split u v t t' :
  digits u -> digits v -> allc (fun c => negb (is_digit c)) t -> allc (fun c => negb (is_digit c)) t' ->
  u ++ t = v ++ t' -> u = v /\ t = t'.
Proof.
  revert v. induction u as [|a u IH]; intros [|b v] Hu Hv Ht Ht' E; simpl in *.
  - auto.
  - exfalso. subst t. inversion Ht; inversion Hv; subst. rewrite H5 in H1. discriminate.
  - exfalso. subst t'. inversion Ht'; inversion Hu; subst. rewrite H5 in H1. discriminate.
  - inversion E; subst. inversion Hu; inversion Hv; subst.
    destruct (IH v) as [-> ->]; auto.
Qed.

Definition nodig (r : re) : bool :=
  forallb (fun n => implb (alpha r (ascii_of_nat n)) (negb (is_digit (ascii_of_nat n)))) (seq 0 256).

Lemma nodig_W r u c : nodig r = true -> W r u c -> allc (fun c => negb (is_digit c)) u.
Proof.
  intros H HW. apply W_alpha in HW. eapply Forall_impl; [|exact HW]. simpl. intros a Ha.
  apply (all_ascii (fun a => implb (alpha r a) (negb (is_digit a)))) with (c := a) in H.
  now rewrite Ha in H.
Qed.

Lemma match_cnt T ds t c :
  plain T = true -> nodig T = true ->
  accc T t c -> (forall c', W T t c' -> c' = c) -> W T t c ->
  digits ds ->
  re_match (whole (RCat r_cnt T)) (ds ++ t)
  = Some {| mpre := []; mtext := ds ++ t; mrest := [];
            mcaps := c ++ match ds with [] => [] | _ => [(1, ds)] end |}.
Proof.
  intros PL ND HA HU HW HD. apply match_whole.
  - simpl. auto.
  - apply accc_cat; auto. now apply accc_cnt.
  - intros c' (u1 & u2 & c1 & c2 & H1 & H2 & E & ->).
    apply W_cnt in H1 as [D1 ->].
    destruct (digit_split ds u1 t u2) as [<- <-]; auto.
    + eapply nodig_W; eauto.
    + eapply nodig_W; eauto.
    + f_equal. auto.
Qed.

(** * Rejection of number-like texts by the shorthand readers *)

Lemma reject_must X r s :
  plain r = true -> must X r = true -> allc (fun c => negb (inset X c)) s ->
  re_match (whole r) s = None.
Proof.
  intros PL HM HS. apply match_whole_none; auto. intros c HW.
  eapply must_W in HW; [|exact HM]. apply Exists_exists in HW as (x & I & Hx).
  unfold allc in HS. rewrite Forall_forall in HS. apply HS in I. now rewrite Hx in I.
Qed.

(** Letters that occur in every shorthand word. *)
Definition X_r := cs_ic 114 82. Definition X_i := cs_ic 105 73. Definition X_m := cs_ic 109 77.
Definition X_j := cs_ic 106 74. Definition X_g := cs_ic 103 71.

Lemma repeat_reject s : allc (fun c => negb (inset X_r c)) s -> repeat_from_mcnp s = Lib TypesError.
Proof.
  intros H. unfold repeat_from_mcnp. rewrite re_repeat_eq, (reject_must X_r); auto; vm_compute; reflexivity.
Qed.
Lemma insert_reject s : allc (fun c => negb (inset X_i c)) s -> insert_from_mcnp s = Lib TypesError.
Proof.
  intros H. unfold insert_from_mcnp. rewrite re_insert_eq, (reject_must X_i); auto; vm_compute; reflexivity.
Qed.
Lemma multiply_reject s : allc (fun c => negb (inset X_m c)) s -> multiply_from_mcnp s = Lib TypesError.
Proof.
  intros H. unfold multiply_from_mcnp. rewrite re_multiply_eq, (reject_must X_m); auto; vm_compute; reflexivity.
Qed.
Lemma jump_reject s : allc (fun c => negb (inset X_j c)) s -> jump_from_mcnp s = Lib TypesError.
Proof.
  intros H. unfold jump_from_mcnp. rewrite re_jump_eq, (reject_must X_j); auto; vm_compute; reflexivity.
Qed.
Lemma log_reject s : allc (fun c => negb (inset X_g c)) s -> log_from_mcnp s = Lib TypesError.
Proof.
  intros H. unfold log_from_mcnp. rewrite re_log_eq, (reject_must X_g); auto; vm_compute; reflexivity.
Qed.

(** A character of a number as the library reads them (letters d, D, e, E included). *)
Definition is_fchar (c : ascii) : bool :=
  is_digit c || ceqb c "-" || ceqb c "+" || ceqb c "." || ceqb c "E" || ceqb c "e"
  || ceqb c "D" || ceqb c "d".

Lemma allc_impl (P Q : ascii -> bool) :
  forallb (fun n => implb (P (ascii_of_nat n)) (Q (ascii_of_nat n))) (seq 0 256) = true ->
  forall s, allc P s -> allc Q s.
Proof.
  intros H s HS. eapply Forall_impl; [|exact HS]. simpl. intros c Hc.
  apply (all_ascii (fun c => implb (P c) (Q c))) with (c := c) in H. now rewrite Hc in H.
Qed.

Lemma numchar_fchar s : allc is_numchar s -> allc is_fchar s.
Proof. apply allc_impl. vm_compute. reflexivity. Qed.

Lemma horiz_reject s : allc is_fchar s -> horiz_from_mcnp s = None.
Proof.
  intros H. unfold horiz_from_mcnp.
  rewrite repeat_reject, insert_reject, multiply_reject, jump_reject, log_reject; auto;
    revert H; apply allc_impl; vm_compute; reflexivity.
Qed.

(** * The Fortran exponent rewriting *)

Definition cs_mant : cset := cs [(45, 45); (43, 43); (48, 57); (46, 46)]%N.
Definition cs_sign : cset := cs [(45, 45); (43, 43)]%N.
Lemma re_fortran_eq : re_fortran =
  RCat (RGrp 1 (RRep false 1 None (RSet cs_mant))) (RCat (RGrp 2 (RSet cs_sign)) (RGrp 3 r_dig)).
Proof. vm_compute. reflexivity. Qed.
Definition cs_dD : cset := cs [(100, 100); (68, 68)]%N.
Lemma re_dD_eq : re_dD = RSet cs_dD.
Proof. vm_compute. reflexivity. Qed.

(** [adj b s]: no sign of [s] directly follows a mantissa character; [b] says
    whether the text is preceded by one. *)
Fixpoint adj (b : bool) (s : str) : bool :=
  match s with
  | [] => true
  | c :: t => negb (b && inset cs_sign c) && adj (inset cs_mant c) t
  end.

Lemma adj_weaken b s : adj b s = true -> adj false s = true.
Proof. destruct s; simpl; auto. intros H. apply andb_prop in H as [_ H]. exact H. Qed.

Lemma adj_tail b c s : adj b (c :: s) = true -> adj false s = true.
Proof. simpl. intros H. apply andb_prop in H as [_ H]. eapply adj_weaken; eauto. Qed.

Lemma adj_no b u g t : u <> [] -> allc (inset cs_mant) u -> inset cs_sign g = true ->
  adj b (u ++ g :: t) = true -> False.
Proof.
  revert b. induction u as [|a u IH]; intros b NE HU HG HA; [congruence|].
  simpl in HA. apply andb_prop in HA as [_ HA]. inversion HU; subst.
  destruct u as [|a' u].
  - simpl in HA. rewrite H1, HG in HA. discriminate.
  - apply (IH (inset cs_mant a)); auto. discriminate.
Qed.

Lemma fortran1_id f s : adj false s = true -> sub re_fortran f s = s.
Proof.
  intros H. apply (sub_id _ _ (fun _ s => adj false s = true)); auto.
  - intros p c t. apply adj_tail.
  - intros p u HA. rewrite re_fortran_eq. apply match_at_none; [reflexivity|].
    intros v t c -> HW.
    destruct HW as (u1 & u2 & c1 & c2 & (c1' & H1 & _) & H2 & -> & _).
    destruct H2 as (g & u3 & cg & c3 & (cg' & (x & -> & Hx & _) & _) & _ & -> & _).
    apply W_rep_set in H1 as (A & B & _).
    rewrite <- !app_assoc in HA. simpl in HA.
    eapply (adj_no _ u1); eauto. intros ->. simpl in B. lia.
Qed.

Lemma dD_id f s : allc (fun c => negb (inset cs_dD c)) s -> sub re_dD f s = s.
Proof.
  intros H. apply (sub_id _ _ (fun _ s => allc (fun c => negb (inset cs_dD c)) s)); auto.
  - intros p c t HA. now inversion HA.
  - intros p u HA. rewrite re_dD_eq. apply match_at_none; [reflexivity|].
    intros v t c -> (x & -> & Hx & _). inversion HA. now rewrite Hx in *.
Qed.

Lemma fortran_id s :
  adj false s = true -> allc (fun c => negb (inset cs_dD c)) s -> fortran s = s.
Proof. intros H1 H2. unfold fortran. rewrite fortran1_id; auto. apply dD_id; auto. Qed.

(** Runs of digits. *)
Lemma digit_not_sign c : is_digit c = true -> inset cs_sign c = false.
Proof.
  intros H. pose proof (all_ascii (fun c => implb (is_digit c) (negb (inset cs_sign c)))) as A.
  specialize (A eq_refl c). cbv beta in A. rewrite H in A. simpl in A. now destruct (inset cs_sign c).
Qed.
Lemma digit_mant c : is_digit c = true -> inset cs_mant c = true.
Proof.
  intros H. pose proof (all_ascii (fun c => implb (is_digit c) (inset cs_mant c))) as A.
  specialize (A eq_refl c). cbv beta in A. now rewrite H in A.
Qed.

Lemma adj_digits ds t : digits ds -> forall b,
  adj b (ds ++ t) = match ds with [] => adj b t | _ => adj true t end.
Proof.
  induction 1 as [|c ds Hc HD IH]; intros b; auto.
  cbn [app adj]. rewrite (digit_not_sign _ Hc), (digit_mant _ Hc), andb_false_r. simpl.
  rewrite IH. now destruct ds.
Qed.

Lemma adj_digits_all ds b : digits ds -> adj b ds = true.
Proof. intros H. rewrite <- (app_nil_r ds), adj_digits; auto. now destruct ds. Qed.

(** * Printed decimals *)

Lemma dec_str_adj neg c e : adj false (dec_str (Fin neg c e)) = true.
Proof.
  destruct (dec_str_shape neg c e) as (ip & fp & ep & ex & -> & Dip & Dfp & Nip & _ & _ & HE).
  assert (EP : adj true ep = true).
  { destruct HE as [[-> _]|HE]; [reflexivity|]. rewrite HE.
    cbn [adj]. change (inset cs_sign "E") with false. change (inset cs_mant "E") with false.
    cbn [andb negb]. apply adj_digits_all, str_of_N_digits. }
  assert (FP : adj true (match fp with [] => [] | _ => "." :: fp end ++ ep) = true).
  { destruct fp as [|f fp]; [exact EP|]. cbn [app adj].
    change (inset cs_sign ".") with false. change (inset cs_mant ".") with true. cbn [andb negb].
    change (adj true ((f :: fp) ++ ep) = true). rewrite adj_digits; auto. }
  assert (IP : forall b, adj b (ip ++ match fp with [] => [] | _ => "." :: fp end ++ ep) = true).
  { intros b. rewrite adj_digits; auto. destruct ip; [congruence|]. exact FP. }
  destruct neg; cbn [app adj]; rewrite IP; reflexivity.
Qed.

Lemma numchar_nodD s : allc is_numchar s -> allc (fun c => negb (inset cs_dD c)) s.
Proof. apply allc_impl. vm_compute. reflexivity. Qed.

Lemma lead_one_num s : allc is_numchar s -> s <> [] -> lead_one s = Ok s.
Proof.
  intros H N. destruct s as [|c t]; [congruence|]. inversion H; subst.
  assert (c <> "e"). { intros ->. discriminate. }
  destruct (Ascii.ascii_dec c "e"); [congruence|].
  unfold lead_one. destruct c as [[] [] [] [] [] [] [] []]; try reflexivity. congruence.
Qed.

(** C02 *)
Theorem real_roundtrip neg c e :
  dec_ok c e = true ->
  real_from_mcnp (real_to_mcnp (RVal (Fin neg c e))) = Ok (RVal (Fin neg c e)).
Proof.
  intros OK. unfold real_from_mcnp, real_to_mcnp.
  pose proof (dec_str_numchars neg c e) as NC.
  rewrite horiz_reject by now apply numchar_fchar.
  rewrite fortran_id; [|apply dec_str_adj|now apply numchar_nodD].
  rewrite lead_one_num; [|auto|apply dec_str_nonempty]. cbn [bind].
  now rewrite to_dec_str.
Qed.

(** C01 *)
Theorem integer_roundtrip z :
  dec_ok (Z.abs_N z) 0 = true ->
  integer_from_mcnp (integer_to_mcnp (IVal z)) = Ok (IVal z).
Proof.
  intros OK. unfold integer_from_mcnp, integer_to_mcnp. rewrite str_of_Z_dec.
  pose proof (dec_str_numchars (z <? 0)%Z (Z.abs_N z) 0) as NC.
  rewrite horiz_reject by now apply numchar_fchar.
  rewrite fortran_id; [|apply dec_str_adj|now apply numchar_nodD].
  rewrite lead_one_num; [|auto|apply dec_str_nonempty]. cbn [bind].
  rewrite to_dec_str by assumption. rewrite dec_to_int_exact. reflexivity.
Qed.

(** * Fortran exponents (C03) *)




Lemma digits_numchar ds : digits ds -> allc is_numchar ds.
Proof. apply digits_numchars. Qed.

Lemma mant_numchars sg ip dot fp :
  digits ip -> digits fp -> allc is_numchar (mant_text sg ip dot fp).
Proof.
  intros A B. unfold mant_text. apply allc_app; split.
  - destruct sg as [[]|]; repeat constructor.
  - apply allc_app; split; [now apply digits_numchar|].
    destruct dot; [constructor; [reflexivity|now apply digits_numchar]|constructor].
Qed.

Lemma mant_set sg ip dot fp :
  digits ip -> digits fp -> allc (inset cs_mant) (mant_text sg ip dot fp).
Proof.
  intros A B. unfold mant_text. 
  assert (D : forall d, digits d -> allc (inset cs_mant) d).
  { intros d. unfold digits, allc. apply Forall_impl. apply digit_mant. }
  apply allc_app; split.
  - destruct sg as [[]|]; repeat constructor.
  - apply allc_app; split; [now apply D|].
    destruct dot; [constructor; [reflexivity|now apply D]|constructor].
Qed.

Lemma parse_exp_text c es ex :
  c = "e" \/ c = "E" -> digits ex -> ex <> [] ->
  parse_exp (c :: exp_sign es ++ ex)
  = Some (let n := Z.of_N (N_of_digits ex) in if is_neg es then Z.opp n else n).
Proof.
  intros HC HD HN. unfold parse_exp.
  replace (ceqb (lower c) "e") with true by (destruct HC; subst; reflexivity).
  assert (E : match exp_sign es ++ ex with
              | "-" :: v => (true, v) | "+" :: v => (false, v) | _ => (false, exp_sign es ++ ex)
              end = (is_neg es, ex)).
  { destruct es as [[]|]; try reflexivity. cbn [exp_sign app is_neg].
    rewrite <- (app_nil_r ex). rewrite dec_str_ne_minus; auto. }
  rewrite E, span_digits_all by assumption.
  destruct ex; [congruence|]. reflexivity.
Qed.

Lemma parse_unsigned_gen neg ip dot fp ep e :
  digits ip -> digits fp -> (dot = false -> fp = []) -> ip ++ fp <> [] ->
  parse_exp ep = Some e -> nodigit_head ep -> (match ep with "." :: _ => False | _ => True end) ->
  parse_unsigned neg (ip ++ (if dot then "." :: fp else []) ++ ep)
  = (let c := N_of_digits (ip ++ fp) in let e' := (e - Z.of_nat (length fp))%Z in
     if dec_ok c e' then Some (Fin neg c e') else None).
Proof.
  intros Dip Dfp HD HN HE HH HP. unfold parse_unsigned.
  rewrite span_digits_app; auto.
  2:{ destruct dot; simpl; auto. }
  cbv beta iota. destruct dot.
  - cbn [app]. rewrite span_digits_app by auto. cbv beta iota.
    destruct (ip ++ fp) eqn:EI; [congruence|]. rewrite HE. reflexivity.
  - rewrite HD in * by reflexivity. cbn [app].
    assert (E : (match ep with "." :: u => span_digits u | _ => ([], ep) end) = ([], ep)).
    { destruct ep as [|c ep]; [reflexivity|].
      destruct c as [[] [] [] [] [] [] [] []]; try reflexivity. contradiction. }
    rewrite E. cbv beta iota. destruct (ip ++ []) eqn:EI; [congruence|]. rewrite HE. reflexivity.
Qed.


Lemma parse_special_num neg s : allc is_fchar s -> parse_special neg s = None.
Proof.
  intros H.
  assert (HL : allc (fun c => negb (ceqb c "n")) (slower s)).
  { unfold slower. induction H as [|c s Hc HS IH]; [constructor|]. simpl. constructor; auto.
    pose proof (all_ascii (fun c => implb (is_fchar c) (negb (ceqb (lower c) "n"))) eq_refl c) as A.
    cbv beta in A. now rewrite Hc in A. }
  unfold parse_special. destruct (slower s) as [|a l]; [reflexivity|].
  inversion HL as [|? ? Ha Hl]; subst. unfold ceqb in *.
  assert (E1 : forall u, seqb (a :: l) ("i" :: "n" :: u) = false).
  { intros u. cbn [seqb]. destruct l as [|b l]; [apply andb_false_r|].
    inversion Hl as [|? ? Hb Hl']; subst. cbn [seqb]. unfold ceqb. apply negb_true_iff in Hb. rewrite Hb.
    apply andb_false_r. }
  cbv [L list_ascii_of_string]. rewrite !E1. cbn [orb].
  assert (E2 : starts_with ["n"; "a"; "n"] (a :: l) = false).
  { cbn [starts_with]. unfold ceqb. rewrite (Ascii.eqb_sym "n" a). apply negb_true_iff in Ha. now rewrite Ha. }
  rewrite E2.
  assert (E3 : starts_with ["s"; "n"; "a"; "n"] (a :: l) = false).
  { cbn [starts_with]. destruct l as [|b l]; [apply andb_false_r|].
    inversion Hl as [|? ? Hb Hl']; subst. cbn [starts_with]. unfold ceqb. apply negb_true_iff in Hb.
    rewrite (Ascii.eqb_sym "n" b), Hb. apply andb_false_r. }
  now rewrite E3.
Qed.

Lemma fchar_nospace s : allc is_fchar s -> allc (fun c => negb (is_space c)) s.
Proof. apply allc_impl. vm_compute. reflexivity. Qed.
Lemma fchar_nous s : allc is_fchar s -> allc (fun c => negb (ceqb c "_")) s.
Proof. apply allc_impl. vm_compute. reflexivity. Qed.

Lemma to_dec_cleanf s : allc is_fchar s -> filter (fun c => negb (ceqb c "_")) (strip s) = s.
Proof.
  intros H. rewrite strip_nospace by now apply fchar_nospace. apply filter_all. now apply fchar_nous.
Qed.

Lemma digits_fchar ds : digits ds -> allc is_fchar ds.
Proof. intros H. apply numchar_fchar. now apply digits_numchar. Qed.

Lemma to_dec_mant sg ip dot fp c es ex :
  digits ip -> digits fp -> (dot = false -> fp = []) -> ip ++ fp <> [] ->
  c = "e" \/ c = "E" -> digits ex -> ex <> [] ->
  to_dec (mant_text sg ip dot fp ++ c :: exp_sign es ++ ex) = denotes sg ip fp es ex.
Proof.
  intros Dip Dfp HD HN HC Dex Nex.
  set (tl := c :: exp_sign es ++ ex).
  assert (FT : allc is_fchar tl).
  { constructor. { destruct HC; subst; reflexivity. }
    apply allc_app; split; [destruct es as [[]|]; repeat constructor|now apply digits_fchar]. }
  assert (FU : allc is_fchar (ip ++ (if dot then "." :: fp else []) ++ tl)).
  { apply allc_app; split; [now apply digits_fchar|]. apply allc_app; split; auto.
    destruct dot; [constructor; [reflexivity|now apply digits_fchar]|constructor]. }
  unfold to_dec. rewrite to_dec_cleanf.
  2:{ unfold mant_text. rewrite <- !app_assoc. apply allc_app; split; auto.
      destruct sg as [[]|]; repeat constructor. }
  assert (E : match mant_text sg ip dot fp ++ tl with
              | "-" :: u => (true, u) | "+" :: u => (false, u) | _ => (false, mant_text sg ip dot fp ++ tl)
              end = (is_neg sg, ip ++ (if dot then "." :: fp else []) ++ tl)).
  { unfold mant_text. destruct sg as [[]|]; cbn [app is_neg]; rewrite <- ?app_assoc; try reflexivity.
    destruct ip as [|a ip].
    - destruct dot; [reflexivity|]. rewrite HD in HN by reflexivity. now cbn in HN.
    - cbn [app]. inversion Dip as [|? ? Ha]; subst.
      destruct a as [[] [] [] [] [] [] [] []]; try reflexivity; discriminate. }
  rewrite E. rewrite parse_unsigned_gen with (e := let n := Z.of_N (N_of_digits ex) in if is_neg es then Z.opp n else n); auto.
  - unfold denotes. cbv zeta. destruct (dec_ok _ _); [reflexivity|]. now apply parse_special_num.
  - unfold tl. apply parse_exp_text; auto.
  - unfold tl. simpl. destruct HC; subst; reflexivity.
  - unfold tl. destruct HC; subst; exact I.
Qed.

Lemma addcap_app n p u t cp p' cp' :
  addcap n (mkst p (u ++ t) cp) (mkst p' t cp') = mkst p' t ((n, u) :: cp').
Proof. unfold addcap. cbn [pre rest caps]. now rewrite firstn_consumed. Qed.

(** The rewriting of [1.5+3] *)
Lemma fortran_sign sg ip dot fp b ex :
  digits ip -> digits fp -> ip ++ fp <> [] -> (dot = false -> fp = []) -> digits ex -> ex <> [] ->
  fortran (mant_text sg ip dot fp ++ exp_sign (Some b) ++ ex)
  = mant_text sg ip dot fp ++ "e" :: exp_sign (Some b) ++ ex.
Proof.
  intros Dip Dfp HN HD Dex Nex.
  set (mt := mant_text sg ip dot fp). set (g := if b then "-" else "+").
  assert (EG : exp_sign (Some b) = [g]) by (destruct b; reflexivity). rewrite EG.
  assert (SG : inset cs_sign g = true) by (destruct b; reflexivity).
  assert (NM : mt <> []).
  { unfold mt, mant_text. destruct sg as [[]|]; try discriminate. simpl.
    destruct ip; [|discriminate]. destruct dot; [discriminate|]. now rewrite HD in HN. }
  assert (MS : allc (inset cs_mant) mt) by now apply mant_set.
  set (res := mkst (rev ex ++ g :: rev mt) [] [(3, ex); (2, [g]); (1, mt)]).
  assert (EM : m re_fortran (mkst [] (mt ++ [g] ++ ex) []) Some = Some res).
  { rewrite re_fortran_eq. cbn [m].
    rewrite <- (app_nil_r ([g] ++ ex)).
    change (m (RRep false 1 None (RSet cs_mant)) (mkst [] (mt ++ ([g] ++ ex) ++ []) [])
      (fun s' => m (RCat (RGrp 2 (RSet cs_sign)) (RGrp 3 r_dig))
                   (addcap 1 (mkst [] (mt ++ ([g] ++ ex) ++ []) []) s') Some) = Some res).
    apply m_plus_run; auto.
    - apply allc_app; split; auto. constructor; [destruct b; reflexivity|].
      eapply Forall_impl; [|exact Dex]. apply digit_mant.
    - rewrite addcap_app. cbn [m]. cbn [rest pre caps app]. rewrite SG.
      pose proof (fun p t cp p' cp' => addcap_app 2 p [g] t cp p' cp') as AG. cbn [app] in AG.
      rewrite AG, (app_nil_r (rev mt)).
      rewrite <- (app_nil_l (@nil ascii)) at 1 2.
      apply (m_plus_run _ cs_dig _ ex [] []); auto.
      + rewrite app_nil_r. now apply allc_dig.
      + cbn [app]. rewrite addcap_app. reflexivity.
      + intros v1 v2 E. symmetry in E. apply app_eq_nil in E as [-> _]. congruence.
    - intros v1 v2 E NV. cbn [m]. unfold addcap. cbn [rest pre caps].
      destruct v1 as [|x v1]; [congruence|]. cbn [app] in E. inversion E; subst x.
      destruct v2 as [|y v2]; [reflexivity|]. cbn [app].
      assert (DY : is_digit y = true).
      { subst ex. apply allc_app in Dex as [_ D2]. now inversion D2. }
      now rewrite (digit_not_sign _ DY). }
  unfold fortran. unfold sub at 2.
  assert (ES : sub_f (S (length (mt ++ [g] ++ ex))) re_fortran
            (fun o => grp 1 o ++ ["e"] ++ grp 2 o ++ grp 3 o) [] (mt ++ [g] ++ ex)
          = mt ++ "e" :: [g] ++ ex).
  { cbn [sub_f]. unfold match_at. rewrite EM. unfold res. cbn [rest caps mtext mrest length].
    rewrite Nat.sub_0_r, firstn_all.
    destruct (mt ++ [g] ++ ex) eqn:EX; [destruct mt; discriminate|].
    unfold grp, group. cbn [mcaps lookup Nat.eqb].
    assert (Z : forall n p, sub_f n re_fortran (fun o => grp 1 o ++ ["e"] ++ grp 2 o ++ grp 3 o) p [] = []).
    { intros n p. destruct n; [reflexivity|]. cbn [sub_f].
      replace (match_at re_fortran p []) with (@None mobj); [reflexivity|].
      symmetry. rewrite re_fortran_eq. apply match_at_none; [reflexivity|].
      intros u t c E HW. symmetry in E. apply app_eq_nil in E as [-> _].
      destruct HW as (u1 & u2 & c1 & c2 & (c1' & H1 & _) & H2 & E & _).
      symmetry in E. apply app_eq_nil in E as [-> _].
      apply W_rep_set in H1 as (_ & B & _). simpl in B. lia. }
    unfold grp, group in Z. rewrite Z. rewrite app_nil_r. reflexivity. }
  rewrite ES. apply dD_id.
  assert (F : allc (fun c => negb (inset cs_dD c)) (mt ++ "e" :: [g] ++ ex)).
  { apply allc_app; split; [apply numchar_nodD, mant_numchars; auto|].
    constructor; [reflexivity|]. constructor; [destruct b; reflexivity|].
    apply numchar_nodD, digits_numchar; auto. }
  exact F.
Qed.

(** The rewriting of [1.5d3], [1.5D+3], and of [1.5e-3] (left alone). *)
Lemma sub_dD_step f c t p n :
  inset cs_dD c = true ->
  sub_f (S n) re_dD f p (c :: t)
  = f {| mpre := p; mtext := [c]; mrest := t; mcaps := [] |} ++ sub_f n re_dD f (c :: p) t.
Proof.
  intros H. cbn [sub_f]. unfold match_at. rewrite re_dD_eq. cbn [m rest]. rewrite H.
  cbn [rest caps pre]. pose proof (firstn_consumed [c] t) as F. cbn [app] in F. rewrite F.
  reflexivity.
Qed.

Lemma sub_dD_skip f u : forall t p n,
  allc (fun c => negb (inset cs_dD c)) u -> length u <= n ->
  sub_f n re_dD f p (u ++ t) = u ++ sub_f (n - length u) re_dD f (rev u ++ p) t.
Proof.
  induction u as [|c u IH]; intros t p n H HN; cbn [app length].
  - now rewrite Nat.sub_0_r.
  - destruct n as [|n]; [simpl in HN; lia|]. inversion H; subst.
    cbn [sub_f app].
    replace (match_at re_dD p (c :: u ++ t)) with (@None mobj).
    2:{ symmetry. rewrite re_dD_eq. unfold match_at. cbn [m rest].
        destruct (inset cs_dD c); [discriminate|reflexivity]. }
    rewrite IH; auto; [|simpl in HN; lia]. cbn [rev]. rewrite <- app_assoc. reflexivity.
Qed.

Lemma fortran_d sg ip dot fp c es ex :
  digits ip -> digits fp -> ip ++ fp <> [] -> (dot = false -> fp = []) -> digits ex -> ex <> [] ->
  c = "d" \/ c = "D" ->
  fortran (mant_text sg ip dot fp ++ c :: exp_sign es ++ ex)
  = mant_text sg ip dot fp ++ "e" :: exp_sign es ++ ex.
Proof.
  intros Dip Dfp HN HD Dex Nex HC. unfold fortran.
  assert (NC : inset cs_mant c = false /\ inset cs_sign c = false /\ inset cs_dD c = true)
    by (destruct HC; subst; auto). destruct NC as (C1 & C2 & C3).
  rewrite fortran1_id.
  2:{ assert (T : forall b, adj b (c :: exp_sign es ++ ex) = true).
      { intros b. cbn [adj]. rewrite C1, C2, andb_false_r. cbn [negb andb].
        destruct es as [[]|]; cbn [exp_sign app adj andb negb]; apply adj_digits_all; auto. }
      assert (T2 : forall b, adj b ((if dot then "." :: fp else []) ++ c :: exp_sign es ++ ex) = true).
      { intros b. destruct dot; cbn [app]; [|apply T]. cbn [adj].
        change (inset cs_sign ".") with false. change (inset cs_mant ".") with true.
        rewrite andb_false_r. cbn [negb andb]. rewrite adj_digits by auto.
        destruct fp; apply T. }
      assert (T3 : forall b, adj b (ip ++ (if dot then "." :: fp else []) ++ c :: exp_sign es ++ ex) = true).
      { intros b. rewrite adj_digits by auto. destruct ip; apply T2. }
      unfold mant_text. destruct sg as [[]|]; cbn [app]; rewrite <- app_assoc; cbn [adj andb negb]; apply T3. }
  set (mt := mant_text sg ip dot fp).
  assert (NM : allc (fun c => negb (inset cs_dD c)) mt) by (apply numchar_nodD, mant_numchars; auto).
  assert (NE : allc (fun c => negb (inset cs_dD c)) (exp_sign es ++ ex)).
  { apply numchar_nodD, allc_app. split; [destruct es as [[]|]; repeat constructor|now apply digits_numchar]. }
  unfold sub. rewrite sub_dD_skip; auto; [|rewrite app_length; lia].
  f_equal. rewrite app_length. cbn [length].
  replace (S (length mt + S (length (exp_sign es ++ ex))) - length mt)
    with (S (S (length (exp_sign es ++ ex)))) by lia.
  rewrite sub_dD_step by assumption. cbn [app]. f_equal.
  rewrite <- (app_nil_r (exp_sign es ++ ex)) at 2.
  rewrite sub_dD_skip; auto. rewrite Nat.sub_succ_l, Nat.sub_diag by lia.
  replace (sub_f 1 re_dD _ _ []) with (@nil ascii); [apply app_nil_r|].
  cbn [sub_f]. rewrite re_dD_eq. reflexivity.
Qed.

Lemma fortran_e sg ip dot fp c es ex :
  digits ip -> digits fp -> digits ex ->
  c = "e" \/ c = "E" ->
  fortran (mant_text sg ip dot fp ++ c :: exp_sign es ++ ex)
  = mant_text sg ip dot fp ++ c :: exp_sign es ++ ex.
Proof.
  intros Dip Dfp Dex HC. apply fortran_id.
  - assert (NC : inset cs_mant c = false /\ inset cs_sign c = false)
      by (destruct HC; subst; auto). destruct NC as (C1 & C2).
    assert (T : forall b, adj b (c :: exp_sign es ++ ex) = true).
    { intros b. cbn [adj]. rewrite C1, C2, andb_false_r. cbn [negb andb].
      destruct es as [[]|]; cbn [exp_sign app adj andb negb]; apply adj_digits_all; auto. }
    assert (T2 : forall b, adj b ((if dot then "." :: fp else []) ++ c :: exp_sign es ++ ex) = true).
    { intros b. destruct dot; cbn [app]; [|apply T]. cbn [adj].
      change (inset cs_sign ".") with false. change (inset cs_mant ".") with true.
      rewrite andb_false_r. cbn [negb andb]. rewrite adj_digits by auto.
      destruct fp; apply T. }
    assert (T3 : forall b, adj b (ip ++ (if dot then "." :: fp else []) ++ c :: exp_sign es ++ ex) = true).
    { intros b. rewrite adj_digits by auto. destruct ip; apply T2. }
    unfold mant_text. destruct sg as [[]|]; cbn [app]; rewrite <- app_assoc; cbn [adj andb negb]; apply T3.
  - apply allc_app; split; [apply numchar_nodD, mant_numchars; auto|].
    constructor; [destruct HC; subst; reflexivity|]. apply numchar_nodD, allc_app.
    split; [destruct es as [[]|]; repeat constructor|now apply digits_numchar].
Qed.

Lemma lead_one_mant sg ip dot fp t :
  digits ip -> digits fp -> ip ++ fp <> [] -> (dot = false -> fp = []) ->
  lead_one (mant_text sg ip dot fp ++ t) = Ok (mant_text sg ip dot fp ++ t).
Proof.
  intros Dip Dfp HN HD. unfold mant_text. destruct sg as [[]|]; try reflexivity. cbn [app].
  destruct ip as [|a ip].
  - destruct dot; [reflexivity|]. now rewrite HD in HN.
  - inversion Dip as [|? ? Ha]; subst. cbn [app].
    destruct a as [[] [] [] [] [] [] [] []]; try reflexivity; discriminate.
Qed.


Theorem real_exponent_forms f sg ip dot fp es ex :
  digits ip -> digits fp -> (dot = false -> fp = []) -> ip ++ fp <> [] -> digits ex -> ex <> [] ->
  (f = FSign -> es <> None) ->
  real_from_mcnp (mant_text sg ip dot fp ++ exp_text f es ex)
  = match denotes sg ip fp es ex with Some d => Ok (RVal d) | None => Lib TypesError end.
Proof.
  intros Dip Dfp HD HN Dex Nex HF. unfold real_from_mcnp.
  rewrite horiz_reject.
  2:{ apply allc_app; split; [apply numchar_fchar, mant_numchars; auto|].
      assert (A : allc is_fchar (exp_sign es ++ ex)).
      { apply allc_app; split; [destruct es as [[]|]; repeat constructor|now apply digits_fchar]. }
      destruct f; cbn [exp_text]; try (constructor; [reflexivity|]); exact A. }
  destruct f; cbn [exp_text].
  - rewrite fortran_e, lead_one_mant by auto. cbn [bind]. rewrite to_dec_mant; auto.
  - rewrite fortran_e, lead_one_mant by auto. cbn [bind]. rewrite to_dec_mant; auto.
  - rewrite fortran_d, lead_one_mant by auto. cbn [bind]. rewrite to_dec_mant; auto.
  - rewrite fortran_d, lead_one_mant by auto. cbn [bind]. rewrite to_dec_mant; auto.
  - destruct es as [b|]; [|now destruct HF].
    rewrite fortran_sign, lead_one_mant by auto. cbn [bind]. rewrite to_dec_mant; auto.
Qed.

(** * Shorthand values (C06) *)

Lemma or_empty_digits n : digits (or_empty n).
Proof. destruct n as [[|p]|]; try constructor. apply str_of_N_digits. Qed.

Lemma caps_count t c ds :
  opt_count {| mpre := []; mtext := t; mrest := []; mcaps := c ++ match ds with [] => [] | _ => [(1, ds)] end |}
  = match lookup 1 c with
    | Some u => match u with [] => None | _ => Some (N_of_digits u) end
    | None => match ds with [] => None | _ => Some (N_of_digits ds) end
    end.
Proof.
  unfold opt_count, group. cbn [mcaps].
  induction c as [|[i u] c IH]; cbn [app lookup].
  - destruct ds; reflexivity.
  - destruct (Nat.eqb i 1); [now destruct u|exact IH].
Qed.

Lemma W_set_letter cs0 x c : W (RSet cs0) [x] c -> c = [].
Proof. now intros (y & _ & _ & ->). Qed.

Notation one_letter a b := (RSet (cs_ic a b)).

Lemma letter_match a b x ds :
  inset (cs_ic a b) x = true -> is_digit x = false -> nodig (one_letter a b) = true -> digits ds ->
  re_match (whole (RCat r_cnt (one_letter a b))) (ds ++ [x])
  = Some {| mpre := []; mtext := ds ++ [x]; mrest := [];
            mcaps := match ds with [] => [] | _ => [(1, ds)] end |}.
Proof.
  intros I ND N D. pose proof (match_cnt (one_letter a b) ds [x] []) as H. cbn [app] in H.
  apply H; auto.
  - apply acc_accc, acc_set, I.
  - intros c'. apply W_set_letter.
  - exists x. auto.
Qed.

Definition count_of (ds : str) : option N := match ds with [] => None | _ => Some (N_of_digits ds) end.

Lemma repeat_read ds : digits ds -> repeat_from_mcnp (ds ++ ["r"]) = Ok (HRepeat (count_of ds)).
Proof.
  intros D. unfold repeat_from_mcnp. rewrite re_repeat_eq.
  rewrite (letter_match 114 82 "r" ds) by (auto; vm_compute; reflexivity).
  now rewrite (caps_count _ [] ds).
Qed.
Lemma insert_read ds : digits ds -> insert_from_mcnp (ds ++ ["i"]) = Ok (HInsert (count_of ds)).
Proof.
  intros D. unfold insert_from_mcnp. rewrite re_insert_eq.
  rewrite (letter_match 105 73 "i" ds) by (auto; vm_compute; reflexivity).
  now rewrite (caps_count _ [] ds).
Qed.
Lemma jump_read ds : digits ds -> jump_from_mcnp (ds ++ ["j"]) = Ok (HJump (count_of ds)).
Proof.
  intros D. unfold jump_from_mcnp. rewrite re_jump_eq.
  rewrite (letter_match 106 74 "j" ds) by (auto; vm_compute; reflexivity).
  now rewrite (caps_count _ [] ds).
Qed.

Lemma accc_set cs0 x : inset cs0 x = true -> accc (RSet cs0) [x] [].
Proof. intros H. now apply acc_accc, acc_set. Qed.

Lemma log_read ds : digits ds -> log_from_mcnp (ds ++ L "log") = Ok (HLog (count_of ds)).
Proof.
  intros D. unfold log_from_mcnp. rewrite re_log_eq.
  rewrite (match_cnt _ ds (L "log") [(2, L "log")]); auto.
  - now rewrite (caps_count _ [(2, L "log")] ds).
  - apply (accc_grp 2 _ (L "log") []). apply accc_altl.
    apply (accc_cat _ _ ["l"] ["o"; "g"] [] []); [now apply accc_set|].
    apply (accc_cat _ _ ["o"] ["g"] [] []); now apply accc_set.
  - intros c' (c'' & H & ->). f_equal. apply W_nocap in H; auto.
  - exists []. split; auto. left.
    exists ["l"], ["o"; "g"], [], []. repeat split; auto. { exists "l". auto. }
    exists ["o"], ["g"], [], []. repeat split; auto. { exists "o". auto. } exists "g". auto.
Qed.

Lemma multiply_read ds : digits ds -> ds <> [] -> N_of_digits ds <> 0%N ->
  multiply_from_mcnp (ds ++ ["m"]) = Ok (HMultiply (N_of_digits ds)).
Proof.
  intros D NE NZ. unfold multiply_from_mcnp. rewrite re_multiply_eq.
  rewrite (match_whole _ (ds ++ ["m"]) [(1, ds)]); auto.
  - unfold group. cbn [mcaps lookup Nat.eqb].
    apply N.eqb_neq in NZ. now rewrite NZ.
  - apply (accc_cat _ _ ds ["m"] [(1, ds)] []).
    + apply accc_grp. now apply accc_dig.
    + now apply accc_set.
  - intros c' (u1 & u2 & c1 & c2 & (c1' & H1 & ->) & H2 & E & ->).
    destruct H2 as (x & -> & Ix & ->).
    apply W_rep_set in H1 as (A & _ & _ & ->). apply allc_dig in A.
    apply app_inj_tail in E as [E1 E2]; subst u1. reflexivity.
Qed.

Lemma count_of_str n : count_of (str_of_N n) = Some n.
Proof.
  unfold count_of. pose proof (str_of_N_nonempty n). destruct (str_of_N n) eqn:E; [congruence|].
  rewrite <- E. now rewrite N_of_str_of_N.
Qed.

(** What the writer prints for a count, and the reader's answer. *)
Lemma count_or_empty n : n <> Some 0%N -> count_of (or_empty n) = n.
Proof.
  destruct n as [[|p]|]; intros H; try congruence; [apply count_of_str|reflexivity].
Qed.



Lemma horiz_own_roundtrip h : horiz_ok h = true -> own_from_mcnp h (horiz_to_mcnp h) = Ok h.
Proof.
  destruct h as [n|n|x|n|n]; cbn [own_from_mcnp horiz_to_mcnp]; intros H; change (L "r") with ["r"];
    change (L "i") with ["i"]; change (L "m") with ["m"]; change (L "j") with ["j"].
  - rewrite repeat_read by apply or_empty_digits. rewrite count_or_empty; auto. now intros ->.
  - rewrite insert_read by apply or_empty_digits. rewrite count_or_empty; auto. now intros ->.
  - rewrite multiply_read; rewrite ?N_of_str_of_N; auto using str_of_N_digits, str_of_N_nonempty.
    intros ->. discriminate.
  - destruct n as [n|].
    + rewrite jump_read by apply str_of_N_digits. now rewrite count_of_str.
    + rewrite (jump_read []); [reflexivity|constructor].
  - rewrite log_read by apply or_empty_digits. rewrite count_or_empty; auto. now intros ->.
Qed.

Lemma digits_not X ds : forallb (fun n => implb (is_digit (ascii_of_nat n)) (negb (inset X (ascii_of_nat n)))) (seq 0 256) = true ->
  digits ds -> allc (fun c => negb (inset X c)) ds.
Proof. intros H. now apply allc_impl. Qed.

Lemma horiz_roundtrip h : horiz_ok h = true -> horiz_from_mcnp (horiz_to_mcnp h) = Some h.
Proof.
  intros H. pose proof (horiz_own_roundtrip h H) as R. unfold horiz_from_mcnp.
  assert (D : forall X t ds, digits ds ->
     forallb (fun n => implb (is_digit (ascii_of_nat n)) (negb (inset X (ascii_of_nat n)))) (seq 0 256) = true ->
     allc (fun c => negb (inset X c)) t -> allc (fun c => negb (inset X c)) (ds ++ t)).
  { intros X t ds D1 D2 D3. apply allc_app. split; auto. now apply digits_not. }
  destruct h as [n|n|x|n|n]; cbn [own_from_mcnp] in R; cbn [horiz_to_mcnp] in *.
  - now rewrite R.
  - rewrite repeat_reject, R; auto. apply D; [apply or_empty_digits|reflexivity|repeat constructor].
  - rewrite repeat_reject, insert_reject, R; auto;
      (apply D; [apply str_of_N_digits|reflexivity|repeat constructor]).
  - assert (DJ : digits (match n with Some x => str_of_N x | None => [] end))
      by (destruct n; [apply str_of_N_digits|constructor]).
    rewrite repeat_reject, insert_reject, multiply_reject, R; auto;
      (apply D; [auto|reflexivity|repeat constructor]).
  - rewrite repeat_reject, insert_reject, multiply_reject, jump_reject, R; auto;
      (apply D; [apply or_empty_digits|reflexivity|repeat constructor]).
Qed.

Theorem integer_horiz_roundtrip h : horiz_ok h = true ->
  integer_from_mcnp (integer_to_mcnp (IHor h)) = Ok (IHor h).
Proof. intros H. unfold integer_from_mcnp, integer_to_mcnp. now rewrite horiz_roundtrip. Qed.
Theorem real_horiz_roundtrip h : horiz_ok h = true ->
  real_from_mcnp (real_to_mcnp (RHor h)) = Ok (RHor h).
Proof. intros H. unfold real_from_mcnp, real_to_mcnp. now rewrite horiz_roundtrip. Qed.


Lemma int_rt i : int_ok i = true -> integer_from_mcnp (integer_to_mcnp i) = Ok i.
Proof. destruct i; cbn [int_ok]; [apply integer_roundtrip|apply integer_horiz_roundtrip]. Qed.
Lemma real_rt r : real_ok r = true -> real_from_mcnp (real_to_mcnp r) = Ok r.
Proof.
  destruct r as [[neg c e| |]|h]; cbn [real_ok]; try discriminate;
    [apply real_roundtrip|apply real_horiz_roundtrip].
Qed.
