(** Restatements of the scalar facts in the vocabulary of the properties. *)

From Coq Require Import Ascii String NArith ZArith Bool Arith Lia List.
From Verif Require Import PyStr Regex RegexParse RegexFacts RegexLang PyNum PyNumFacts Types TypesSpec
  TypesFacts TypesFacts2 TypesFacts3 TypesFacts4.
Import ListNotations.
Open Scope char_scope.

Lemma integer_round_trip z :
  (Z.of_nat (length (str_of_N (Z.abs_N z))) - 1 <= 999999999999999999)%Z ->
  integer_from_mcnp (integer_to_mcnp (IVal z)) = Ok (IVal z).
Proof.
  intros H. apply integer_roundtrip. unfold dec_ok, ndigits, MIN_ETINY, MAX_EMAX.
  apply andb_true_iff. split; apply Z.leb_le; lia.
Qed.

Lemma integer_truncates s z : integer_from_mcnp s = Ok (IVal z) ->
  exists neg c e, real_from_mcnp s = Ok (RVal (Fin neg c e)) /\
  ((0 <= e -> z = (if neg then -1 else 1) * Z.of_N c * 10 ^ e) /\
   (e < 0 -> exists r, 0 <= r < 10 ^ (- e) /\ Z.of_N c = Z.abs z * 10 ^ (- e) + r /\
             z = (if neg then -1 else 1) * Z.abs z))%Z.
Proof.
  intros H. apply integer_real in H. cbn in H. destruct H as (neg & c & e & A & B).
  exists neg, c, e. split; auto. now apply dec_to_int_trunc in B.
Qed.

Lemma integer_no_py_n s : s <> [] -> (forall c, In c s -> c <> "n" /\ c <> "N") ->
  is_py (integer_from_mcnp s) = false.
Proof.
  intros H HN. apply integer_no_py; auto. apply Forall_forall. intros c Hc. apply HN in Hc as [A B].
  apply negb_true_iff. destruct (ceqb (lower c) "n") eqn:E; auto. exfalso.
  pose proof (all_ascii (fun c => implb (ceqb (lower c) "n") (ceqb c "n" || ceqb c "N")) eq_refl c) as Q.
  cbv beta in Q. rewrite E in Q. cbn [implb] in Q. apply orb_prop in Q as [Q|Q]; apply Ascii.eqb_eq in Q; auto.
Qed.

Lemma designator_no_py s : is_py (designator_from_mcnp s) = false.
Proof. unfold designator_from_mcnp. destruct (re_match re_designator s); reflexivity. Qed.

Lemma horiz_all_roundtrip h : horiz_ok h = true ->
  own_from_mcnp h (horiz_to_mcnp h) = Ok h /\
  integer_from_mcnp (integer_to_mcnp (IHor h)) = Ok (IHor h) /\
  real_from_mcnp (real_to_mcnp (RHor h)) = Ok (RHor h).
Proof.
  intros H. split; [|split]; [now apply horiz_own_roundtrip|now apply integer_horiz_roundtrip|now apply real_horiz_roundtrip].
Qed.

Lemma zaid_rt_fields z a abx :
  (z <= 999)%N -> (a <= 999)%N ->
  match abx with Some t => t <> [] /\ Forall (fun c => is_space c = false) t | None => True end ->
  zaid_from_mcnp (zaid_to_mcnp {| zz := z; za := a; zabx := abx |}) = Ok {| zz := z; za := a; zabx := abx |}.
Proof.
  intros Hz Ha Ho. apply zaid_rt. repeat split; auto. cbn [zabx]. destruct abx as [t|]; auto.
  destruct Ho as [A B]. split; auto. eapply Forall_impl; [|exact B]. intros c Hc. cbv beta. now rewrite Hc.
Qed.

Lemma comma_list_iff P Q s : (forall c, P c = Q c) -> comma_list P s <-> comma_list Q s.
Proof.
  intros H. split; intros (c & cl & A & B & E); exists c, cl; repeat split; auto.
  - now rewrite <- H.
  - eapply Forall_impl; [|exact B]. intros x. cbv beta. now rewrite H.
  - now rewrite H.
  - eapply Forall_impl; [|exact B]. intros x. cbv beta. now rewrite H.
Qed.

Lemma designator_exact s :
  let ok c := ((particle c && negb (ceqb c "-")) || ((95 <=? code (lower c)) && (code (lower c) <=? 126)))%N%bool in
  (comma_list ok s -> designator_from_mcnp s = Ok s) /\
  (~ comma_list ok s -> designator_from_mcnp s = Lib TypesError).
Proof.
  intros ok.
  assert (E : forall c, ok c = inset cs_desig c).
  { intros c. apply eqb_prop. apply (all_ascii (fun c => eqb (ok c) (inset cs_desig c))). vm_compute. reflexivity. }
  rewrite !(comma_list_iff ok (inset cs_desig)) by exact E. apply designator_char.
Qed.

Lemma designator_accepts s :
  comma_list (fun c => particle c && negb (ceqb c "-"))%bool s -> designator_from_mcnp s = Ok s.
Proof.
  intros (c & cl & A & B & E). apply designator_exact. exists c, cl. repeat split; auto.
  - cbv beta in A. now rewrite A.
  - eapply Forall_impl; [|exact B]. intros x Hx. cbv beta in *. now rewrite Hx.
Qed.

Lemma designator_refuted :
  (exists s, comma_list particle s /\ designator_from_mcnp s = Lib TypesError) /\
  (exists s, ~ comma_list particle s /\ designator_from_mcnp s = Ok s).
Proof.
  split.
  - exists (L "-"). split; [|vm_compute; reflexivity]. exists "-", []. repeat split. constructor.
  - exists (L "j"). split; [|vm_compute; reflexivity]. intros (c & cl & A & _ & E).
    inversion E; subst. discriminate.
Qed.

Lemma tuple_string_total s : exists l,
  tuple_from_mcnp pat_string string_from_mcnp s = Ok l /\
  concat l = filter (fun c => negb (is_space c)) s.
Proof.
  destruct (string_never_fails s) as (l & E). exists l. split; auto. now apply tuple_string_complete.
Qed.
