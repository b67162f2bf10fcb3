(** Deciding the side conditions of PtracSpec, for the examples. *)

From Coq Require Import Ascii String NArith ZArith Bool Arith List Lia.
From Verif Require Import PyStr RegexFacts PyNum Types CardsFacts2 Ptrac PtracSpec PtracFacts2 PtracFacts5.
Import ListNotations.
Open Scope nat_scope.

Definition normalb (n : nat) (x : sci) : bool :=
  ((10 ^ (N.of_nat n - 1) <=? mant x)%N && (mant x <? 10 ^ N.of_nat n)%N && (-99 <=? expo x)%Z && (expo x <=? 99)%Z)
  || ((mant x =? 0)%N && (expo x =? 0)%Z).
Lemma normalb_ok n x : normalb n x = true -> normal n x.
Proof.
  unfold normalb, normal. intros H. apply orb_prop in H as [H|H].
  - apply andb_prop in H as [H H4]. apply andb_prop in H as [H H3]. apply andb_prop in H as [H1 H2]. left. apply N.leb_le in H1. apply N.ltb_lt in H2. apply Z.leb_le in H3, H4. auto.
  - apply andb_prop in H as [H1 H2]. right. apply N.eqb_eq in H1. apply Z.eqb_eq in H2. auto.
Qed.
Definition fitsb (w : nat) (z : Z) : bool := length (str_of_Z z) <=? w.
Lemma fitsb_ok w z : fitsb w z = true -> fits w z.
Proof. apply Nat.leb_le. Qed.
Lemma forallb_Forall {A} (f : A -> bool) (P : A -> Prop) l : (forall x, f x = true -> P x) -> forallb f l = true -> Forall P l.
Proof. intros H. rewrite forallb_forall, Forall_forall. auto. Qed.
Definition codeb (s : str) : bool := existsb (seqb s) event_types.
Lemma codeb_ok s : codeb s = true -> In s event_types.
Proof. intros H. apply existsb_exists in H as (x & HI & E). apply seqb_eq in E. now subst. Qed.

Definition jb (j : jdata) : bool :=
  (jd_form j <=? 7) && codeb (jd_next j) && (length (jd_ints j) =? length (j_types (jd_form j))) && forallb (fitsb 10) (jd_ints j).
Lemma jb_ok j : jb j = true -> j_data_ok j.
Proof.
  unfold jb. intros H. apply andb_prop in H as [H H4]. apply andb_prop in H as [H H3]. apply andb_prop in H as [H1 H2].
  split; [now apply Nat.leb_le|]. split; [now apply codeb_ok|]. split; [now apply Nat.eqb_eq|].
  revert H4. apply forallb_Forall, fitsb_ok.
Qed.
Definition pb (k : nat) (l : list sci) : bool := (length l =? p_numbers k) && forallb (normalb 5) l.
Lemma pb_ok k l : pb k l = true -> p_data_ok k l.
Proof. intros H. apply andb_prop in H as [H1 H2]. split; [now apply Nat.eqb_eq|]. revert H2. apply forallb_Forall, normalb_ok. Qed.
Definition ib (i : idata) : bool :=
  fitsb 10 (id_nps i) && codeb (id_type i) && match id_number i with Some z => fitsb 10 z | None => true end &&
  match id_tfc i with Some x => normalb 6 x | None => true end.
Lemma ib_ok i : ib i = true -> i_data_ok i.
Proof.
  unfold ib. intros H. apply andb_prop in H as [H H4]. apply andb_prop in H as [H H3]. apply andb_prop in H as [H1 H2].
  split; [now apply fitsb_ok|]. split; [now apply codeb_ok|]. split.
  - destruct (id_number i); auto. now apply fitsb_ok.
  - destruct (id_tfc i); auto. now apply normalb_ok.
Qed.
Definition nzb (i : idata) : bool :=
  match id_number i with Some z => negb (z =? 0)%Z | None => true end && match id_tfc i with Some x => negb (mant x =? 0)%N | None => true end.
Lemma nzb_ok i : nzb i = true -> i_nonzero i.
Proof.
  unfold nzb. intros H. apply andb_prop in H as [H1 H2]. split.
  - destruct (id_number i) as [z|]; [|discriminate]. intros [= ->]. discriminate.
  - destruct (id_tfc i) as [x|]; auto. intros E. rewrite E in H2. discriminate.
Qed.
Definition eb (k : nat) (e : edata) : bool := jb (ed_j e) && existsb (Nat.eqb (jd_form (ed_j e))) [0; 1; 3; 7] && pb k (ed_p e).
Lemma eb_ok k e : eb k e = true -> e_data_ok k e.
Proof.
  unfold eb. intros H. apply andb_prop in H as [H H3]. apply andb_prop in H as [H1 H2].
  split; [now apply jb_ok|]. split; [|now apply pb_ok]. apply existsb_exists in H2 as (x & HI & E). apply Nat.eqb_eq in E. now rewrite E.
Qed.
Definition hb (h : hdata) : bool :=
  ib (hd_i h) && nzb (hd_i h) && negb (length (hd_events h) =? 0) &&
  forallb (fun x => existsb (Nat.eqb (fst x)) [0; 1] && eb (fst x) (snd x)) (hd_events h).
Lemma hb_ok h : hb h = true -> h_data_ok h.
Proof.
  unfold hb. intros H. apply andb_prop in H as [H H4]. apply andb_prop in H as [H H3]. apply andb_prop in H as [H1 H2].
  split; [now apply ib_ok|]. split; [now apply nzb_ok|]. split; [now destruct (hd_events h)|].
  revert H4. apply forallb_Forall. intros [k e] H. apply andb_prop in H as [A B]. split; [|now apply eb_ok].
  apply existsb_exists in A as (x & HI & E). apply Nat.eqb_eq in E. now rewrite E.
Qed.
Definition headerb (k : header_data) : bool :=
  (length (kd_code k) =? 8) && (length (kd_version k) =? 25) && (length (kd_date k) =? 9) && (length (kd_run k) =? 18) &&
  (length (kd_title k) =? 80) && forallb (forallb (fun c => negb (ceqb c nl))) [kd_code k; kd_version k; kd_date k; kd_run k; kd_title k] &&
  (negb (length (kd_v k) =? 0) && forallb (fun row => (length row =? 10) && forallb (normalb 5) row) (kd_v k)) &&
  ((length (kd_n k) =? 20) && forallb (fitsb 5) (kd_n k)) &&
  (forallb (fun row => length row =? 30) (kd_l k) && (1 <=? length (kd_last k)) && (length (kd_last k) <=? 29) &&
   forallb (forallb (fitsb 3)) (kd_l k ++ [kd_last k])).
Lemma headerb_ok k : headerb k = true -> header_data_ok k.
Proof.
  unfold headerb. intros H. apply andb_prop in H as [H HL]. apply andb_prop in H as [H HN]. apply andb_prop in H as [H HV].
  apply andb_prop in H as [H HO]. apply andb_prop in H as [H H5]. apply andb_prop in H as [H H4]. apply andb_prop in H as [H H3].
  apply andb_prop in H as [H1 H2].
  split; [now apply Nat.eqb_eq|]. split; [now apply Nat.eqb_eq|]. split; [now apply Nat.eqb_eq|]. split; [now apply Nat.eqb_eq|].
  split; [now apply Nat.eqb_eq|]. split; [revert HO; apply forallb_Forall; intros s; now apply forallb_Forall|].
  split; [|split].
  - apply andb_prop in HV as [A B]. split; [now destruct (kd_v k)|]. revert B. apply forallb_Forall. intros row H.
    apply andb_prop in H as [C D]. split; [now apply Nat.eqb_eq|]. revert D. apply forallb_Forall, normalb_ok.
  - apply andb_prop in HN as [A B]. split; [now apply Nat.eqb_eq|]. revert B. apply forallb_Forall, fitsb_ok.
  - apply andb_prop in HL as [H D]. apply andb_prop in H as [H C]. apply andb_prop in H as [A B].
    split; [revert A; apply forallb_Forall; intros row; apply Nat.eqb_eq|].
    split; [apply Nat.leb_le in B, C; lia|]. revert D. apply forallb_Forall. intros row. apply forallb_Forall, fitsb_ok.
Qed.
Definition file_any_b (f : file_data) : bool :=
  headerb (fd_header f) && negb (length (fd_histories f) =? 0) && forallb hb (fd_histories f).
Lemma file_any_ok f : file_any_b f = true -> file_any f.
Proof.
  unfold file_any_b. intros H. apply andb_prop in H as [H H3]. apply andb_prop in H as [H1 H2].
  split; [now apply headerb_ok|]. split; [now destruct (fd_histories f)|]. revert H3. apply forallb_Forall, hb_ok.
Qed.
Definition fileb (f : file_data) : bool :=
  file_any_b f && forallb (fun h => forallb (fun x => fst x =? 0) (hd_events h)) (fd_histories f).
Lemma fileb_ok f : fileb f = true -> file_data_ok f.
Proof.
  intros H. apply andb_prop in H as [H H2]. apply file_any_ok in H as (A & B & C). split; auto. split; auto.
  rewrite forallb_forall in H2. rewrite Forall_forall in *. intros h Hh. split; [now apply C|].
  specialize (H2 _ Hh). revert H2. apply forallb_Forall. intros x. apply Nat.eqb_eq.
Qed.

Lemma p_both k l : k <= 1 -> p_data_ok k l -> p_from_mcnp k (p_text l) = Ok (p_value k l) /\ p_to_mcnp (p_value k l) = Ok (p_text l).
Proof.
  intros HK H. split; [now apply p_read|]. destruct H as [HL HF]. apply p_write; auto.
  intros ->. destruct k as [|[|k]]; discriminate.
Qed.

Lemma any_read f : file_any f -> Forall (fun h => Forall (fun x => fst x = 0) (hd_events h)) (fd_histories f) ->
  ptrac_from_mcnp (file_text f) = Ok (file_value f).
Proof.
  intros (A & B & C) H. apply file_read. split; auto. split; auto. rewrite Forall_forall in *. auto.
Qed.

Theorem event_type_iff s t : event_type_from_mcnp s = Ok t <-> In s event_types /\ t = s.
Proof.
  unfold event_type_from_mcnp. split.
  - destruct (existsb (seqb s) event_codes) eqn:E; [|discriminate]. intros [= <-]. split; auto.
    apply existsb_exists in E as (x & HI & E). apply seqb_eq in E. subst x.
    assert (F : forallb (fun t => existsb (seqb t) event_types) event_codes = true) by (vm_compute; reflexivity).
    rewrite forallb_forall in F. apply F, existsb_exists in HI as (x & HI & E). apply seqb_eq in E. now subst.
  - intros [H ->]. apply codes in H. replace (existsb (seqb s) event_codes) with true; auto. symmetry.
    apply existsb_exists. exists s. split; auto. now apply seqb_eq.
Qed.
