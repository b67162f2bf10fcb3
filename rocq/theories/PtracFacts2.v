(** Fixed-width lines: J, P, I and N. *)

From Coq Require Import Ascii String NArith ZArith Bool Arith List Lia.
From Verif Require Import PyStr Regex RegexParse RegexFacts RegexLang PyNum PyNumFacts Types TypesSpec TypesFacts TypesFacts2 TypesFacts3 TypesFacts4 CardsFacts CardsFacts2 CardsFacts7 Ptrac PtracSpec PtracFacts.
Import ListNotations.
Open Scope char_scope.

Definition cs_dot : cset := {| cneg := true; cranges := [(10, 10)%N] |}.
Definition cs_ws : cset := cs [(9, 13); (28, 32); (133, 133); (160, 160)]%N.
Definition cs_nl : cset := cs [(10, 10)]%N.
Definition run (w : nat) : re := RRep false w (Some w) (RSet cs_dot).
Definition cell (i w : nat) : re := RGrp i (run w).
Fixpoint cells (i w n : nat) (tl : re) : re :=
  match n with O => tl | S n' => RCat (cell i w) (cells (S i) w n' tl) end.
(** A line of [S n] fields of width [w] as groups [i], ... *)
Definition line (i w n : nat) : re := RCat (RSet cs_ws) (cells i w n (cell (i + n) w)).

Lemma dot_notnl c : inset cs_dot c = notnl c.
Proof. pose proof (all_ascii (fun c => Bool.eqb (inset cs_dot c) (notnl c)) eq_refl c) as Q. now apply eqb_prop. Qed.
Lemma allc_dot u : allc (inset cs_dot) u <-> allc notnl u.
Proof. unfold allc. rewrite !Forall_forall. split; intros H x Hx; rewrite <- (H x Hx); rewrite dot_notnl; auto. Qed.

Lemma W_run w u c : W (run w) u c -> length u = w /\ allc notnl u /\ c = [].
Proof. intros H. apply W_rep_set in H as (A & B & C & D). split; [lia|]. split; auto. now apply allc_dot. Qed.
Lemma accc_set cs c : inset cs c = true -> accc (RSet cs) [c] [].
Proof. intros H. apply acc_accc, acc_set. exact H. Qed.
Lemma accc_ext r u u' c c' : accc r u c -> u = u' -> c = c' -> accc r u' c'.
Proof. now intros H <- <-. Qed.
Lemma accc_rep_set lz mn mx cs u : allc (inset cs) u -> mn <= length u ->
  (match mx with Some n => length u <= n | None => True end) -> accc (RRep lz mn mx (RSet cs)) u [].
Proof.
  intros HA HM HX.
  pose proof (accc_rep lz mn mx (RSet cs) (map (fun c => ([c], [])) u)) as H.
  rewrite (map_map _ fst), (map_map _ snd), map_length in H. cbn [fst snd] in H.
  assert (E1 : concat (map (fun x => [x]) u) = u) by (clear; induction u; cbn; congruence).
  assert (E2 : concat (rev (map (fun _ : ascii => @nil (nat * list ascii)) u)) = []).
  { clear. induction u as [|a u IH]; auto. cbn. rewrite concat_app, IH. reflexivity. }
  eapply accc_ext; [apply H; auto|exact E1|exact E2]. apply Forall_map. revert HA. apply Forall_impl.
  intros c Hc. cbn. split; [now apply accc_set|discriminate].
Qed.
Lemma accc_run w u : length u = w -> allc notnl u -> accc (run w) u [].
Proof. intros <- H. apply accc_rep_set; auto. now apply allc_dot. Qed.
Lemma W_cell i w u c : W (cell i w) u c -> length u = w /\ allc notnl u /\ c = [(i, u)].
Proof. intros (c' & H & ->). apply W_run in H as (A & B & ->). auto. Qed.
Lemma accc_cell i w u : length u = w -> allc notnl u -> accc (cell i w) u [(i, u)].
Proof. intros H1 H2. apply accc_grp. now apply accc_run. Qed.

Definition field (w : nat) (u : str) : Prop := length u = w /\ allc notnl u.
Definition caps_of (i : nat) (us : list str) : capl := rev (combine (seq i (length us)) us).

Lemma caps_of_cons i u us : caps_of i (u :: us) = caps_of (S i) us ++ [(i, u)].
Proof. reflexivity. Qed.
Lemma caps_of_snoc i us v : caps_of i (us ++ [v]) = (i + length us, v) :: caps_of i us.
Proof.
  revert i. induction us as [|u us IH]; intros i.
  - cbn. now rewrite Nat.add_0_r.
  - cbn [app]. rewrite !caps_of_cons, IH. cbn [length app]. do 2 f_equal. lia.
Qed.

Lemma W_cells w tl n : forall i u c, W (cells i w n tl) u c ->
  exists us v d, length us = n /\ Forall (field w) us /\ W tl v d /\ u = concat us ++ v /\ c = d ++ caps_of i us.
Proof.
  induction n as [|n IH]; cbn [cells]; intros i u c H.
  - exists [], u, c. repeat split; auto. now rewrite app_nil_r.
  - destruct H as (u1 & u2 & c1 & c2 & H1 & H2 & -> & ->). apply W_cell in H1 as (A & B & ->).
    apply IH in H2 as (us & v & d & E1 & E2 & E3 & -> & ->).
    exists (u1 :: us), v, d. repeat split; auto.
    + now cbn; f_equal.
    + constructor; auto. split; auto.
    + cbn. now rewrite app_assoc.
    + now rewrite caps_of_cons, app_assoc.
Qed.
Lemma accc_cells w tl us v d : Forall (field w) us -> accc tl v d -> forall i,
  accc (cells i w (length us) tl) (concat us ++ v) (d ++ caps_of i us).
Proof.
  intros HF HT. induction HF as [|u us [H1 H2] HF IH]; intros i; cbn [length cells concat].
  - now rewrite app_nil_r.
  - rewrite caps_of_cons, app_assoc, <- app_assoc. apply accc_cat; auto. now apply accc_cell.
Qed.

Lemma app_inj_len {A} (a b c d : list A) : length a = length c -> a ++ b = c ++ d -> a = c /\ b = d.
Proof.
  revert c. induction a as [|x a IH]; intros [|y c] H E; try discriminate; auto.
  cbn in *. inversion E; subst. destruct (IH c) as [-> ->]; auto.
Qed.
Lemma fields_unique w us vs s t : Forall (field w) us -> Forall (field w) vs -> length us = length vs ->
  concat us ++ s = concat vs ++ t -> us = vs /\ s = t.
Proof.
  intros HU. revert vs. induction HU as [|u us [L1 _] HU IH]; intros [|v vs] HV HL E; try discriminate; auto.
  pose proof (Forall_inv HV) as [L2 _]. apply Forall_inv_tail in HV. cbn [concat] in E. rewrite <- !app_assoc in E.
  apply app_inj_len in E as [-> E]; [|congruence]. apply IH in E as [-> ->]; auto.
Qed.

Lemma W_line i w n u c : W (line i w n) u c -> exists x us, inset cs_ws x = true /\
  length us = S n /\ Forall (field w) us /\ u = x :: concat us /\ c = caps_of i us.
Proof.
  intros (u1 & u2 & c1 & c2 & (x & -> & Hx & ->) & H & -> & ->).
  apply W_cells in H as (us & v & d & E1 & E2 & E3 & -> & ->). apply W_cell in E3 as (A & B & ->).
  exists x, (us ++ [v]). repeat split; auto.
  - rewrite app_length. cbn. lia.
  - apply Forall_app. split; auto. constructor; auto. split; auto.
  - rewrite concat_app. cbn. now rewrite app_nil_r.
  - rewrite caps_of_snoc, app_nil_r, E1. reflexivity.
Qed.
Lemma accc_line i w n x us : inset cs_ws x = true -> length us = S n -> Forall (field w) us ->
  accc (line i w n) (x :: concat us) (caps_of i us).
Proof.
  intros Hx HL HF. destruct us as [|v us _] using rev_ind; [discriminate|].
  rewrite app_length in HL. cbn in HL. replace n with (length us) by lia.
  apply Forall_app in HF as [HF HV]. apply Forall_inv in HV as [A B].
  unfold line. rewrite caps_of_snoc. eapply accc_ext.
  - apply accc_cat; [apply accc_set; exact Hx|]. apply accc_cells; [exact HF|]. apply accc_cell; [exact A|exact B].
  - rewrite concat_app. cbn. now rewrite app_nil_r.
  - now rewrite app_nil_r.
Qed.

Lemma line_plain i w n : plain (line i w n) = true.
Proof. cbn. generalize (i + n) as k. intros k. revert i. induction n; cbn; auto. Qed.

(** The whole line. *)
Lemma match_line w n us : length us = S n -> Forall (field w) us ->
  re_match (whole (line 1 w n)) (sp :: concat us) = Some {| mpre := []; mtext := sp :: concat us; mrest := []; mcaps := caps_of 1 us |}.
Proof.
  intros HL HF. apply match_whole; [apply line_plain|now apply accc_line|].
  intros c H. apply W_line in H as (x & vs & _ & EL & EF & E & ->). inversion E; subst.
  destruct (fields_unique w us vs [] []) as [-> _]; auto; [congruence|]. now rewrite !app_nil_r.
Qed.
Lemma fields_length w us : Forall (field w) us -> length (concat us) = length us * w.
Proof. induction 1 as [|u us [H _] HF IH]; auto. cbn. rewrite app_length, IH, H. lia. Qed.
Lemma match_line_none w n s : length s <> 1 + S n * w -> re_match (whole (line 1 w n)) s = None.
Proof.
  intros HL. apply match_whole_none; [apply line_plain|]. intros c H.
  apply W_line in H as (x & vs & _ & EL & EF & -> & _). apply HL. cbn [length].
  rewrite (fields_length w) by auto. rewrite EL. reflexivity.
Qed.

Lemma lookup_caps i us j : j < length us -> lookup (i + j) (caps_of i us) = Some (nth j us []).
Proof.
  revert i j. induction us as [|u us IH]; intros i j H; [cbn in H; lia|].
  rewrite caps_of_cons, lookup_app. destruct j as [|j].
  - rewrite lookup_high.
    + cbn. now rewrite Nat.add_0_r, Nat.eqb_refl.
    + rewrite Nat.add_0_r. clear. unfold caps_of. apply Forall_rev. apply Forall_forall. intros [k x] H.
      apply in_combine_l in H. apply in_seq in H. cbn. lia.
  - replace (i + S j) with (S i + j) by lia. rewrite IH by (cbn in H; lia). reflexivity.
Qed.

Lemma read_fields_caps p t r us kinds vs : length us = length kinds ->
  Forall2 (fun kv u => fval_from_mcnp (fst kv) u = Ok (snd kv)) (combine kinds vs) us -> length vs = length kinds ->
  forall o i, (forall j, j < length us -> group (i + j) o = Some (nth j us [])) ->
  (o = {| mpre := p; mtext := t; mrest := r; mcaps := mcaps o |}) ->
  read_fields o i kinds = Ok vs.
Proof.
  revert us vs. induction kinds as [|k kinds IH]; intros [|u us] [|v vs] L1 HF L2 o i HG HO; try discriminate; auto.
  cbn [combine] in HF. inversion HF; subst. cbn [read_fields].
  pose proof (HG 0 ltac:(cbn; lia)) as G0. rewrite Nat.add_0_r in G0. cbn [nth] in G0. unfold grp. rewrite G0.
  cbn [fst snd] in H2. rewrite H2. cbn [bind]. rewrite (IH us vs); auto.
  - intros j Hj. replace (S i + j) with (i + S j) by lia. rewrite HG by (cbn; lia). reflexivity.
Qed.

Lemma codes t : In t event_types -> In t event_codes.
Proof.
  assert (F : forallb (fun t => existsb (seqb t) event_codes) event_types = true) by (vm_compute; reflexivity).
  rewrite forallb_forall in F. intros H. apply F, existsb_exists in H as (x & HI & E). apply seqb_eq in E. now subst.
Qed.
Lemma event_type_rt w t : In t event_types -> length t <= w -> event_type_from_mcnp (strip (rjust w t)) = Ok t.
Proof.
  intros H HL. apply codes in H. assert (S : strip (rjust w t) = t).
  { assert (A : allc (fun c => negb (is_space c)) t).
    { assert (F : forallb (fun t => forallb (fun c => negb (is_space c)) t) event_codes = true) by (vm_compute; reflexivity).
      rewrite forallb_forall in F. apply F in H. apply Forall_forall. rewrite forallb_forall in H. auto. }
    unfold strip. rewrite rjust_blanks, lstrip_blanks. now apply strip_nospace in A. }
  rewrite S. unfold event_type_from_mcnp. replace (existsb (seqb t) event_codes) with true; auto.
  symmetry. apply existsb_exists. exists t. split; auto. now apply seqb_eq.
Qed.
Lemma code_length t : In t event_types -> length t <= 10 /\ allc notnl t.
Proof.
  intros H. apply codes in H. assert (F : forallb (fun t => (length t <=? 10)%nat && forallb notnl t)%bool event_codes = true) by (vm_compute; reflexivity).
  rewrite forallb_forall in F. apply F in H. apply andb_prop in H as [A B]. split; [now apply Nat.leb_le|].
  apply Forall_forall. rewrite forallb_forall in B. auto.
Qed.

(** ** J lines *)

Lemma re_j_line k : k <= 7 -> re_j k = whole (line 1 10 (length (j_types k))).
Proof. intros H. do 8 (destruct k as [|k]; [vm_compute; reflexivity|]). lia. Qed.

Definition j_fields (j : jdata) : list str := rjust 10 (jd_next j) :: map (int_field 10) (jd_ints j).
Lemma j_text_fields j : j_text j = sp :: concat (j_fields j).
Proof. reflexivity. Qed.
Lemma j_fields_ok j : j_data_ok j -> length (j_fields j) = S (length (j_types (jd_form j))) /\ Forall (field 10) (j_fields j).
Proof.
  intros (_ & HC & HL & HF). unfold j_fields. split; [cbn; rewrite map_length; congruence|].
  constructor.
  - apply code_length in HC as [A B]. split; [now apply rjust_length|now apply rjust_notnl].
  - apply Forall_map. revert HF. apply Forall_impl. intros z Hz. split; [now apply int_field_length|apply int_field_notnl].
Qed.

Lemma int_fields_read w kinds zs : w <= 1000 -> Forall (fits w) zs -> length zs = length kinds ->
  Forall2 (fun kv u => fval_from_mcnp (fst kv) u = Ok (snd kv))
    (combine kinds (map (fun kz => int_value (fst kz) (snd kz)) (combine kinds zs))) (map (int_field w) zs).
Proof.
  intros HW HF. revert kinds. induction HF as [|z zs Hz HF IH]; intros [|k kinds] HL; try discriminate; cbn; constructor; auto.
  cbn [fst snd]. now apply int_field_value.
Qed.

Theorem j_read j : j_data_ok j -> j_from_mcnp (jd_form j) (j_text j) = Ok (j_value j).
Proof.
  intros H. destruct (j_fields_ok j H) as [HL HF]. destruct H as (HK & HC & HN & HI).
  unfold j_from_mcnp. change (j_kinds (jd_form j)) with (j_types (jd_form j)). rewrite re_j_line by auto. rewrite j_text_fields, match_line by auto.
  assert (HG : forall j', j' < length (j_fields j) -> lookup (1 + j') (caps_of 1 (j_fields j)) = Some (nth j' (j_fields j) [])) by (intros; now apply lookup_caps).
  pose proof (HG 0 ltac:(lia)) as G1. cbn [Nat.add j_fields nth] in G1. unfold grp at 1. cbn [group mcaps]. rewrite G1.
  rewrite event_type_rt; auto; [|now apply code_length in HC as [A _]]. cbn [bind].
  erewrite read_fields_caps; [reflexivity|..].
  4:{ intros i Hi. cbn [Nat.add group mcaps]. change (S (S i)) with (1 + S i). rewrite HG.
      - cbn [j_fields nth]. reflexivity.
      - unfold j_fields. cbn [length]. apply -> Nat.succ_lt_mono. exact Hi. }
  - now rewrite map_length.
  - apply int_fields_read; auto. lia.
  - rewrite map_length, combine_length, HN. apply Nat.min_id.
  - reflexivity.
Qed.

Lemma j_write j : length (jd_ints j) = length (j_types (jd_form j)) -> j_to_mcnp (j_value j) = j_text j.
Proof.
  intros H. unfold j_to_mcnp, j_value, j_text. cbn [next_type jvals]. do 3 f_equal. rewrite map_map.
  assert (E : forall kinds zs, length zs = length kinds ->
    map (fun kz : bool * Z => rjust 10 (fval_str (int_value (fst kz) (snd kz)))) (combine kinds zs) = map (int_field 10) zs).
  { clear. induction kinds as [|k kinds IH]; intros [|z zs] H; try discriminate; auto. cbn. rewrite IH by auto.
    now rewrite int_value_str. }
  now apply E.
Qed.

(** ** P lines *)

Lemma re_p_line k : k <= 1 -> re_p k = whole (line 1 13 (pred (p_numbers k))).
Proof. intros H. do 2 (destruct k as [|k]; [vm_compute; reflexivity|]). lia. Qed.

Lemma E_fields_ok l : Forall (normal 5) l -> Forall (field 13) (map (E_field 5) l).
Proof.
  intros H. apply Forall_map. revert H. apply Forall_impl. intros x Hx.
  split; [apply E_field_length; auto; lia|now apply E_field_notnl].
Qed.
Theorem p_read k l : k <= 1 -> p_data_ok k l -> p_from_mcnp k (p_text l) = Ok (p_value k l).
Proof.
  intros HK [HL HF]. unfold p_from_mcnp. change (p_count k) with (p_numbers k). rewrite re_p_line by auto. unfold p_text.
  assert (PC : 1 <= p_numbers k) by (destruct k as [|[|k]]; cbn; lia).
  rewrite match_line; [|rewrite map_length; lia|now apply E_fields_ok].
  erewrite read_fields_caps with (us := map (E_field 5) l) (vs := map (fun x => FR (sci_value 5 x)) l).
  6: reflexivity.
  - cbn [bind]. unfold p_value. repeat f_equal. clear. induction l; cbn; auto. unfold reals_of in *. cbn. now rewrite IHl.
  - now rewrite map_length, repeat_length.
  - rewrite <- HL. clear - HF. induction HF as [|x l Hx HF IH]; cbn; constructor; auto.
    cbn [fst snd]. unfold fval_from_mcnp. rewrite E_field_real by (auto; lia). reflexivity.
  - now rewrite map_length, repeat_length.
  - intros i Hi. cbn [Nat.add group mcaps]. now rewrite (lookup_caps 1).
Qed.
Lemma p_write k l : l <> [] -> Forall (normal 5) l -> p_to_mcnp (p_value k l) = Ok (p_text l).
Proof.
  intros HN HF. unfold p_to_mcnp, p_value. cbn [pvals].
  assert (E : mapM (real_format 5 1) (map (sci_value 5) l) = Ok (map (fun x => tl (E_field 5 x)) l)).
  { clear HN. induction HF as [|x l Hx HF IH]; auto. cbn [map mapM]. rewrite E_format by (auto; lia). cbn [bind].
    rewrite IH. reflexivity. }
  rewrite E. cbn [bind]. unfold p_text. do 2 f_equal.
  destruct l as [|x l]; [congruence|]. clear. revert x. induction l as [|y l IH]; intros x.
  - cbn [map join concat]. now rewrite app_nil_r.
  - change (map (fun x => tl (E_field 5 x)) (x :: y :: l)) with (tl (E_field 5 x) :: map (fun x => tl (E_field 5 x)) (y :: l)).
    cbn [map join concat]. change (E_field 5 x) with (sp :: tl (E_field 5 x)) at 2. cbn [app]. f_equal. f_equal.
    apply IH.
Qed.
