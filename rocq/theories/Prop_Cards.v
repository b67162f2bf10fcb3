(** Properties C25-C29: cards and options.  [construct] is the constructor of a
    class, [set_attr] its setters, [card_to_mcnp]/[option_to_mcnp] its writer,
    [card_from_mcnp]/[family_from_mcnp] its reader; [k_X] is the class X of the
    library (Tables.v), [all_classes] all modelled ones. *)

From Coq Require Import Ascii String NArith ZArith Bool Arith Lia List.
From Verif Require Import PyStr Regex RegexParse PyNum Types TypesSpec CardText CardTextSpec Cards Tables CardsSpec
  CardsFacts5 CardsFacts6 CardsFacts7 CardsFacts8.
Import ListNotations.
Open Scope char_scope.

(** ** C25 *)

(** Full statement: for every class of the regular form and every object, reading
    the written text gives the object back.  Proved: every class with a form, any
    values of any size and sequences of any length, under [values_ok]. Missing:
    unset fields before set ones (false, see C26), counted shorthand (false, C12),
    distribution numbers from 10 (false, C07), keyword parts wider than 78
    columns, and the classes that are not of the regular form. *)
Theorem C25_cards_partial : forall ext fam c f vs o,
  has_form c f -> c_kind c = KCard -> values_ok f vs ->
  construct ext fam c (map to_arg vs) = Ok o -> length (head_text (c_kw c) (texts o)) <= 78 ->
  card_from_mcnp ext fam c (card_to_mcnp c o) = Ok (o, []).
Proof. exact card_round_trip. Qed.
Print Assumptions C25_cards_partial.

Theorem C25_options_partial : forall ext fam c f vs o,
  has_form c f -> c_kind c = KOption -> values_ok f vs ->
  construct ext fam c (map to_arg vs) = Ok o ->
  family_from_mcnp ext fam [c] (option_to_mcnp c o) = Ok (c, o).
Proof. exact option_round_trip. Qed.
Print Assumptions C25_options_partial.

(** Read as a member of its family: the class is recognised, too. *)
Theorem C25_families_partial : forall ext fam cs c f vs o,
  Forall (fun d => exists fd, has_form d fd /\ head_parts fd = []) cs ->
  NoDup (map (fun d => slower (c_kw d)) cs) ->
  In c cs -> has_form c f -> head_parts f = [] -> c_kind c = KOption -> values_ok f vs ->
  construct ext fam c (map to_arg vs) = Ok o ->
  family_from_mcnp ext fam cs (option_to_mcnp c o) = Ok (c, o).
Proof. exact family_round_trip. Qed.
Print Assumptions C25_families_partial.

(** Which classes of the library have a form: 534 of the 675 in the table. *)
Theorem C25_regular_classes : forall c, regularb c = true -> exists f, has_form c f.
Proof. intros c H. exists (decode c). exact (regularb_ok c H). Qed.
Print Assumptions C25_regular_classes.
Theorem C25_coverage : length all_classes = 675 /\ length (filter regularb all_classes) = 534 /\
  length families = 61 /\ length (filter (fun x => familyb (snd x)) families) = 19.
Proof. vm_compute. repeat split. Qed.
Theorem C25_regular_families : forall cs, familyb cs = true ->
  Forall (fun d => exists fd, has_form d fd /\ head_parts fd = []) cs /\ NoDup (map (fun d => slower (c_kw d)) cs).
Proof. exact familyb_ok. Qed.
Print Assumptions C25_regular_families.

(** [*tr5 1 2.5 -3 1 0 0 0 1 0 1 0 0] and [wwn2:n 1 j 0.5]. *)
Definition real_ (z : Z) (e : Z) : option val := Some (VReal (RVal (Fin (z <? 0)%Z (Z.abs_N z) e))).
Definition tr_values : list (option val) :=
  [Some (VStr (L "*")); Some (VInt (IVal 5)); real_ 1 0; real_ 25 (-1); real_ (-3) 0;
   real_ 1 0; real_ 0 0; real_ 0 0; real_ 0 0; real_ 1 0; real_ 0 0; None].
Definition wwn_values : list (option val) :=
  [Some (VInt (IVal 2)); Some (VDesig (L "n")); Some (VTup [VReal (RVal (Fin false 1 0)); VReal (RHor (HJump None)); VReal (RVal (Fin false 5 (-1)))])].
Example C25_case_tr : has_form k_Tr_1 (decode k_Tr_1) /\ values_ok (decode k_Tr_1) tr_values /\
  exists o, construct ext fam k_Tr_1 (map to_arg tr_values) = Ok o /\
    card_to_mcnp k_Tr_1 o = L "*tr5 1 2.5 -3 1 0 0 0 1 0" /\ length (head_text (c_kw k_Tr_1) (texts o)) <= 78.
Proof.
  split; [apply regularb_ok; vm_compute; reflexivity|]. split.
  - exists (firstn 2 tr_values), (skipn 2 tr_values). split; [reflexivity|]. split.
    + constructor; [reflexivity|]. constructor; [|constructor]. exists 5%N. split; vm_compute; reflexivity.
    + vm_compute. repeat split; auto; constructor; auto.
  - eexists. split; [vm_compute; reflexivity|]. split; vm_compute; [reflexivity|]. repeat constructor.
Qed.
Example C25_case_wwn : has_form k_Wwn (decode k_Wwn) /\ values_ok (decode k_Wwn) wwn_values /\
  exists o, construct ext fam k_Wwn (map to_arg wwn_values) = Ok o /\ card_to_mcnp k_Wwn o = L "wwn2:n 1 j 0.5".
Proof.
  split; [apply regularb_ok; vm_compute; reflexivity|]. split.
  - exists (firstn 2 wwn_values), (skipn 2 wwn_values). split; [reflexivity|]. split.
    + constructor; [exists 2%N; split; vm_compute; reflexivity|]. constructor; [|constructor].
      exists (L "n"). split; vm_compute; reflexivity.
    + replace (f_fields (decode k_Wwn)) with [(Tup TReal, false)] by (vm_compute; reflexivity).
      split; [split; [discriminate|]|exact I]. repeat constructor.
  - eexists. split; [vm_compute; reflexivity|]. vm_compute. reflexivity.
Qed.
Example C25_case_family : familyb f_bfld_BfldOption = true /\ In k_bfld_Maxdeflc f_bfld_BfldOption /\
  values_ok (decode k_bfld_Maxdeflc) [real_ 25 (-1)].
Proof.
  split; [vm_compute; reflexivity|]. split; [vm_compute; auto 10|]. exists [], [real_ 25 (-1)]. split; [reflexivity|].
  split; [constructor|]. vm_compute. auto.
Qed.

(** ** C26 *)

(** False of the code: PHYS:N with EMCNF = 5 and EMAX unset is read as EMAX = 5. *)
Definition gap_values : list (option val) := None :: real_ 5 0 :: repeat None 6.
Definition shifted_values : list (option val) := real_ 5 0 :: None :: repeat None 6.
Theorem C26_gap_refuted : exists o o',
  construct ext fam k_Phys_0 (map to_arg gap_values) = Ok o /\
  construct ext fam k_Phys_0 (map to_arg shifted_values) = Ok o' /\
  card_from_mcnp ext fam k_Phys_0 (card_to_mcnp k_Phys_0 o) = Ok (o', []) /\ o <> o'.
Proof.
  eexists. eexists. split; [vm_compute; reflexivity|]. split; [vm_compute; reflexivity|]. split; [vm_compute; reflexivity|]. discriminate.
Qed.
Print Assumptions C26_gap_refuted.

(** It is so in every class of the regular form: the values that are set move up
    to the first fields, whenever they are acceptable there. *)
Theorem C26_gaps_close_refuted : forall ext fam c f hs fs fs' o o',
  has_form c f -> c_kind c = KCard -> Forall2 head_ok (head_parts f) hs ->
  fitting (f_fields f) fs -> gapless (f_fields f) fs' -> somes fs = somes fs' ->
  construct ext fam c (map to_arg (hs ++ fs)) = Ok o -> construct ext fam c (map to_arg (hs ++ fs')) = Ok o' ->
  length (head_text (c_kw c) (texts o')) <= 78 ->
  card_from_mcnp ext fam c (card_to_mcnp c o) = Ok (o', []).
Proof. exact gap_closes. Qed.
Print Assumptions C26_gaps_close_refuted.
Example C26_case : has_form k_Phys_0 (decode k_Phys_0) /\ fitting (f_fields (decode k_Phys_0)) gap_values /\
  gapless (f_fields (decode k_Phys_0)) shifted_values /\ somes gap_values = somes shifted_values.
Proof.
  split; [apply regularb_ok; vm_compute; reflexivity|]. split; [|split; [|reflexivity]].
  - replace (f_fields (decode k_Phys_0)) with [(One TReal, true); (One TReal, true); (One TInt, true); (One TReal, true); (One TInt, true); (One TInt, true); (One TInt, true); (One TInt, true)] by (vm_compute; reflexivity).
    repeat constructor; try discriminate. intros y [= <-]. vm_compute. reflexivity.
  - vm_compute. repeat split; auto; repeat constructor.
Qed.

(** What holds: without gaps nothing moves ([C25_cards_partial]); in particular
    unset fields at the end stay unset, whatever their number. *)
Theorem C26_trailing_partial : forall ext fam c f hs vs o,
  has_form c f -> c_kind c = KCard -> Forall2 head_ok (head_parts f) hs -> gapless (f_fields f) vs ->
  construct ext fam c (map to_arg (hs ++ vs)) = Ok o -> length (head_text (c_kw c) (texts o)) <= 78 ->
  card_from_mcnp ext fam c (card_to_mcnp c o) = Ok (o, []).
Proof.
  intros ext fam c f hs vs o HF HK HH HG HC HL. apply (card_round_trip ext fam c f (hs ++ vs) o); auto. exists hs, vs. auto.
Qed.
Print Assumptions C26_trailing_partial.

(** ** C27 *)

(** Every text a regular class accepts is the keyword (in any letter case) with
    one piece of text per attribute, in the order in which they are written, and
    attribute [i] is read from the piece [i]. *)
Theorem C27_own_text_partial : forall ext fam c f s o comments,
  has_form c f -> card_from_mcnp ext fam c s = Ok (o, comments) ->
  exists kw hs fs vs, slower kw = slower (c_kw c) /\ length hs = length (head_parts f) /\ length fs = length (f_fields f) /\
    fst (card_preprocess s) = assembled f kw hs fs /\
    Forall2 (fun x v => read_attr ext (a_ty (fst x)) (snd x) = Ok v) (combine (c_attrs c) (hs ++ fs)) vs /\
    construct ext fam c (map to_arg vs) = Ok o.
Proof.
  intros ext fam c f s o cm HF H. unfold card_from_mcnp in H. destruct (card_preprocess s) as [t cs]. cbn [fst].
  destruct (re_match (compile true (c_pat c)) t) as [mo|] eqn:E; [|discriminate].
  destruct (read_cls ext fam c mo) as [p| |] eqn:E2; try discriminate. cbn [bind] in H.
  assert (X : p = o) by congruence. subst p. exact (regular_read ext fam c f t mo o HF E E2).
Qed.
Print Assumptions C27_own_text_partial.
Example C27_case : card_from_mcnp ext fam k_Wwn (L "WWN2:n 1" ++ [nl] ++ L "      j 0.5 $ weights") =
  Ok ([("suffix", Some (VInt (IVal 2))); ("designator", Some (VDesig (L "n")));
       ("bounds", Some (VTup [VReal (RVal (Fin false 1 0)); VReal (RHor (HJump None)); VReal (RVal (Fin false 5 (-1)))]))]%string, [L " weights"]).
Proof. vm_compute. reflexivity. Qed.

(** False for FMULT: the options are read from inside the nuclide number, and
    those that were written are lost. *)
Definition fmult_values : list arg := [AStr (L "92235"); AList [AStr (L "width 1")]].
Theorem C27_own_text_refuted : exists o o',
  construct ext fam k_Fmult fmult_values = Ok o /\ card_to_mcnp k_Fmult o = L "fmult 092235 width 1" /\
  card_from_mcnp ext fam k_Fmult (card_to_mcnp k_Fmult o) = Ok (o', []) /\
  assoc "options" o' = Some (Some (VTup [])) /\
  assoc "options" o = Some (Some (VTup [VObj k_fmult_Width [real_ 1 0]])).
Proof.
  eexists. eexists. split; [vm_compute; reflexivity|]. split; [vm_compute; reflexivity|]. split; [vm_compute; reflexivity|].
  split; vm_compute; reflexivity.
Qed.
Print Assumptions C27_own_text_refuted.

(** ** C28 *)

(** After any history, every attribute passes the tests of its setter, if those
    look at the attribute alone. Missing: tests that look at other attributes
    (4 in the library), for which it is false. *)
Theorem C28_constraints_partial : forall ext fam c o,
  NoDup (map a_name (c_attrs c)) -> reachable ext fam c o ->
  forall a, In a (c_attrs c) -> independent a = true -> satisfied o a.
Proof. exact reachable_satisfied. Qed.
Print Assumptions C28_constraints_partial.

(** Constraints between attributes hold after the constructor, and after an
    assignment to the attribute that carries the test. *)
Theorem C28_constructed : forall ext fam c args o,
  NoDup (map a_name (c_attrs c)) -> refs_before [] (c_attrs c) = true ->
  length args = length (c_attrs c) -> construct ext fam c args = Ok o -> Forall (satisfied o) (c_attrs c).
Proof. exact constructed_satisfied. Qed.
Print Assumptions C28_constructed.
Theorem C28_assigned : forall ext fam a v o,
  ~ In (a_name a) (refs a) -> snd (set_attr ext fam a v o) = Ok tt -> satisfied (fst (set_attr ext fam a v o)) a.
Proof. exact assigned_satisfied. Qed.
Print Assumptions C28_assigned.

(** All classes meet the hypotheses, but for the plane through three points. *)
Theorem C28_coverage :
  Forall (fun c => NoDup (map a_name (c_attrs c))) all_classes /\
  map c_name (filter (fun c => negb (refs_before [] (c_attrs c))) all_classes) = ["surface_P_1"%string] /\
  length (flat_map (fun c => filter (fun a => independent a && negb (Nat.eqb (length (a_checks a)) 0))%bool (c_attrs c)) all_classes) = 1205.
Proof.
  split; [|split; vm_compute; reflexivity].
  assert (X : forallb (fun c => nodupb (map a_name (c_attrs c))) all_classes = true) by (vm_compute; reflexivity).
  rewrite forallb_forall in X. apply Forall_forall. intros c HI. now apply nodupb_ok, X.
Qed.
Print Assumptions C28_coverage.

(** NPS: the number of histories is always positive. *)
Theorem C28_nps_positive : forall o, reachable ext fam k_Nps o ->
  exists v, assoc "npp"%string o = Some (Some v) /\ forall z, v = VInt (IVal z) -> (z > 0)%Z.
Proof.
  intros o HR.
  assert (HN : NoDup (map a_name (c_attrs k_Nps))) by (apply nodupb_ok; reflexivity).
  pose proof (C28_constraints_partial ext fam k_Nps o HN HR _ (or_introl eq_refl) eq_refl) as (v & HV & HC). cbn [a_name] in HV.
  apply Forall_inv in HC. destruct v as [v|]; [|discriminate HC]. exists v. split; [exact HV|]. intros z ->. cbn in HC.
  destruct (z ?= 0)%Z eqn:E; cbn in HC; try discriminate. apply Z.gt_lt_iff. now rewrite Z.compare_gt_iff in E.
Qed.
Print Assumptions C28_nps_positive.
(** RAND SEED: always odd. *)
Theorem C28_seed_odd : forall o, reachable ext fam k_rand_Seed o ->
  exists v, assoc "seed"%string o = Some (Some v) /\ forall z, v = VInt (IVal z) -> Z.odd z = true.
Proof.
  intros o HR.
  assert (HN : NoDup (map a_name (c_attrs k_rand_Seed))) by (apply nodupb_ok; reflexivity).
  pose proof (C28_constraints_partial ext fam k_rand_Seed o HN HR _ (or_introl eq_refl) eq_refl) as (v & HV & HC). cbn [a_name] in HV.
  apply Forall_inv in HC. destruct v as [v|]; [|discriminate HC]. exists v. split; [exact HV|]. intros z ->. cbn in HC.
  rewrite Zmod_odd in HC. destruct (Z.odd z); [reflexivity|discriminate HC].
Qed.
Print Assumptions C28_seed_odd.
Example C28_case : exists o, reachable ext fam k_Nps o /\ o = [("npp", Some (VInt (IVal 7))); ("npsmg", None)]%string.
Proof.
  destruct (construct ext fam k_Nps [AInt 5; ANone]) as [o| |] eqn:E; try discriminate E.
  eexists. split.
  - apply (assigned ext fam k_Nps (hd (nth 0 (c_attrs k_Nps) (Build_attr "" (One TInt) [])) (c_attrs k_Nps)) (AInt (-7))); [|now left].
    apply (assigned ext fam k_Nps (hd (nth 0 (c_attrs k_Nps) (Build_attr "" (One TInt) [])) (c_attrs k_Nps)) (AInt 7)); [|now left].
    eapply (made ext fam k_Nps [AInt 5; ANone]); [reflexivity|vm_compute; reflexivity].
  - vm_compute. reflexivity.
Qed.

(** False between attributes: XLIMS 1 2, then lower = 3. *)
Theorem C28_cross_attribute_refuted : exists o a, reachable ext fam k_mplot_Xlims o /\
  In a (c_attrs k_mplot_Xlims) /\ a_name a = "upper"%string /\ ~ satisfied o a.
Proof.
  destruct (construct ext fam k_mplot_Xlims [AInt 1; AInt 2; ANone]) as [o| |] eqn:E; try discriminate E.
  exists (fst (set_attr ext fam (nth 0 (c_attrs k_mplot_Xlims) (Build_attr "" (One TInt) [])) (AInt 3) o)).
  exists (nth 1 (c_attrs k_mplot_Xlims) (Build_attr "" (One TInt) [])).
  split; [apply assigned; [|now left]; now apply (made ext fam k_mplot_Xlims [AInt 1; AInt 2; ANone])|].
  split; [right; now left|]. split; [reflexivity|].
  vm_compute in E. injection E as <-. intros (v & HV & HC). vm_compute in HV. injection HV as <-. apply Forall_inv in HC. discriminate HC.
Qed.
Print Assumptions C28_cross_attribute_refuted.

(** ** C29 *)

(** A setter that raises leaves the object as it was; one that returns changes its
    own attribute only; a history does the same as its accepted assignments. *)
Theorem C29_rejected_unchanged : forall ext fam a v o,
  snd (set_attr ext fam a v o) <> Ok tt -> fst (set_attr ext fam a v o) = o.
Proof. exact rejected_unchanged. Qed.
Print Assumptions C29_rejected_unchanged.
Theorem C29_accepted_changes_one : forall ext fam a v o, snd (set_attr ext fam a v o) = Ok tt ->
  forall n, assoc n (fst (set_attr ext fam a v o)) =
    if String.eqb (a_name a) n then match conv ext fam (a_ty a) v with Ok x => Some x | _ => None end else assoc n o.
Proof. exact accepted_one. Qed.
Print Assumptions C29_accepted_changes_one.
Theorem C29_history : forall ext fam l o, assign_all ext fam o l = assign_all ext fam o (accepted ext fam o l).
Proof. exact history_accepted. Qed.
Print Assumptions C29_history.
Example C29_case : let a := nth 0 (c_attrs k_Nps) (Build_attr "" (One TInt) []) in
  let o := [("npp", Some (VInt (IVal 7))); ("npsmg", None)]%string in
  accepted ext fam o [(a, AInt (-7)); (a, AStr (L "x")); (a, AInt 9); (a, ANone)] = [(a, AInt 9)] /\
  assign_all ext fam o [(a, AInt (-7)); (a, AStr (L "x")); (a, AInt 9); (a, ANone)] =
    [("npp", Some (VInt (IVal 9))); ("npsmg", None)]%string.
Proof. split; vm_compute; reflexivity. Qed.
