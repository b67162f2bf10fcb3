(** Proofs about the properties [nps] and [seed] of problems. *)

From Coq Require Import Ascii String NArith ZArith Bool Arith List Lia.
From Verif Require Import PyStr PyNum Types Cards CardsFacts8 Tables Numbered NumberedFacts Problem ProblemSpec.
Import ListNotations.
Open Scope list_scope.

(** * The heap *)
Lemma put_length h : forall i c, length (put h i c) = length h.
Proof. induction h as [|x h IH]; intros [|i] c; cbn; auto. Qed.
Lemma put_same h : forall i c, i < length h -> nth_error (put h i c) i = Some c.
Proof. induction h as [|x h IH]; intros [|i] c H; cbn in *; try lia; auto. apply IH. lia. Qed.
Lemma put_other h : forall i j c, i <> j -> nth_error (put h i c) j = nth_error h j.
Proof. induction h as [|x h IH]; intros [|i] [|j] c H; cbn; try congruence; auto. Qed.
Lemma put_id h : forall i c, nth_error h i = Some c -> put h i c = h.
Proof. induction h as [|x h IH]; intros [|i] c H; cbn in *; try congruence; f_equal; auto. Qed.

Lemma data_card_ok n h i k o : data_card n h i = Some (k, o) -> nth_error h i = Some (CData k o) /\ c_name k = n.
Proof.
  unfold data_card. destruct (nth_error h i) as [[| | | |k' o']|]; try discriminate. destruct (String.eqb (c_name k') n) eqn:E; [|discriminate].
  intros [= <- <-]. apply String.eqb_eq in E. auto.
Qed.
Lemma data_card_none n h i : data_card n h i = None -> forall k o, nth_error h i = Some (CData k o) -> c_name k <> n.
Proof.
  unfold data_card. intros H k o E. rewrite E in H. destruct (String.eqb (c_name k) n) eqn:EE; [discriminate|]. now apply String.eqb_neq.
Qed.
Lemma first_card_ok n h l i k o : first_card n h l = Some (i, k, o) ->
  exists b t, l = b ++ i :: t /\ data_card n h i = Some (k, o) /\ Forall (fun j => data_card n h j = None) b.
Proof.
  induction l as [|j l IH]; [discriminate|]. cbn. destruct (data_card n h j) as [[k' o']|] eqn:E.
  - intros [= <- <- <-]. exists [], l. auto.
  - intros H. destruct (IH H) as (b & t & -> & D & F). exists (j :: b), t. repeat split; auto.
Qed.
Lemma first_card_here n h i k o b t : data_card n h i = Some (k, o) -> Forall (fun j => data_card n h j = None) b ->
  first_card n h (b ++ i :: t) = Some (i, k, o).
Proof. intros D. induction 1 as [|j b HJ _ IH]; cbn; [now rewrite D|now rewrite HJ]. Qed.
Lemma first_card_none n h l : first_card n h l = None -> Forall (fun j => data_card n h j = None) l.
Proof. induction l as [|j l IH]; [constructor|]. cbn. destruct (data_card n h j) as [[k o]|] eqn:E; [discriminate|]. auto. Qed.
Lemma first_is_first n h p i k o : first_card n h (p_data p) = Some (i, k, o) -> is_first n (h, p) i k o.
Proof.
  intros H. destruct (first_card_ok _ _ _ _ _ _ H) as (b & t & E & D & F). exists b, t. destruct (data_card_ok _ _ _ _ _ D) as [E1 E2].
  cbn [fst snd]. repeat split; auto. revert F. apply Forall_impl. intros j. apply data_card_none.
Qed.

(** The card found is changed in place: it is found again. *)
Lemma data_card_put n h i k o o' j : data_card n h i = Some (k, o) ->
  data_card n (put h i (CData k o')) j = if Nat.eqb i j then Some (k, o') else data_card n h j.
Proof.
  intros D. destruct (data_card_ok _ _ _ _ _ D) as [E1 E2]. destruct (Nat.eqb_spec i j) as [<-|HN].
  - unfold data_card. rewrite put_same by (apply nth_error_Some; congruence). rewrite <- E2, String.eqb_refl. reflexivity.
  - unfold data_card. now rewrite put_other.
Qed.
Lemma first_card_put n h l i k o o' : first_card n h l = Some (i, k, o) ->
  first_card n (put h i (CData k o')) l = Some (i, k, o').
Proof.
  intros H. destruct (first_card_ok _ _ _ _ _ _ H) as (b & t & -> & D & F). apply first_card_here.
  - rewrite (data_card_put _ _ _ _ _ _ _ D), Nat.eqb_refl. reflexivity.
  - revert F. rewrite !Forall_forall. intros F j HJ. rewrite (data_card_put _ _ _ _ _ _ _ D).
    destruct (Nat.eqb_spec i j) as [<-|]; [|auto]. rewrite (F _ HJ) in D. discriminate.
Qed.
(** A card added is found if there was none. *)
Lemma first_card_add n h l k o : Forall (fun i => i < length h) l -> first_card n h l = None -> c_name k = n ->
  first_card n (h ++ [CData k o]) (l ++ [length h]) = Some (length h, k, o).
Proof.
  intros HW H HK. apply first_card_none in H. apply first_card_here.
  - unfold data_card. rewrite nth_error_app2, Nat.sub_diag by lia. cbn. now rewrite HK, String.eqb_refl.
  - rewrite Forall_forall in *. intros j HJ. specialize (H _ HJ). specialize (HW _ HJ). unfold data_card in *. now rewrite nth_error_app1.
Qed.

(** * Arguments *)
Lemma conv_given a x : conv ext fam (One TInt) a = Ok x -> match x with Some v => given a v | None => a = ANone end.
Proof.
  destruct a as [|z|s|v|l]; cbn [conv from_int]; try discriminate; try (intros [= <-]; reflexivity).
  cbn [read_ty]. destruct (integer_from_mcnp s) as [i| |] eqn:E; cbn [bind]; try discriminate. intros [= <-]. exists i. auto.
Qed.
Lemma conv_arg_of x : conv ext fam (One TInt) (arg_of x) = Ok x.
Proof. destruct x; reflexivity. Qed.

Lemma set_attr_inv a v o o' r : set_attr ext fam a v o = (o', r) ->
  (r = Ok tt /\ exists x, conv ext fam (a_ty a) v = Ok x /\ run_checks o x (a_checks a) = Ok tt /\ o' = upd (a_name a) x o) \/
  (r <> Ok tt /\ o' = o).
Proof.
  unfold set_attr. destruct (conv ext fam (a_ty a) v) as [x| |]; [|intros [= <- <-]; right; split; [discriminate|reflexivity]..].
  destruct (run_checks o x (a_checks a)) as [[]| |] eqn:E; intros [= <- <-]; [left|right; split; [discriminate|reflexivity]..].
  split; [reflexivity|]. exists x. auto.
Qed.
Lemma assoc_upd n x o m : assoc m (upd n x o) = if String.eqb n m then Some x else assoc m o.
Proof.
  unfold upd. induction o as [|[y w] o IH]; cbn.
  - destruct (String.eqb n m); reflexivity.
  - destruct (String.eqb_spec y n) as [->|HN]; cbn; [destruct (String.eqb n m); reflexivity|].
    destruct (String.eqb_spec y m) as [->|HM]; [destruct (String.eqb_spec n m); congruence|exact IH].
Qed.
Lemma construct_one k a v l o : c_attrs k = a :: l -> construct ext fam k (v :: map (fun _ => ANone) l) = Ok o ->
  exists x, conv ext fam (a_ty a) v = Ok x /\ run_checks [] x (a_checks a) = Ok tt.
Proof.
  unfold construct. intros ->. cbn [combine init_attrs]. destruct (set_attr ext fam a v []) as [o' r] eqn:E.
  apply set_attr_inv in E. destruct E as [(-> & x & E1 & E2 & _)|[HN _]]; [eauto|].
  destruct r as [[]| |]; try congruence; discriminate.
Qed.

(** * [nps] *)
Opaque conv.
Lemma npp_conv v : conv ext fam (a_ty npp_attr) v = conv ext fam (One TInt) v.
Proof. reflexivity. Qed.
Lemma nps_construct x o : construct ext fam k_Nps [arg_of x; ANone] = Ok o -> x <> None /\ assoc "npp"%string o = Some x.
Proof.
  unfold construct, k_Nps. cbn [c_attrs combine init_attrs]. intros H.
  match type of H with match ?e with _ => _ end = _ => destruct e as [o1 r1] eqn:E1 end.
  apply set_attr_inv in E1. cbn [a_ty a_name a_checks] in E1. rewrite conv_arg_of in E1.
  destruct E1 as [(-> & y & [= <-] & C1 & ->)|[HN _]]; [|destruct r1 as [[]| |]; try congruence; discriminate].
  match type of H with match ?e with _ => _ end = _ => destruct e as [o2 r2] eqn:E2 end.
  apply set_attr_inv in E2. cbn [a_ty a_name a_checks] in E2.
  destruct E2 as [(-> & z & E2 & C2 & ->)|[HN _]]; [|destruct r2 as [[]| |]; try congruence; discriminate].
  injection H as <-. split.
  - intros ->. cbn in C1. discriminate.
  - reflexivity.
Qed.

Theorem nps_get_set a s s' : wf s -> nps_set a s = (s', Ok tt) -> exists v, given a v /\ nps_get s' = Ok (Some v).
Proof.
  destruct s as [h p]. unfold wf, nps_set. cbn [fst snd]. intros HW.
  destruct (conv ext fam (One TInt) a) as [x| |] eqn:EC; [|discriminate..].
  apply conv_given in EC. destruct (first_card "Nps" h (p_data p)) as [[[i k] o]|] eqn:EF.
  - destruct (set_attr ext fam npp_attr (arg_of x) o) as [o' r] eqn:ES. intros [= <- ->].
    apply set_attr_inv in ES. destruct ES as [(_ & y & E1 & E2 & ->)|[HN _]]; [|congruence].
    rewrite npp_conv, conv_arg_of in E1. injection E1 as <-.
    assert (HX : x <> None) by (intros ->; cbn in E2; discriminate).
    destruct x as [v|]; [|congruence]. exists v. split; [exact EC|]. unfold nps_get. rewrite (first_card_put _ _ _ _ _ _ _ EF).
    unfold get_attr. rewrite assoc_upd. reflexivity.
  - destruct (construct ext fam k_Nps [arg_of x; ANone]) as [o| |] eqn:EK; [|discriminate..]. intros [= <-].
    destruct (nps_construct _ _ EK) as [HX HA]. destruct x as [v|]; [|congruence]. exists v. split; [exact EC|].
    unfold nps_get, add_data. cbn [p_data]. rewrite first_card_add by (auto; reflexivity). unfold get_attr. now rewrite HA.
Qed.

Theorem nps_refused a s : snd (nps_set a s) <> Ok tt -> fst (nps_set a s) = s.
Proof.
  destruct s as [h p]. unfold nps_set. destruct (conv ext fam (One TInt) a) as [x| |]; [|reflexivity..].
  destruct (first_card "Nps" h (p_data p)) as [[[i k] o]|] eqn:EF.
  - destruct (set_attr ext fam npp_attr (arg_of x) o) as [o' r] eqn:ES. cbn [fst snd]. intros HR.
    apply set_attr_inv in ES. destruct ES as [(-> & _)|[_ ->]]; [congruence|].
    destruct (first_card_ok _ _ _ _ _ _ EF) as (b & t & _ & D & _). apply data_card_ok in D. destruct D as [D _]. now rewrite put_id.
  - destruct (construct ext fam k_Nps [arg_of x; ANone]); cbn; congruence.
Qed.

(** What else changes. *)
Theorem nps_frame a s s' r : nps_set a s = (s', r) ->
  same_rest (snd s) (snd s') /\
  (exists e, p_data (snd s') = p_data (snd s) ++ e /\ length e <= 1) /\
  forall i c, nth_error (fst s) i = Some c ->
    nth_error (fst s') i = Some c \/
    exists k o o', c = CData k o /\ is_first "Nps" s i k o /\ nth_error (fst s') i = Some (CData k o') /\ differ_in "npp" o o'.
Proof.
  intros H. destruct (match r with Ok tt => true | _ => false end) eqn:ER.
  2: { pose proof (nps_refused a s) as HU. rewrite H in HU. cbn [fst snd] in HU. rewrite HU by (intros ->; discriminate ER).
       split; [unfold same_rest; tauto|]. split; [exists []; rewrite app_nil_r; auto|auto]. }
  destruct s as [h p]. unfold nps_set in H.
  destruct (conv ext fam (One TInt) a) as [x| |]; [|injection H as <- <-; discriminate ER..].
  destruct (first_card "Nps" h (p_data p)) as [[[i k] o]|] eqn:EF.
  - destruct (set_attr ext fam npp_attr (arg_of x) o) as [o' r'] eqn:ES. injection H as <- <-. cbn [fst snd].
    split; [unfold same_rest; tauto|]. split; [exists []; rewrite app_nil_r; auto|]. intros j c HJ.
    destruct (Nat.eq_dec i j) as [<-|HN]; [|left; now rewrite put_other].
    right. pose proof (first_is_first _ _ _ _ _ _ EF) as HF. destruct HF as (b & t & A & B & C). cbn [fst snd] in A, B.
    rewrite HJ in B. injection B as ->. exists k, o, o'. split; [reflexivity|]. split; [exact (first_is_first _ _ _ _ _ _ EF)|].
    split; [apply put_same; apply nth_error_Some; congruence|].
    apply set_attr_inv in ES. destruct ES as [(_ & y & _ & _ & ->)|[_ ->]]; [|intros m _; reflexivity].
    intros m HM. rewrite assoc_upd. cbn [a_name npp_attr]. change (a_name npp_attr) with "npp"%string.
    destruct (String.eqb_spec "npp" m); [congruence|reflexivity].
  - destruct (construct ext fam k_Nps [arg_of x; ANone]) as [o| |]; injection H as <- <-; try discriminate ER. cbn [fst snd add_data].
    split; [unfold same_rest; cbn; tauto|]. split; [exists [length h]; split; [reflexivity|cbn; lia]|].
    intros j c HJ. left. rewrite nth_error_app1; [exact HJ|]. apply nth_error_Some. congruence.
Qed.
Lemma nps_wf a s : wf s -> wf (fst (nps_set a s)).
Proof.
  destruct s as [h p]. unfold wf, nps_set. cbn [fst snd]. intros HW. destruct (conv ext fam (One TInt) a) as [x| |]; [|exact HW..].
  destruct (first_card "Nps" h (p_data p)) as [[[i k] o]|].
  - destruct (set_attr ext fam npp_attr (arg_of x) o) as [o' r]. cbn [fst snd]. now rewrite put_length.
  - destruct (construct ext fam k_Nps [arg_of x; ANone]); cbn [fst snd add_data]; [|exact HW..]. rewrite app_length. cbn [p_data length].
    apply Forall_app. split; [revert HW; apply Forall_impl; intros; lia|repeat constructor; lia].
Qed.

(** Every positive number is accepted. *)
Lemma npp_checks o z : (0 < z)%Z -> run_checks o (Some (VInt (IVal z))) (a_checks npp_attr) = Ok tt.
Proof. intros H. cbn. destruct z; try lia. reflexivity. Qed.
Theorem nps_accepts z s : (0 < z)%Z -> snd (nps_set (AInt z) s) = Ok tt.
Proof.
  destruct s as [h p]. intros H. unfold nps_set.
  assert (EC : conv ext fam (One TInt) (AInt z) = Ok (Some (VInt (IVal z)))) by reflexivity. rewrite EC.
  destruct (first_card "Nps" h (p_data p)) as [[[i k] o]|].
  - unfold set_attr. rewrite npp_conv, conv_arg_of, (npp_checks _ _ H). reflexivity.
  - assert (E : construct ext fam k_Nps [arg_of (Some (VInt (IVal z))); ANone] = Ok [("npp"%string, Some (VInt (IVal z))); ("npsmg"%string, None)]).
    { unfold construct. change (c_attrs k_Nps) with [npp_attr; nth 1 (c_attrs k_Nps) npp_attr]. cbn [combine init_attrs].
      unfold set_attr at 1. rewrite npp_conv, conv_arg_of, (npp_checks _ _ H). reflexivity. }
    rewrite E. reflexivity.
Qed.

(** * [seed] *)
Lemma first_seed_ok l b k x t : first_seed l = Some (b, k, x, t) -> l = b ++ VObj k x :: t /\ c_name k = "rand_Seed"%string /\ Forall (fun v => is_seed v = None) b.
Proof.
  revert b. induction l as [|v l IH]; intros b; [discriminate|]. cbn [first_seed]. destruct (is_seed v) as [[k' x']|] eqn:E.
  - intros [= <- <- <- <-]. unfold is_seed in E. destruct v; try discriminate. destruct (String.eqb_spec (c_name c) "rand_Seed") as [HN|]; [|discriminate].
    injection E as <- <-. auto.
  - destruct (first_seed l) as [[[[b' k'] x'] t']|]; [|discriminate]. intros [= <- <- <- <-].
    destruct (IH _ eq_refl) as (-> & A & B). auto.
Qed.
Lemma first_seed_here b k x t : Forall (fun v => is_seed v = None) b -> c_name k = "rand_Seed"%string ->
  first_seed (b ++ VObj k x :: t) = Some (b, k, x, t).
Proof.
  intros F HK. induction F as [|v b HV _ IH]; cbn [app first_seed].
  - cbn [is_seed]. now rewrite HK.
  - now rewrite HV, IH.
Qed.
Lemma first_seed_none l : first_seed l = None -> Forall (fun v => is_seed v = None) l.
Proof.
  induction l as [|v l IH]; [constructor|]. cbn [first_seed]. destruct (is_seed v) as [[k x]|] eqn:E; [discriminate|].
  destruct (first_seed l) as [[[[b k] x] t]|]; [discriminate|]. auto.
Qed.
Lemma rand_family k : In k (fam "rand_RandOption") -> c_name k = "rand_Seed"%string -> k = k_rand_Seed.
Proof.
  change (fam "rand_RandOption") with f_rand_RandOption. unfold f_rand_RandOption. cbn [In].
  intros H HN. repeat (destruct H as [<-|H]; [try discriminate HN; reflexivity|]). destruct H.
Qed.
Lemma rand_option_ty v : rand_option v -> is_ty fam (TExt "rand_RandOption" pat_rand_RandOption) v = true.
Proof.
  intros (k & l & -> & HI & _). cbn [is_ty]. apply existsb_exists. exists k. split; [exact HI|apply String.eqb_refl].
Qed.
Lemma conv_options l : Forall rand_option l ->
  conv ext fam (Tup (TExt "rand_RandOption" pat_rand_RandOption)) (AList (map AVal l)) = Ok (Some (VTup l)).
Proof.
  intros F. Transparent conv. unfold conv. cbn [items].
  assert (E : mapM (conv_item ext fam (TExt "rand_RandOption" pat_rand_RandOption)) (map AVal l) = Ok (map (fun v => [v]) l)).
  { induction F as [|v l HV _ IH]; [reflexivity|]. cbn [map mapM]. rewrite IH. unfold conv_item. rewrite (rand_option_ty _ HV). reflexivity. }
  rewrite E. cbn [bind]. do 3 f_equal. clear. induction l as [|v l IH]; [reflexivity|]. cbn. now f_equal.
Qed.
Opaque conv.
Lemma seed_construct x o : construct ext fam k_rand_Seed [arg_of x] = Ok o -> x <> None /\ o = [("seed"%string, x)].
Proof.
  unfold construct, k_rand_Seed. cbn [c_attrs combine init_attrs]. intros H.
  match type of H with match ?e with _ => _ end = _ => destruct e as [o1 r1] eqn:E1 end.
  apply set_attr_inv in E1. cbn [a_ty a_name a_checks] in E1. rewrite conv_arg_of in E1.
  destruct E1 as [(-> & y & [= <-] & C1 & ->)|[HN _]]; [|destruct r1 as [[]| |]; try congruence; discriminate].
  injection H as <-. split; [|reflexivity]. intros ->. cbn in C1. discriminate.
Qed.
Lemma new_seed_option x : rand_option (as_val k_rand_Seed [("seed"%string, x)]).
Proof.
  exists k_rand_Seed, [x]. split; [reflexivity|]. split; [|reflexivity]. change (fam "rand_RandOption") with f_rand_RandOption.
  unfold f_rand_RandOption. cbn [In]. tauto.
Qed.
Lemma options_of_ok o l : options_of o = Ok l -> (assoc "options"%string o = Some (Some (VTup l)) \/ (assoc "options"%string o = Some None /\ l = [])) /\ stored_options o = l.
Proof.
  unfold options_of, stored_options. destruct (assoc "options"%string o) as [[[]|]|]; try discriminate; intros [= <-]; auto.
Qed.

(** What an accepted assignment does. *)
Lemma seed_set_inv a h p s' : rand_typed (h, p) -> seed_set a (h, p) = (s', Ok tt) ->
  exists v, given a v /\
  ((exists i k o b y t, first_card "Rand" h (p_data p) = Some (i, k, o) /\ stored_options o = b ++ VObj k_rand_Seed y :: t /\
      Forall (fun v => is_seed v = None) b /\
      s' = (put h i (CData k (upd "options" (Some (VTup (b ++ VObj k_rand_Seed [Some v] :: t))) o)), p)) \/
   (exists i k o, first_card "Rand" h (p_data p) = Some (i, k, o) /\ Forall (fun v => is_seed v = None) (stored_options o) /\
      s' = (put h i (CData k (upd "options" (Some (VTup (stored_options o ++ [VObj k_rand_Seed [Some v]]))) o)), p)) \/
   (first_card "Rand" h (p_data p) = None /\ s' = add_data (h, p) (CData k_Rand [("options"%string, Some (VTup [VObj k_rand_Seed [Some v]]))]))).
Proof.
  intros HT. unfold seed_set.
  destruct (conv ext fam (One TInt) a) as [x| |] eqn:EC; [|discriminate..]. apply conv_given in EC.
  destruct (first_card "Rand" h (p_data p)) as [[[i k] o]|] eqn:EF.
  - destruct (options_of o) as [l| |] eqn:EO; [|discriminate..]. destruct (options_of_ok _ _ EO) as [HO HS].
    pose proof (first_is_first _ _ _ _ _ _ EF) as (b0 & t0 & _ & EH & EN & _). cbn [fst] in EH.
    assert (FL : Forall rand_option l).
    { destruct HO as [HO|[_ ->]]; [|constructor]. destruct (HT i k o EH EN) as [E|(l' & E & F)]; [congruence|]. rewrite HO in E. now injection E as ->. }
    destruct (first_seed l) as [[[[b j] y] t]|] eqn:ES.
    + apply first_seed_ok in ES. destruct ES as (-> & HJ & HB).
      apply Forall_app in FL. destruct FL as [_ FL]. inversion FL as [|w ws HW _]; subst. destruct HW as (k' & l' & [= <- <-] & HI & HL).
      pose proof (rand_family _ HI HJ). subst j. destruct y as [|y0 [|y1 y]]; try discriminate HL.
      destruct (set_attr ext fam seed_attr (arg_of x) (as_obj k_rand_Seed [y0])) as [o' r] eqn:ESA. intros [= <- ->].
      apply set_attr_inv in ESA. destruct ESA as [(_ & z & E1 & E2 & ->)|[HN _]]; [|congruence].
      change (a_ty seed_attr) with (One TInt) in E1. rewrite conv_arg_of in E1. injection E1 as <-.
      assert (HX : x <> None) by (intros ->; cbn in E2; discriminate). destruct x as [v|]; [|congruence].
      exists v. split; [exact EC|]. left. exists i, k, o, b, [y0], t. repeat split; auto.
    + apply first_seed_none in ES. destruct (construct ext fam k_rand_Seed [arg_of x]) as [os| |] eqn:EK; [|discriminate..].
      destruct (seed_construct _ _ EK) as [HX ->]. destruct x as [v|]; [|congruence].
      unfold set_attr. change (a_ty options_attr) with (Tup (TExt "rand_RandOption" pat_rand_RandOption)).
      rewrite conv_options by (apply Forall_app; split; [exact FL|repeat constructor; apply new_seed_option]).
      change (a_checks options_attr) with (@nil bexp). cbn [run_checks]. intros [= <-].
      exists v. split; [exact EC|]. right. left. exists i, k, o. rewrite HS. repeat split; auto.
  - destruct (construct ext fam k_rand_Seed [arg_of x]) as [os| |] eqn:EK; [|discriminate..].
    destruct (seed_construct _ _ EK) as [HX ->]. destruct x as [v|]; [|congruence].
    assert (E : construct ext fam k_Rand [AList [AVal (as_val k_rand_Seed [("seed"%string, Some v)])]] =
      Ok [("options"%string, Some (VTup [VObj k_rand_Seed [Some v]]))]).
    { unfold construct. change (c_attrs k_Rand) with [options_attr]. cbn [combine init_attrs]. unfold set_attr.
      change (a_ty options_attr) with (Tup (TExt "rand_RandOption" pat_rand_RandOption)).
      change [AVal (as_val k_rand_Seed [("seed"%string, Some v)])] with (map AVal [as_val k_rand_Seed [("seed"%string, Some v)]]).
      rewrite conv_options by (repeat constructor; apply new_seed_option). reflexivity. }
    rewrite E. intros [= <-]. exists v. split; [exact EC|]. right. right. auto.
Qed.

Theorem seed_get_set a s s' : wf s -> rand_typed s -> seed_set a s = (s', Ok tt) -> exists v, given a v /\ seed_get s' = Ok (Some v).
Proof.
  destruct s as [h p]. intros HW HT H. destruct (seed_set_inv _ _ _ _ HT H) as (v & HG & [HC|[HC|HC]]); exists v; (split; [exact HG|]).
  - destruct HC as (i & k & o & b & y & t & EF & _ & HB & ->). unfold seed_get. rewrite (first_card_put _ _ _ _ _ _ _ EF).
    unfold options_of. rewrite assoc_upd. cbn [String.eqb Ascii.eqb Bool.eqb bind]. rewrite first_seed_here by (auto; reflexivity). reflexivity.
  - destruct HC as (i & k & o & EF & HB & ->). unfold seed_get. rewrite (first_card_put _ _ _ _ _ _ _ EF).
    unfold options_of. rewrite assoc_upd. cbn [String.eqb Ascii.eqb Bool.eqb bind]. rewrite first_seed_here by (auto; reflexivity). reflexivity.
  - destruct HC as (EF & ->). unfold seed_get, add_data. cbn [p_data]. rewrite first_card_add by (auto; reflexivity). reflexivity.
Qed.
Theorem seed_frame a s s' : rand_typed s -> seed_set a s = (s', Ok tt) ->
  same_rest (snd s) (snd s') /\
  (exists e, p_data (snd s') = p_data (snd s) ++ e /\ length e <= 1) /\
  forall i c, nth_error (fst s) i = Some c ->
    nth_error (fst s') i = Some c \/
    exists k o o', c = CData k o /\ is_first "Rand" s i k o /\ nth_error (fst s') i = Some (CData k o') /\
      differ_in "options" o o' /\ one_seed (stored_options o) (stored_options o').
Proof.
  destruct s as [h p]. intros HT H.
  assert (HP : forall i k o o', first_card "Rand" h (p_data p) = Some (i, k, o) ->
    differ_in "options" o o' -> one_seed (stored_options o) (stored_options o') ->
    same_rest p p /\ (exists e, p_data p = p_data p ++ e /\ length e <= 1) /\
    forall j c, nth_error h j = Some c -> nth_error (put h i (CData k o')) j = Some c \/
      exists k1 o1 o'', c = CData k1 o1 /\ is_first "Rand" (h, p) j k1 o1 /\ nth_error (put h i (CData k o')) j = Some (CData k1 o'') /\
        differ_in "options" o1 o'' /\ one_seed (stored_options o1) (stored_options o'')).
  { intros i k o o' EF HD HS. split; [unfold same_rest; tauto|]. split; [exists []; rewrite app_nil_r; auto|]. intros j c HJ.
    destruct (Nat.eq_dec i j) as [<-|HN]; [|left; now rewrite put_other]. right.
    pose proof (first_is_first _ _ _ _ _ _ EF) as HF. pose proof HF as (b & t & _ & B & _). cbn [fst snd] in B.
    rewrite HJ in B. injection B as ->. exists k, o, o'. split; [reflexivity|]. split; [exact HF|]. split; [|split; assumption].
    rewrite put_same; [|apply nth_error_Some; congruence]. reflexivity. }
  assert (HU : forall x o, differ_in "options" o (upd "options" x o)).
  { intros x o m HM. rewrite assoc_upd. destruct (String.eqb_spec "options" m); [congruence|reflexivity]. }
  assert (HSO : forall l o, stored_options (upd "options" (Some (VTup l)) o) = l).
  { intros l o. unfold stored_options. now rewrite assoc_upd. }
  destruct (seed_set_inv _ _ _ _ HT H) as (v & HG & [HC|[HC|HC]]).
  - destruct HC as (i & k & o & b & y & t & EF & ES & HB & ->). cbn [fst snd]. 
    apply (HP i k o _ EF (HU _ _)). rewrite HSO, ES. right. left.
    exists b, (VObj k_rand_Seed y), (VObj k_rand_Seed [Some v]), t. repeat split; auto; eexists _, _; (split; reflexivity).
  - destruct HC as (i & k & o & EF & HB & ->). cbn [fst snd].
    apply (HP i k o _ EF (HU _ _)). rewrite HSO. right. right. eexists. split; [reflexivity|]. eexists _, _; split; reflexivity.
  - destruct HC as (EF & ->). cbn [fst snd add_data]. split; [unfold same_rest; cbn; tauto|].
    split; [exists [length h]; split; [reflexivity|cbn; lia]|].
    intros j c HJ. left. rewrite nth_error_app1; [exact HJ|]. apply nth_error_Some. congruence.
Qed.

Lemma seed_refused a s : rand_typed s -> snd (seed_set a s) <> Ok tt -> fst (seed_set a s) = s.
Proof.
  destruct s as [h p]. intros HT. unfold seed_set. destruct (conv ext fam (One TInt) a) as [x| |]; [|reflexivity..].
  destruct (first_card "Rand" h (p_data p)) as [[[i k] o]|] eqn:EF.
  - destruct (options_of o) as [l| |] eqn:EO; [|reflexivity..]. destruct (options_of_ok _ _ EO) as [HO HS].
    pose proof (first_is_first _ _ _ _ _ _ EF) as (b0 & t0 & _ & EH & EN & _). cbn [fst] in EH.
    destruct (first_seed l) as [[[[b j] y] t]|] eqn:ES.
    + destruct (set_attr ext fam seed_attr (arg_of x) (as_obj j y)) as [o' r] eqn:ESA. cbn [fst snd]. intros HR.
      apply set_attr_inv in ESA. destruct ESA as [(-> & _)|[_ ->]]; [congruence|].
      apply first_seed_ok in ES. destruct ES as (-> & HJ & HB).
      destruct HO as [HO|[_ HO]]; [|destruct b; discriminate HO].
      destruct (HT i k o EH EN) as [E|(l' & E & F)]; [congruence|]. rewrite HO in E. injection E as <-.
      apply Forall_app in F. destruct F as [_ F]. inversion F as [|w ws HW _]; subst. destruct HW as (k' & l' & [= <- <-] & HI & HL).
      assert (EV : as_val j (as_obj j y) = VObj j y).
      { unfold as_val, as_obj. f_equal. clear - HL. rewrite <- (map_length a_name) in HL. revert HL. generalize (map a_name (c_attrs j)).
        induction y as [|u y IH]; intros [|n l] HL; try discriminate; [reflexivity|]. cbn. f_equal. apply IH. now injection HL. }
      rewrite EV, put_id; [reflexivity|]. rewrite EH. do 2 f_equal. clear - HO. revert HO. unfold upd.
      induction o as [|[n w] o IH]; [discriminate|]. cbn. destruct (String.eqb_spec n "options") as [->|HN]; [intros [= ->]; reflexivity|].
      intros HO. f_equal. now apply IH.
    + destruct (construct ext fam k_rand_Seed [arg_of x]) as [os| |] eqn:EK; [|reflexivity..].
      destruct (set_attr ext fam options_attr _ o) as [o' r] eqn:ESA. cbn [fst snd]. intros HR.
      apply set_attr_inv in ESA. destruct ESA as [(-> & _)|[_ ->]]; [congruence|]. now rewrite put_id.
  - destruct (construct ext fam k_rand_Seed [arg_of x]) as [os| |]; [|reflexivity..].
    destruct (construct ext fam k_Rand _) as [o| |]; [cbn; congruence|reflexivity..].
Qed.
Lemma seed_checks o z : (z mod 2 = 1)%Z -> run_checks o (Some (VInt (IVal z))) (a_checks seed_attr) = Ok tt.
Proof. intros H. cbn -[Z.modulo Z.compare]. rewrite H. reflexivity. Qed.
Theorem seed_accepts z s : rand_typed s -> (z mod 2 = 1)%Z -> snd (seed_set (AInt z) s) = Ok tt.
Proof.
  destruct s as [h p]. intros HT H. unfold seed_set.
  assert (EC : conv ext fam (One TInt) (AInt z) = Ok (Some (VInt (IVal z)))) by reflexivity. rewrite EC.
  assert (EK : construct ext fam k_rand_Seed [arg_of (Some (VInt (IVal z)))] = Ok [("seed"%string, Some (VInt (IVal z)))]).
  { unfold construct. change (c_attrs k_rand_Seed) with [seed_attr]. cbn [combine init_attrs]. unfold set_attr.
    change (a_ty seed_attr) with (One TInt). rewrite conv_arg_of, (seed_checks _ _ H). reflexivity. }
  destruct (first_card "Rand" h (p_data p)) as [[[i k] o]|] eqn:EF.
  - pose proof (first_is_first _ _ _ _ _ _ EF) as (b0 & t0 & _ & EH & EN & _). cbn [fst] in EH.
    assert (HL : exists l, options_of o = Ok l /\ Forall rand_option l).
    { unfold options_of. destruct (HT i k o EH EN) as [E|(l' & E & F)]; rewrite E; eauto. }
    destruct HL as (l & EO & FL). rewrite EO. destruct (first_seed l) as [[[[b j] y] t]|] eqn:ES.
    + unfold set_attr. change (a_ty seed_attr) with (One TInt). rewrite conv_arg_of, (seed_checks _ _ H). reflexivity.
    + rewrite EK. unfold set_attr. change (a_ty options_attr) with (Tup (TExt "rand_RandOption" pat_rand_RandOption)).
      rewrite conv_options by (apply Forall_app; split; [exact FL|repeat constructor; apply new_seed_option]). reflexivity.
  - rewrite EK. assert (E : construct ext fam k_Rand [AList [AVal (as_val k_rand_Seed [("seed"%string, Some (VInt (IVal z)))])]] =
      Ok [("options"%string, Some (VTup [VObj k_rand_Seed [Some (VInt (IVal z))]]))]).
    { unfold construct. change (c_attrs k_Rand) with [options_attr]. cbn [combine init_attrs]. unfold set_attr.
      change (a_ty options_attr) with (Tup (TExt "rand_RandOption" pat_rand_RandOption)).
      change [AVal (as_val k_rand_Seed [("seed"%string, Some (VInt (IVal z)))])] with (map AVal [as_val k_rand_Seed [("seed"%string, Some (VInt (IVal z)))]]).
      rewrite conv_options by (repeat constructor; apply new_seed_option). reflexivity. }
    rewrite E. reflexivity.
Qed.

(** * Histories *)
Lemma ok_tt (r : result unit) : r = Ok tt \/ r <> Ok tt.
Proof. destruct r as [[]| |]; [left; reflexivity|right; discriminate..]. Qed.
Lemma rand_put h p i k o o' : rand_typed (h, p) -> nth_error h i = Some (CData k o) ->
  (c_name k = "Rand"%string -> assoc "options"%string o' = Some None \/ exists l, assoc "options"%string o' = Some (Some (VTup l)) /\ Forall rand_option l) ->
  rand_typed (put h i (CData k o'), p).
Proof.
  intros HT HI HO j k1 o1. cbn [fst]. destruct (Nat.eq_dec i j) as [<-|HN]; [|rewrite put_other by exact HN; exact (HT j k1 o1)].
  rewrite put_same by (apply nth_error_Some; congruence). intros [= <- <-]. exact HO.
Qed.
Lemma rand_add h p k o : rand_typed (h, p) ->
  (c_name k = "Rand"%string -> assoc "options"%string o = Some None \/ exists l, assoc "options"%string o = Some (Some (VTup l)) /\ Forall rand_option l) ->
  rand_typed (add_data (h, p) (CData k o)).
Proof.
  intros HT HO j k1 o1. unfold add_data. cbn [fst]. destruct (Nat.lt_ge_cases j (length h)) as [HL|HL].
  - rewrite nth_error_app1 by exact HL. exact (HT j k1 o1).
  - rewrite nth_error_app2 by exact HL. destruct (j - length h) as [|n]; cbn; [intros [= <- <-]; exact HO|destruct n; discriminate].
Qed.
Lemma nps_rand a s : rand_typed s -> rand_typed (fst (nps_set a s)).
Proof.
  destruct s as [h p]. intros HT. unfold nps_set. destruct (conv ext fam (One TInt) a) as [x| |]; [|exact HT..].
  destruct (first_card "Nps" h (p_data p)) as [[[i k] o]|] eqn:EF.
  - destruct (set_attr ext fam npp_attr (arg_of x) o) as [o' r] eqn:E. cbn [fst].
    pose proof (first_is_first _ _ _ _ _ _ EF) as (b0 & t0 & _ & EH & EN & _). apply (rand_put _ _ _ _ _ _ HT EH).
    intros HN. rewrite EN in HN. discriminate.
  - destruct (construct ext fam k_Nps [arg_of x; ANone]) as [o| |]; [|exact HT..]. apply rand_add; [exact HT|discriminate].
Qed.
Lemma seed_sound a s : sound s -> sound (fst (seed_set a s)).
Proof.
  intros [HW HT]. destruct (seed_set a s) as [s' r] eqn:E. cbn [fst]. destruct (ok_tt r) as [->|HR].
  2: { pose proof (seed_refused a s HT) as HU. rewrite E in HU. cbn [fst snd] in HU. rewrite (HU HR). split; assumption. }
  destruct s as [h p]. destruct (seed_set_inv _ _ _ _ HT E) as (v & HG & [HC|[HC|HC]]).
  - destruct HC as (i & k & o & b & y & t & EF & ES & HB & ->). pose proof (first_is_first _ _ _ _ _ _ EF) as (b0 & t0 & _ & EH & EN & _). cbn [fst] in EH.
    split; [unfold wf in *; cbn [fst snd] in *; now rewrite put_length|]. apply (rand_put _ _ _ _ _ _ HT EH). intros _. right.
    exists (b ++ VObj k_rand_Seed [Some v] :: t). rewrite assoc_upd. split; [reflexivity|].
    unfold stored_options in ES. destruct (HT i k o EH EN) as [E1|(l & E1 & F)]; rewrite E1 in ES; [destruct b; discriminate|]. subst l.
    apply Forall_app in F. destruct F as [F1 F2]. apply Forall_app. split; [exact F1|]. inversion F2; subst. constructor; [|assumption].
    apply new_seed_option.
  - destruct HC as (i & k & o & EF & HB & ->). pose proof (first_is_first _ _ _ _ _ _ EF) as (b0 & t0 & _ & EH & EN & _). cbn [fst] in EH.
    split; [unfold wf in *; cbn [fst snd] in *; now rewrite put_length|]. apply (rand_put _ _ _ _ _ _ HT EH). intros _. right.
    exists (stored_options o ++ [VObj k_rand_Seed [Some v]]). rewrite assoc_upd. split; [reflexivity|]. apply Forall_app. split; [|repeat constructor; apply new_seed_option].
    unfold stored_options. destruct (HT i k o EH EN) as [E1|(l & E1 & F)]; rewrite E1; [constructor|exact F].
  - destruct HC as (EF & ->). split.
    + unfold wf in *. cbn [fst snd add_data p_data] in *. rewrite app_length. cbn [length].
      apply Forall_app. split; [revert HW; apply Forall_impl; intros; lia|repeat constructor; lia].
    + apply rand_add; [exact HT|]. intros _. right. eexists. split; [reflexivity|]. repeat constructor. apply new_seed_option.
Qed.
Theorem after_sound l : forall s, sound s -> sound (after s l).
Proof.
  induction l as [|e l IH]; intros s HS; [exact HS|]. cbn [after fold_left]. apply IH. destruct e as [a|a]; cbn [edited].
  - destruct HS as [HW HT]. split; [now apply nps_wf|now apply nps_rand].
  - now apply seed_sound.
Qed.

Lemma data_card_is n h i k o : nth_error h i = Some (CData k o) -> c_name k = n -> data_card n h i = Some (k, o).
Proof. intros E <-. unfold data_card. now rewrite E, String.eqb_refl. Qed.
Lemma data_card_not n h i : (forall k o, nth_error h i = Some (CData k o) -> c_name k <> n) -> data_card n h i = None.
Proof.
  intros H. unfold data_card. destruct (nth_error h i) as [[]|]; auto. destruct (String.eqb_spec (c_name k) n); auto. exfalso. eapply H; eauto.
Qed.
Lemma is_first_first n s i k o : is_first n s i k o -> first_card n (fst s) (p_data (snd s)) = Some (i, k, o).
Proof.
  intros (b & t & -> & E & N & F). apply first_card_here; [now apply data_card_is|].
  revert F. apply Forall_impl. intros j. apply data_card_not.
Qed.
Lemma no_card_first n s : no_card n s -> first_card n (fst s) (p_data (snd s)) = None.
Proof.
  unfold no_card. induction (p_data (snd s)) as [|i l IH]; intros H; auto. cbn [first_card].
  rewrite data_card_not by (intros k o; apply H; now left). apply IH. intros j k o Hj. apply H. now right.
Qed.
Lemma nps_read s : (no_card "Nps" s -> nps_get s = Ok None) /\
  (forall i k o v, is_first "Nps" s i k o -> assoc "npp"%string o = Some v -> nps_get s = Ok v).
Proof.
  destruct s as [h p]. split.
  - intros H. apply no_card_first in H. cbn [fst snd] in H. unfold nps_get. now rewrite H.
  - intros i k o v H E. apply is_first_first in H. cbn [fst snd] in H. unfold nps_get. rewrite H. unfold get_attr. now rewrite E.
Qed.
Lemma no_seed_first l : Forall (fun v => ~ seed_option v) l -> first_seed l = None.
Proof.
  induction 1 as [|v l Hv _ IH]; auto. cbn [first_seed]. destruct (is_seed v) as [[k x]|] eqn:E; [|now rewrite IH].
  exfalso. apply Hv. unfold is_seed in E. destruct v; try discriminate. destruct (String.eqb_spec (c_name c) "rand_Seed"); [|discriminate].
  eexists _, _. split; [reflexivity|assumption].
Qed.
Lemma seed_read s : (no_card "Rand" s -> seed_get s = Ok None) /\
  (forall i k o, is_first "Rand" s i k o -> assoc "options"%string o = Some None -> seed_get s = Ok None) /\
  (forall i k o l, is_first "Rand" s i k o -> assoc "options"%string o = Some (Some (VTup l)) -> Forall (fun v => ~ seed_option v) l -> seed_get s = Ok None) /\
  (forall i k o b v t, is_first "Rand" s i k o -> assoc "options"%string o = Some (Some (VTup (b ++ VObj k_rand_Seed [v] :: t))) ->
     Forall (fun v => ~ seed_option v) b -> seed_get s = Ok v).
Proof.
  destruct s as [h p]. repeat apply conj.
  - intros H. apply no_card_first in H. cbn [fst snd] in H. unfold seed_get. now rewrite H.
  - intros i k o H E. apply is_first_first in H. cbn [fst snd] in H. unfold seed_get. rewrite H. unfold options_of. now rewrite E.
  - intros i k o l H E F. apply is_first_first in H. cbn [fst snd] in H. unfold seed_get. rewrite H. unfold options_of. rewrite E. cbn [bind]. now rewrite no_seed_first.
  - intros i k o b v t H E F. apply is_first_first in H. cbn [fst snd] in H. unfold seed_get. rewrite H. unfold options_of. rewrite E. cbn [bind].
    rewrite first_seed_here; [reflexivity| |reflexivity]. revert F. apply Forall_impl. intros w Hw.
    destruct (is_seed w) as [[k' x]|] eqn:EW; auto. exfalso. apply Hw. unfold is_seed in EW. destruct w; try discriminate.
    destruct (String.eqb_spec (c_name c) "rand_Seed"); [|discriminate]. eexists _, _. split; [reflexivity|assumption].
Qed.
