(** Cells come back. *)

From Coq Require Import Ascii String NArith ZArith Bool Arith Lia List.
From Verif Require Import PyStr Regex RegexParse RegexFacts RegexLang PyNum PyNumFacts Types TypesSpec TypesFacts TypesFacts2 TypesFacts3 TypesFacts4 TypesFacts5 SubFacts CardText CardTextSpec CardTextFacts CardTextFacts2 CardTextFacts3 CardTextFacts4 CardTextFacts5 CardTextFacts6
  Cards Tables CardsSpec CardsFacts CardsFacts2 CardsFacts3 CardsFacts4 CardsFacts5 CardsFacts6 RegexDer Geometry GeometrySpec GeometryFacts GeometryFacts4 Numbered Problem InpFile InpSpec InpSpec2 InpFacts InpFacts2 InpFacts5 InpFacts6 InpFacts7 InpFacts8 InpFacts9 InpFacts10 OptSpec CellSpec OptFacts OptFacts2 OptFacts3 OptFacts4 OptFacts5 EqualityFacts CellFacts CellFacts2.
Import ListNotations.
Open Scope char_scope.
Open Scope list_scope.

(** ** Options begin with a letter, or with [*] and a letter *)

Definition every_char : list ascii := map (fun n => ascii_of_N (N.of_nat n)) (seq 0 256).
Definition other_chars : list ascii := filter (inset nonletter) every_char.
Definition a_list (q : str) : re := RRep true 1 None (RCat (chr_re sp) (scan_re q)).
Definition starred_ok (q : str) : bool := refuses [[sp]; ["*"]; other_chars] (a_list q) && refuses_whole [[sp]; ["*"]] (a_list q).
Lemma cell_starred : starred_ok pat_cell_CellOption = true.
Proof. vm_cast_no_check (eq_refl true). Qed.
Lemma like_starred : starred_ok pat_like_LikeOption = true.
Proof. vm_cast_no_check (eq_refl true). Qed.

Lemma in_other c : inset nonletter c = true -> In c other_chars.
Proof.
  intros H. apply filter_In. split; auto. unfold every_char. apply in_map_iff. exists (N.to_nat (N_of_ascii c)). split; [rewrite N2Nat.id; apply ascii_N_embedding|].
  apply in_seq. pose proof (N_ascii_bounded c). change (0 + 256) with (N.to_nat 256). lia.
Qed.
Lemma first_letter q w ws : starred_ok q = true -> starts_ok w -> plain_word w -> V (a_list q) (spaced (w :: ws)) ->
  exists y c z, spaced (w :: ws) = sp :: y ++ c :: z /\ allc (inset nonletter) y /\ ~ In sp y /\ inset nonletter c = false.
Proof.
  intros HQ (c & t & -> & HC) HP HV. apply andb_prop in HQ as [Q1 Q2]. change (spaced ((c :: t) :: ws)) with (sp :: c :: t ++ spaced ws) in *.
  destruct (inset nonletter c) eqn:EC.
  2:{ exists [], c, (t ++ spaced ws). split; [reflexivity|]. split; [constructor|]. split; [intros []|exact EC]. }
  pose proof (all_ascii (fun c => implb (inset cs_start c && inset nonletter c) (Ascii.eqb c "*")) eq_refl c) as Q. cbv beta in Q. rewrite HC, EC in Q. apply Ascii.eqb_eq in Q. subst c.
  destruct (t ++ spaced ws) as [|c z] eqn:ET.
  - exfalso. unfold refuses_whole in Q2. apply negb_true_iff in Q2.
    destruct (ders_V [[sp]; ["*"]] [a_list q] [sp; "*"]) as (u & HE & EU); [repeat split; left; reflexivity|constructor; exact HV|]. cbn in EU. subst u.
    apply Exists_exists in HE as (x & HX & VX). apply null_V in VX. assert (existsb null (ders [[sp]; ["*"]] [a_list q]) = true) by (apply existsb_exists; eauto). congruence.
  - exists ["*"], c, z. split; [reflexivity|]. split; [repeat constructor|]. split; [intros [X|[]]; discriminate|].
    destruct (inset nonletter c) eqn:EC2; auto. exfalso.
    destruct (ders_V [[sp]; ["*"]; other_chars] [a_list q] (sp :: "*" :: c :: z)) as (u & HE & _); [repeat split; try (left; reflexivity); now apply in_other|constructor; exact HV|].
    unfold refuses in Q1. destruct (ders [[sp]; ["*"]; other_chars] [a_list q]); [inversion HE|discriminate].
Qed.

(** ** Options *)

Lemma cell_family : assoc "cell_CellOption" families = Some f_cell_CellOption.
Proof. reflexivity. Qed.
Lemma cell_pattern : In ("cell_CellOption"%string, pat_cell_CellOption) option_patterns.
Proof. apply in_or_app. right. now left. Qed.

Lemma options_text os : options_in f_cell_CellOption os -> exists ws o,
  Forall plain_word ws /\ (os <> None -> ws <> []) /\ or_empty (option_map VTup os) = join [sp] ws /\ options_after (spaced ws) o /\
  read_attr ext options_ty o = Ok (option_map VTup os) /\ conv ext fam options_ty (to_arg (option_map VTup os)) = Ok (option_map VTup os).
Proof.
  destruct os as [os|]; intros H.
  - destruct H as [HN HF]. destruct (options_listed _ _ _ cell_family cell_pattern os HN HF) as (ws & W1 & W2 & (w & ws' & E & W3) & W4 & W5 & W6 & W7).
    exists ws, (Some (spaced ws)). split; [exact W2|]. split; [auto|]. split; [exact W4|]. split; [|split; [exact W6|apply W7]].
    right. split; [reflexivity|]. subst ws. inversion W2 as [|? ? P1 _]; subst.
    destruct (first_letter _ w ws' cell_starred W3 P1 W5) as (y & c & z & H1 & H2 & H3 & H4). exists y, c, z. split; [exact H1|]. split; [exact H2|]. split; [exact H3|]. split; [exact H4|].
    destruct (steady_parts _ _ _ cell_family cell_pattern) as ((S1 & S2 & S3) & _). exact (parsed_last 5 (TExt "cell_CellOption" pat_cell_CellOption) true _ S1 S2 S3 W5).
  - exists [], None. split; [constructor|]. split; [congruence|]. split; [reflexivity|]. split; [left; auto|]. split; reflexivity.
Qed.

(** ** The card *)

Lemma cell_sets_cons x l c r : cell_sets (x :: l) c = Ok r -> exists c', cell_set x c = (c', Ok tt) /\ cell_sets l c' = Ok r.
Proof. cbn [cell_sets]. destruct (cell_set x c) as [c' [[]| |]]; try discriminate. eauto. Qed.
Lemma cell_tail_checked o l v g c c' : cell_tail c (checked o l (Ok v)) g = (c', Ok tt) -> c' = g v /\ run_checks o v l = Ok tt.
Proof. unfold checked. cbn [bind]. destruct (run_checks o v l) as [[]| |]; cbn [bind cell_tail]; try discriminate. intros E. split; congruence. Qed.

Lemma density_given m d : run_checks [("material"%string, Some (VInt (IVal m)))] (option_map VReal d) [density_test] = Ok tt ->
  match d with Some _ => m <> 0%Z | None => m = 0%Z end.
Proof.
  destruct d as [x|]; cbn [option_map].
  - intros H ->. revert H. destruct x; vm_compute; discriminate.
  - intros H. destruct (Z.eq_dec m 0) as [|N]; auto. exfalso. revert H. cbn. destruct m; [congruence| |]; cbn; discriminate.
Qed.
Lemma cell_made j j' z m d g os k : conv ext fam options_ty (to_arg os) = Ok os ->
  let a := {| ca_number := AVal (VInt (IVal z)); ca_material := MArg (AVal (VInt (IVal m))); ca_density := to_arg (option_map VReal d);
              ca_geometry := GGeo (CTree g); ca_options := to_arg os |} in
  cell_new j a = (j', Ok k) ->
  k = mkcell (Some (VInt (IVal z))) (Some (VInt (IVal m))) (option_map VReal d) (Some (CTree g)) os /\
  match d with Some _ => m <> 0%Z | None => m = 0%Z end /\ forall i, snd (cell_new i a) = Ok k.
Proof.
  intros HO a. unfold a, cell_new. cbn [take_number ca_number]. cbv beta iota zeta. cbn [bind snd]. intros H. apply (f_equal snd) in H. cbn [snd] in H.
  cut (k = mkcell (Some (VInt (IVal z))) (Some (VInt (IVal m))) (option_map VReal d) (Some (CTree g)) os /\ match d with Some _ => m <> 0%Z | None => m = 0%Z end).
  { intros [H1 H2]. split; [exact H1|]. split; [exact H2|]. intros i. exact H. }
  cbn [ca_material ca_density ca_geometry ca_options] in H.
  apply cell_sets_cons in H as (c1 & H1 & H). unfold cell_set in H1. apply (cell_tail_checked _ _ (Some (VInt (IVal z)))) in H1 as [-> _].
  apply cell_sets_cons in H as (c1 & H1 & H). unfold cell_set in H1. apply (cell_tail_checked _ _ (Some (VInt (IVal m)))) in H1 as [-> _].
  apply cell_sets_cons in H as (c1 & H1 & H). unfold cell_set in H1. rewrite conv_to_arg in H1. apply cell_tail_checked in H1 as [-> HD].
  apply cell_sets_cons in H as (c1 & H1 & H). unfold cell_set in H1. cbn [cell_tail] in H1. injection H1 as <-.
  apply cell_sets_cons in H as (c1 & H1 & H). unfold cell_set in H1. fold options_ty in H1. rewrite HO in H1. cbn [cell_tail] in H1. injection H1 as <-.
  cbn [cell_sets] in H. split; [congruence|]. now apply density_given in HD.
Qed.

Lemma cell_read t text cs o n mt d g opts c : card_preprocess t = (text, cs) -> re_match re_cell text = Some o ->
  read_attr ext (One TInt) (group 1 o) = Ok n -> read_attr ext (One TInt) (group 2 o) = Ok mt -> read_attr ext (One TReal) (group 3 o) = Ok d ->
  match truthy (group 4 o) with Some x => bind (geo_from_mcnp (strip x)) (fun x => Ok (GGeo (CTree x))) | None => Ok GNone end = Ok g ->
  read_attr ext options_ty (group 5 o) = Ok opts ->
  snd (cell_new first_number {| ca_number := to_arg n; ca_material := MArg (to_arg mt); ca_density := to_arg d; ca_geometry := g; ca_options := to_arg opts |}) = Ok c ->
  cell_from_mcnp t = Ok (CCell c, cs).
Proof.
  intros E EM E1 E2 E3 E4 E5 E6. unfold cell_from_mcnp. rewrite E, EM.
  refine (bind2 _ _ _ _ E1 _). refine (bind2 _ _ _ _ E2 _). refine (bind2 _ _ _ _ E3 _). refine (bind2 _ _ _ _ E4 _). refine (bind2 _ _ _ _ E5 _). refine (bind2 _ _ _ _ E6 _). reflexivity.
Qed.
Lemma zero_text m : str_of_Z m = ["0"] <-> m = 0%Z.
Proof. split; [|intros ->; reflexivity]. intros H. apply str_of_Z_inj. rewrite H. reflexivity. Qed.
Lemma density_word x : real_seq x = true -> plain_word (write (VReal x)) /\ read_attr ext (One TReal) (Some (sp :: write (VReal x))) = Ok (Some (VReal x)).
Proof.
  intros H. destruct (val_word ext TReal (VReal x) eq_refl H) as (HP & _). split; [exact HP|].
  pose proof (read_field ext (One TReal) (VReal x) eq_refl H) as X. unfold ftext in X. cbn [fwords] in X. unfold spaced in X. cbn [map concat] in X. now rewrite app_nil_r in X.
Qed.
Lemma number_word z : clean (str_of_Z z) /\ hd " " (str_of_Z z) <> "#".
Proof.
  destruct (Z_text z) as (c & t & E & _ & A). destruct (number_head z) as (c' & t' & E' & _ & _ & _ & N). rewrite E in E' |- *. injection E' as <- <-.
  split; [apply head_chars_clean; auto; discriminate|exact N].
Qed.

Theorem cell_back c : plain_cell c -> comes_back read_cell_card c.
Proof.
  intros (z & m & d & g & os & j & j' & k & HZ & LZ & HM & HD & HG & HO & HN & HB & ->) tx EX. cbn [fst card_text] in EX.
  destruct (options_text os HO) as (ws & o & PW & NW & EW & OA & RO & CO). unfold int_val in HN.
  apply (cell_made j j' z m d g (option_map VTup os) k CO) in HN as (EK & MD & HN). clear HO CO j j'.
  destruct (geo_text g HG) as (gs & NG & PG & EG & LG & SG). destruct (number_word z) as [CZ NZ].
  assert (PD : match option_map (fun x => write (VReal x)) d with Some x => plain_word x | None => str_of_Z m = ["0"] end).
  { destruct d as [x|]; cbn [option_map]; [apply density_word; now apply HD|]. now apply zero_text. }
  pose proof (cell_line (str_of_Z z) (str_of_Z m) (option_map (fun x => write (VReal x)) d) gs ws CZ NZ LZ (number_plain m HM) PD NG PG PW) as HL. cbv zeta in HL.
  set (T := str_of_Z z ++ [sp] ++ str_of_Z m ++ [sp] ++ match option_map (fun x => write (VReal x)) d with Some x => x | None => [] end ++ [sp] ++ join [sp] gs ++ [sp] ++ join [sp] ws) in *.
  assert (ET : cell_to_mcnp k = Ok (postprocess T)).
  { rewrite EK. unfold cell_to_mcnp. cbn [ce_geometry ce_number ce_material ce_density ce_options write_opt]. rewrite EW, EG. cbn [write integer_to_mcnp]. unfold T. do 6 f_equal. destruct d; reflexivity. }
  rewrite ET in EX. injection EX as <-.
  destruct HL as (r & R1 & R2 & R3).
  { destruct os as [l|]; [left; apply NW; discriminate|right]. now apply HB. }
  rewrite <- R2. split; [exists r; auto|].
  destruct (number_nonspace z) as [Z1 Z2]. destruct (number_nonspace m) as [M1 M2].
  destruct (cell_match (str_of_Z z) (str_of_Z m) (option_map (fun x => write (VReal x)) d) (join [sp] gs) (spaced ws) o) as (mo & X0 & X1 & X2 & X3 & X4 & X5); auto.
  { rewrite <- EG. destruct (geo_words g HG) as (w0 & ws0 & HF & ->). inversion HF as [|? ? (N & _) _]; subst. destruct w0; [congruence|discriminate]. }
  { now rewrite <- EG. }
  { destruct d as [x|]; cbn [option_map] in *; [|exact PD]. split; [apply PD|]. split; [apply nospace_nonspace; apply PD|]. intros E. now apply MD, zero_text. }
  unfold read_cell_card. cbn [first_of].
  rewrite (cell_read _ _ _ _ (Some (VInt (IVal z))) (Some (VInt (IVal m))) (option_map VReal d) (GGeo (CTree g)) (option_map VTup os) k R3 X0).
  - reflexivity.
  - rewrite X1. now apply read_number.
  - rewrite X2. now apply read_number.
  - rewrite X3. destruct d as [x|]; cbn [option_map gap_text]; [|reflexivity]. apply density_word. now apply HD.
  - rewrite X4, truthy_cons. rewrite <- EG.
    assert (ES : strip (sp :: geo_to_mcnp g) = geo_to_mcnp g). { rewrite EG. rewrite join_spaced by auto. now apply strip_spaced. }
    rewrite ES. unfold readable in HG. now rewrite HG.
  - rewrite X5. exact RO.
  - apply HN.
Qed.
