(** Cells that are like others come back. *)

From Coq Require Import Ascii String NArith ZArith Bool Arith Lia List.
From Verif Require Import PyStr Regex RegexParse RegexFacts RegexLang PyNum PyNumFacts Types TypesSpec TypesFacts TypesFacts2 TypesFacts3 TypesFacts4 TypesFacts5 SubFacts CardText CardTextSpec CardTextFacts CardTextFacts2 CardTextFacts3 CardTextFacts4 CardTextFacts5 CardTextFacts6
  Cards Tables CardsSpec CardsFacts CardsFacts2 CardsFacts3 CardsFacts4 CardsFacts5 CardsFacts6 RegexDer Geometry GeometrySpec GeometryFacts GeometryFacts4 Numbered Problem InpFile InpSpec InpSpec2 InpFacts InpFacts2 InpFacts5 InpFacts6 InpFacts7 InpFacts8 InpFacts9 InpFacts10 OptSpec CellSpec OptFacts OptFacts2 OptFacts3 OptFacts4 OptFacts5 OptFacts6 EqualityFacts CellFacts CellFacts2 CellFacts3.
Import ListNotations.
Open Scope char_scope.
Open Scope list_scope.

Definition like_opts : list (aty * bool) := [(Tup (TExt "like_LikeOption" pat_like_LikeOption), true)].
Definition like_tail2 : re := RCat (RGrp 2 re_word) (lits_re (L " but") (fields_re 3 like_opts)).
Lemma like_re : compile true (c_pat k_Like) = RCat RBeg (RCat (RGrp 1 re_word) (lits_re (L " like ") like_tail2)).
Proof. vm_cast_no_check (eq_refl (compile true (c_pat k_Like))). Qed.

(** No cell is written so. *)
Definition like_shape : re := RCat re_word (lits_re (L " like ") (RCat re_word (lits_re (L " but") anything))).
Lemma like_no_cell : disj steps re_cell like_shape = true.
Proof. vm_cast_no_check (eq_refl true). Qed.
Lemma cell_ends : ends_z re_cell = true.
Proof. vm_cast_no_check (eq_refl true). Qed.
Lemma V_lits kw r u : V r u -> V (lits_re kw r) (kw ++ u).
Proof.
  intros H. induction kw as [|c kw IH]; auto. exists [c], (kw ++ u). split; [|split; [exact IH|reflexivity]]. exists c. split; [reflexivity|apply lit_self].
Qed.
Lemma V_word w : w <> [] -> allc (inset nonspace) w -> V re_word w.
Proof.
  intros NX HX. unfold re_word. cbn [V]. exists (map (fun c => [c]) w). split; [|split; [|split; [exact I|]]].
  - apply Forall_map. eapply Forall_impl; [|exact HX]. intros c Hc. exists c. auto.
  - rewrite map_length. destruct w; [congruence|cbn; lia].
  - clear. induction w; cbn; congruence.
Qed.
Lemma like_V w1 w2 txt : w1 <> [] -> allc (inset nonspace) w1 -> w2 <> [] -> allc (inset nonspace) w2 -> V like_shape (w1 ++ L " like " ++ w2 ++ L " but" ++ txt).
Proof.
  intros N1 H1 N2 H2. exists w1, (L " like " ++ w2 ++ L " but" ++ txt). split; [now apply V_word|]. split; [|reflexivity]. apply V_lits.
  exists w2, (L " but" ++ txt). split; [now apply V_word|]. split; [|reflexivity]. apply V_lits. apply V_anything.
Qed.
Lemma no_match r x s : ends_z r = true -> disj steps r x = true -> V x s -> re_match r s = None.
Proof.
  intros HZ HD HV. destruct (re_match r s) as [o|] eqn:E; [|reflexivity]. exfalso. apply (match_V _ _ _ HZ) in E. exact (disj_ok _ _ _ _ HD E HV).
Qed.
Lemma no_cell w1 w2 txt : w1 <> [] -> allc (inset nonspace) w1 -> w2 <> [] -> allc (inset nonspace) w2 ->
  re_match re_cell (w1 ++ L " like " ++ w2 ++ L " but" ++ txt) = None.
Proof. intros N1 H1 N2 H2. apply (no_match re_cell like_shape _ cell_ends like_no_cell). exact (like_V w1 w2 txt N1 H1 N2 H2). Qed.

Lemma parsed_word tail g gs w txt : w <> [] -> allc (inset nonspace) w -> (exists t, txt = sp :: t) -> CardsFacts3.parsed tail (S g) gs txt ->
  CardsFacts3.parsed (RCat (RGrp g re_word) tail) g (Some w :: gs) (w ++ txt).
Proof.
  intros NW HW (t & HT) HP. apply (parsed_some tail); auto. intros p cp x H. rewrite m_catE, m_grp. unfold re_word.
  pose proof (m_plus_run _ nonspace (fun s' => m tail (addcap g (mkst p (w ++ txt) cp) s') (@Some st)) w [] txt p cp x) as Q. cbn [app] in Q. apply Q; auto.
  - now rewrite app_nil_r.
  - right. exists sp, t. split; auto.
  - rewrite addcap_text. exact H.
  - intros v1 v2 E. destruct v1; [congruence|discriminate].
Qed.
Lemma like_match w1 w2 txt o : w1 <> [] -> allc (inset nonspace) w1 -> w2 <> [] -> allc (inset nonspace) w2 -> CardsFacts3.parsed (fields_re 3 like_opts) 3 [o] txt ->
  exists mo, re_match (compile true (c_pat k_Like)) (w1 ++ L " like " ++ w2 ++ L " but" ++ txt) = Some mo /\ group 1 mo = Some w1 /\ group 2 mo = Some w2 /\ group 3 mo = o.
Proof.
  intros N1 H1 N2 H2 HP. rewrite like_re.
  assert (P1 : CardsFacts3.parsed (RCat (RGrp 1 re_word) (lits_re (L " like ") like_tail2)) 1 [Some w1; Some w2; o] (w1 ++ L " like " ++ w2 ++ L " but" ++ txt)).
  { apply parsed_word; auto; [eexists; reflexivity|]. apply parsed_kw. unfold like_tail2. apply parsed_word; auto; [eexists; reflexivity|]. now apply parsed_kw. }
  destruct (parsed_match _ _ _ P1) as (mo & E & _ & HG). exists mo. split; [exact E|].
  split; [exact (HG 0 ltac:(cbn; lia))|]. split; [exact (HG 1 ltac:(cbn; lia))|exact (HG 2 ltac:(cbn; lia))].
Qed.

Lemma like_family : assoc "like_LikeOption" families = Some f_like_LikeOption.
Proof. reflexivity. Qed.
Lemma like_pattern : In ("like_LikeOption"%string, pat_like_LikeOption) option_patterns.
Proof. apply in_or_app. right. right. now left. Qed.
Definition like_ty : aty := Tup (TExt "like_LikeOption" pat_like_LikeOption).
Lemma like_options os : options_in f_like_LikeOption os -> exists ws o,
  Forall plain_word ws /\ (os <> None -> ws <> []) /\ or_empty (option_map VTup os) = join [sp] ws /\ CardsFacts3.parsed (fields_re 3 like_opts) 3 [o] (spaced ws) /\
  read_attr ext like_ty o = Ok (option_map VTup os) /\ conv ext fam like_ty (to_arg (option_map VTup os)) = Ok (option_map VTup os).
Proof.
  destruct os as [os|]; intros H.
  - destruct H as [HN HF]. destruct (options_listed _ _ _ like_family like_pattern os HN HF) as (ws & W1 & W2 & _ & W4 & W5 & W6 & W7).
    exists ws, (Some (spaced ws)). split; [exact W2|]. split; [auto|]. split; [exact W4|]. split; [|split; [exact W6|apply W7]].
    destruct (steady_parts _ _ _ like_family like_pattern) as ((S1 & S2 & S3) & _). exact (parsed_last 3 (TExt "like_LikeOption" pat_like_LikeOption) true _ S1 S2 S3 W5).
  - exists [], None. split; [constructor|]. split; [congruence|]. split; [reflexivity|]. split; [apply parsed_none|]. split; reflexivity.
Qed.

Lemma line_or_blank w ws os : clean w -> hd " " w <> "#" -> length w <= 78 -> ws <> [] -> Forall plain_word ws -> Forall plain_word os ->
  let T := join [sp] (w :: ws) ++ [sp] ++ join [sp] os in
  os <> [] \/ no_blank_line (postprocess T) ->
  exists r, row_ok r /\ row_text r = postprocess T /\ card_preprocess (row_text r) = (join [sp] (w :: ws ++ os), []).
Proof.
  intros CW HH LW NW PW PO T HB.
  assert (HR : forall b, Forall plain_word b -> exists r, row_ok r /\ row_text r = postprocess (join [sp] (w :: b)) /\ card_preprocess (row_text r) = (join [sp] (w :: b), [])).
  { intros b PB. destruct (post_row w b CW LW HH) as (r & R1 & R2 & _).
    - eapply Forall_impl; [|exact PB]. intros v Hv. apply Hv.
    - intros v k n Hv. rewrite Forall_forall in PB. now apply PB.
    - exists r. split; auto. split; auto. rewrite R2. now apply card_text_exact. }
  destruct os as [|o os].
  - destruct HB as [HB|HB]; [congruence|]. destruct (HR ws PW) as (r & R1 & R2 & R3).
    assert (ET : T = join [sp] (w :: ws ++ [[]])). { change (w :: ws ++ [[]]) with ((w :: ws) ++ [[]]). rewrite join_app by discriminate. reflexivity. }
    rewrite ET in HB |- *. clear ET. destruct (post_last w ws) as [E|E].
    + now apply clean_W.
    + eapply Forall_impl; [|exact PW]. intros v Hv. apply Hv.
    + rewrite E, <- R2. destruct (row_last r R1) as (Q1 & Q2 & Q3). eexists. split; [exact Q1|]. split; [exact Q2|]. rewrite Q2, Q3, R3. now rewrite app_nil_r.
    + rewrite E in HB. elim (brk_blank _ HB).
  - destruct (HR (ws ++ o :: os)) as (r & R1 & R2 & R3); [apply Forall_app; auto|].
    exists r. split; [exact R1|]. split; [|exact R3]. rewrite R2. f_equal. unfold T. change (w :: ws ++ o :: os) with ((w :: ws) ++ o :: os). now rewrite join_app by discriminate.
Qed.

Lemma init_cons ex fm a v l o r : init_attrs ex fm ((a, v) :: l) o = Ok r -> exists x, conv ex fm (a_ty a) v = Ok x /\ init_attrs ex fm l (upd (a_name a) x o) = Ok r.
Proof.
  cbn [init_attrs]. unfold set_attr. destruct (conv ex fm (a_ty a) v) as [x| |]; try discriminate. destruct (run_checks o x (a_checks a)); try discriminate. eauto.
Qed.
Lemma like_made ex z m os o : conv ex fam like_ty (to_arg os) = Ok os -> construct ex fam k_Like [AVal (VInt (IVal z)); AVal (VInt (IVal m)); to_arg os] = Ok o ->
  o = [("number"%string, Some (VInt (IVal z))); ("cell"%string, Some (VInt (IVal m))); ("options"%string, os)].
Proof.
  intros HC H. unfold construct in H. cbn [k_Like c_attrs combine] in H.
  apply init_cons in H as (x & H1 & H). injection H1 as <-.
  apply init_cons in H as (x & H1 & H). injection H1 as <-.
  apply init_cons in H as (x & H1 & H). cbn [a_ty] in H1. fold like_ty in H1. rewrite HC in H1. injection H1 as <-.
  cbn in H. injection H as <-. reflexivity.
Qed.

Lemma like_word : plain_word (L "like").
Proof. apply kw_plain; [|intros []; reflexivity|exists "l", (L "ike"); split; reflexivity]. repeat split; try discriminate; [repeat constructor|cbn; intuition discriminate|cbn; intuition discriminate]. Qed.
Lemma but_word : plain_word (L "but").
Proof. apply kw_plain; [|intros []; reflexivity|exists "b", (L "ut"); split; reflexivity]. repeat split; try discriminate; [repeat constructor|cbn; intuition discriminate|cbn; intuition discriminate]. Qed.

Theorem like_back c : plain_like c -> comes_back read_cell_card c.
Proof.
  intros (z & m & os & ob & HZ & LZ & HM & HO & HN & HB & ->) tx EX. cbn [fst card_text] in EX.
  destruct (like_options os HO) as (ws & o & PW & NW & EW & PO & RO & CO). unfold int_val in HN. clear HO.
  pose proof (like_made ext z m _ ob CO HN) as EO. destruct (number_word z) as [CZ NZ].
  assert (PM : Forall plain_word [L "like"; str_of_Z m; L "but"]).
  { constructor; [exact like_word|]. constructor; [exact (number_plain m HM)|]. constructor; [exact but_word|constructor]. }
  pose proof (line_or_blank (str_of_Z z) [L "like"; str_of_Z m; L "but"] ws CZ NZ LZ ltac:(discriminate) PM PW) as HL. cbv zeta in HL.
  set (T := join [sp] (str_of_Z z :: [L "like"; str_of_Z m; L "but"]) ++ [sp] ++ join [sp] ws) in *.
  assert (ET : like_to_mcnp ob = postprocess T).
  { rewrite EO. unfold like_to_mcnp. cbn [attr_of assoc String.eqb Ascii.eqb Bool.eqb]. unfold attr_of. cbn [assoc String.eqb Ascii.eqb Bool.eqb write_opt write integer_to_mcnp]. rewrite EW. unfold T. cbn [join]. 
    f_equal. rewrite <- !app_assoc. reflexivity. }
  rewrite ET in *. injection EX as <-.
  destruct HL as (r & R1 & R2 & R3).
  { destruct os as [l|]; [left; apply NW; discriminate|right]. now apply HB. }
  rewrite <- R2. split; [exists r; auto|].
  assert (ES : join [sp] (str_of_Z z :: [L "like"; str_of_Z m; L "but"] ++ ws) = str_of_Z z ++ L " like " ++ str_of_Z m ++ L " but" ++ spaced ws).
  { rewrite <- spaced_join, spaced_app. unfold spaced at 1. cbn [map concat]. rewrite <- !app_assoc. reflexivity. }
  rewrite ES in R3. destruct (number_nonspace z) as [Z1 Z2]. destruct (number_nonspace m) as [M1 M2].
  pose proof (no_cell _ _ (spaced ws) Z1 Z2 M1 M2) as XC.
  destruct (like_match _ _ (spaced ws) o Z1 Z2 M1 M2 PO) as (mo & X0 & X1 & X2 & X3).
  assert (EC : cell_from_mcnp (row_text r) = Lib InpError). { unfold cell_from_mcnp. rewrite R3, XC. reflexivity. }
  assert (EL : like_from_mcnp (row_text r) = Ok (CLike ob, [])).
  { unfold like_from_mcnp, card_from_mcnp. rewrite R3. rewrite X0. unfold read_cls.
    assert (ER : read_attrs ext 1 (c_attrs k_Like) mo = Ok [Some (VInt (IVal z)); Some (VInt (IVal m)); option_map VTup os]).
    { cbn [k_Like c_attrs read_attrs a_ty]. fold like_ty. 
      refine (bind2 _ _ _ _ (eq_trans (f_equal _ X1) (proj1 (read_number ext z HZ))) _). cbv beta.
      refine (bind2 _ _ _ _ (bind2 _ _ _ _ (eq_trans (f_equal _ X2) (proj1 (read_number ext m HM))) _) _); [|reflexivity]. cbv beta.
      refine (bind2 _ _ _ _ (bind2 _ _ _ _ (eq_trans (f_equal _ X3) RO) _) _); reflexivity. }
    rewrite ER. cbn [bind map to_arg]. rewrite HN. reflexivity. }
  unfold read_cell_card. cbn [first_of]. rewrite EC, EL. reflexivity.
Qed.

Theorem cell_again c t : plain_cell c \/ plain_like c -> card_text (fst c) = Ok t -> read_cell_card t = Ok c.
Proof. intros [H|H] E; [exact (proj2 (cell_back c H t E))|exact (proj2 (like_back c H t E))]. Qed.

(** ** Problems *)

Theorem problem_back_cells x s :
  i_message x = None ->
  (exists r, row_ok r /\ settled r /\ row_text r = i_title x) -> announces (i_title x) = false -> length (i_title x) < 80 ->
  match i_other x with Some o => exists l, other_ok l /\ Forall (fun y => match y with Some r => settled r | None => True end) l /\ rows_text l = o | None => True end ->
  i_cells x <> [] -> i_surfaces x <> [] -> i_data x <> [] -> existsb (fun c => negb (no_imp (fst c))) (i_cells x) = true ->
  Forall (fun c => plain_remark c \/ plain_cell c \/ plain_like c) (i_cells x) ->
  Forall (fun c => plain_remark c \/ plain_surface c) (i_surfaces x) ->
  Forall (fun c => plain_remark c \/ plain_data c \/ listed_data c) (i_data x) ->
  inp_to_mcnp x = Ok s -> read_inp s = Ok x.
Proof.
  intros HM HTI HA HL HO NC NS ND HI HC HS HD HW. apply (problem_back_lists x s); try assumption.
  revert HC. apply Forall_impl. intros c [H|[H|H]]; [left; exact H|right; exact (cell_back c H)|right; exact (like_back c H)].
Qed.

(** An option, made of its parts. *)
Lemma made_option cs i k fl hs v o u : nth_error cs i = Some k -> existsb (String.eqb (c_name k)) shadowed_options = false -> regularb k = true -> c_kind k = KOption ->
  Forall2 CardsSpec.head_ok (head_parts (decode k)) hs -> f_fields (decode k) = fl -> gapless fl v -> v <> [] -> Forall lone v -> construct ext fam k (map to_arg (hs ++ v)) = Ok o -> u = obj_val k o -> plain_option cs u.
Proof.
  intros HN HS HR HK HH <- HG HV HL HC ->. exists k, (decode k), hs, v, o. split; [exact (nth_error_In _ _ HN)|]. split.
  - intros HI. assert (X : existsb (String.eqb (c_name k)) shadowed_options = true) by (apply existsb_exists; exists (c_name k); split; [exact HI|apply String.eqb_refl]). congruence.
  - split; [exact (regularb_ok k HR)|]. split; [exact HK|]. split; [exact HH|]. auto.
Qed.
