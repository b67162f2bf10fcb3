(** Cells come back, continued: the words of a geometry, and the text of the card. *)

From Coq Require Import Ascii String NArith ZArith Bool Arith Lia List.
From Verif Require Import PyStr Regex RegexParse RegexFacts RegexLang PyNum PyNumFacts Types TypesSpec TypesFacts TypesFacts2 TypesFacts3 TypesFacts4 TypesFacts5 SubFacts CardText CardTextSpec CardTextFacts CardTextFacts2 CardTextFacts3 CardTextFacts4 CardTextFacts5 CardTextFacts6
  Cards Tables CardsSpec CardsFacts CardsFacts2 CardsFacts3 CardsFacts4 CardsFacts5 CardsFacts6 RegexDer Geometry GeometrySpec GeometryFacts GeometryFacts4 Numbered Problem InpFile InpSpec InpSpec2 InpFacts InpFacts2 InpFacts5 InpFacts6 InpFacts7 InpFacts8 InpFacts9 InpFacts10 OptSpec CellSpec OptFacts OptFacts2 OptFacts3 OptFacts4 OptFacts5 CellFacts.
Import ListNotations.
Open Scope char_scope.
Open Scope list_scope.

(** ** Geometries *)

Definition geo_char (c : ascii) : bool := is_digit c || existsb (Ascii.eqb c) [".";  ":"; "("; ")"; "+"; "-"; "#"].
Definition gw (w : str) : Prop := w <> [] /\ allc geo_char w /\ hd " " w <> ")" /\ last w " " <> "(".
Definition worded (s : str) : Prop := exists w ws, Forall gw (w :: ws) /\ s = w ++ spaced ws.

Lemma last_app' (w x : str) d : x <> [] -> last (w ++ x) d = last x d.
Proof. intros H. induction w as [|c w IH]; auto. cbn [app]. rewrite <- IH. destruct (w ++ x) eqn:E; [|reflexivity]. apply app_eq_nil in E as [_ E]. congruence. Qed.
Lemma gw_more w x : gw w -> x <> [] -> allc geo_char x -> last x " " <> "(" -> gw (w ++ x).
Proof.
  intros (H1 & H2 & H3 & H4) NX HX HL. split; [|split; [|split]].
  - destruct w; [congruence|discriminate].
  - apply allc_app; auto.
  - destruct w; [congruence|exact H3].
  - rewrite last_app'; auto.
Qed.
Lemma worded_meet a b : worded a -> worded b -> worded (a ++ [sp] ++ b).
Proof.
  intros (w & ws & H & ->) (v & vs & K & ->). exists w, (ws ++ v :: vs). split.
  - change (w :: ws ++ v :: vs) with ((w :: ws) ++ v :: vs). apply Forall_app; auto.
  - rewrite spaced_app, <- app_assoc. reflexivity.
Qed.
Lemma worded_glue x vs : (forall w, gw w -> gw (w ++ x)) -> Forall gw vs -> forall a, worded a -> worded (a ++ x ++ spaced vs).
Proof.
  intros HX HV a (w & ws & H & ->). revert w H. induction ws as [|v ws IH]; intros w H.
  - exists (w ++ x), vs. inversion H; subst. split; [constructor; auto|]. change (spaced []) with (@nil ascii). rewrite app_nil_r, app_assoc. reflexivity.
  - inversion H as [|? ? H1 H2]; subst. destruct (IH v H2) as (u & us & K & E). exists w, (u :: us). split; [constructor; auto|].
    change (spaced (v :: ws)) with (sp :: v ++ spaced ws). change (spaced (u :: us)) with (sp :: u ++ spaced us). rewrite <- E. rewrite <- app_assoc. reflexivity.
Qed.
Lemma worded_front c a : geo_char c = true -> c <> ")" -> worded a -> worded (c :: a).
Proof.
  intros HC N (w & ws & H & ->). exists (c :: w), ws. split; [|reflexivity]. inversion H as [|? ? (H1 & H2 & H3 & H4) HW]; subst. constructor; auto.
  split; [discriminate|]. split; [constructor; auto|]. split; [exact N|]. destruct w; [congruence|exact H4].
Qed.
Lemma digits_chars s : some_digits s -> s <> [] /\ allc geo_char s.
Proof. intros [N H]. split; auto. eapply Forall_impl; [|exact H]. intros c E. unfold geo_char. now rewrite E. Qed.
Lemma digits_hd s : some_digits s -> hd " " s <> ")" /\ last s " " <> "(".
Proof.
  intros [N H]. split.
  - destruct s as [|c s]; [congruence|]. inversion H as [|? ? E _]; subst. cbn. intros ->. discriminate.
  - pose proof (app_removelast_last " " N) as E. rewrite E in H. apply Forall_app in H as [_ H]. inversion H as [|? ? H1 _]; subst. intros X. rewrite X in H1. discriminate.
Qed.
Lemma number_gw d : GeometrySpec.number d -> gw d.
Proof.
  intros [H|(a & b & HA & HB & ->)].
  - destruct (digits_chars d H) as [H1 H2]. destruct (digits_hd d H) as [H3 H4]. split; auto.
  - destruct (digits_chars a HA) as [A1 A2]. destruct (digits_hd a HA) as [A3 A4]. destruct (digits_chars b HB) as [B1 B2]. destruct (digits_hd b HB) as [_ B4].
    apply gw_more; [repeat split; auto|discriminate|constructor; auto|]. change ("." :: b) with (["."] ++ b). rewrite last_app'; auto.
Qed.
Lemma grammar_worded : (forall ts g, r_prim ts g -> worded (geo_to_mcnp g)) /\ (forall ts g, r_atom ts g -> worded (geo_to_mcnp g)) /\
  (forall ts g, r_union ts g -> worded (geo_to_mcnp g)) /\ (forall ts g, r_inter ts g -> worded (geo_to_mcnp g)).
Proof.
  assert (HJ : forall a b, worded a -> worded b -> worded (a ++ L ":" ++ b)).
  { intros a b HA (v & vs & HV & ->). inversion HV as [|? ? (H1 & H2 & H3 & H4) HV']; subst. pose proof (worded_glue (":" :: v) vs) as X. apply X; auto.
    intros w Hw. apply gw_more; auto; [discriminate|constructor; auto|]. change (":" :: v) with ([":"] ++ v). rewrite last_app'; auto. }
  apply geo_ind4; intros; cbn [geo_to_mcnp]; auto.
  - exists d, []. split; [constructor; [now apply number_gw|constructor]|]. change (spaced []) with (@nil ascii). now rewrite app_nil_r.
  - change (L "(" ++ geo_to_mcnp g ++ L ")") with ("(" :: geo_to_mcnp g ++ L ")"). apply worded_front; [reflexivity|discriminate|].
    apply (worded_glue [")"] []); auto. intros w Hw. apply gw_more; auto; [discriminate|repeat constructor|discriminate].
  - assert (geo_char op = true /\ op <> ")") as [H1 H2] by (destruct i as [<-|[<-|[<-|[]]]]; split; auto; discriminate). now apply worded_front.
  - now apply worded_meet.
  - now apply worded_meet.
Qed.
Lemma geo_words g : readable g -> worded (geo_to_mcnp g).
Proof. intros H. apply readable_grammar in H. now apply (proj2 (proj2 (proj2 grammar_worded)) (toks g)). Qed.

Lemma letters_short k t : allc (inset nonletter) t -> is_short k t = false.
Proof.
  intros H. apply not_true_is_false. intros E. unfold is_short in E. apply seqb_eq in E. destruct t as [|c t]; [destruct k; discriminate|]. inversion H as [|? ? HC _]; subst.
  cbn [slower map] in E. pose proof (all_ascii (fun c => implb (inset nonletter c) (negb (existsb (Ascii.eqb (lower c)) ["j"; "r"; "i"; "l"]))) eq_refl c) as Q. cbv beta in Q. rewrite HC in Q. cbn [implb] in Q.
  apply negb_true_iff in Q. assert (HX : existsb (Ascii.eqb (lower c)) ["j"; "r"; "i"; "l"] = true); [|congruence].
  apply existsb_exists. exists (hd " " (short_name k)). destruct k; injection E as E _; (split; [cbn; auto 10|]); rewrite E; reflexivity.
Qed.
Lemma nonletter_plain w : clean w -> allc (inset nonletter) w -> plain_word w /\ noK w.
Proof.
  intros HC HN. assert (HK : forall k, is_short k w = false) by (intros k; now apply letters_short). split; [split; [exact HC|split]|].
  - intros k n (ds & u & E & N & D & _ & K). rewrite E in HN. apply allc_app in HN as [_ HN]. rewrite letters_short in K by auto. discriminate.
  - intros k E. rewrite HK in E. discriminate.
  - intros k. rewrite <- is_short_K. apply HK.
Qed.
Lemma gw_facts w : gw w -> plain_word w /\ noK w /\ allc (inset nonletter) w.
Proof.
  intros (H1 & H2 & H3 & H4).
  assert (HN : allc (inset nonletter) w).
  { revert H2. apply Forall_impl. intros c. pose proof (all_ascii (fun c => implb (geo_char c) (inset nonletter c)) eq_refl c) as Q. cbv beta in Q. intros E. now rewrite E in Q. }
  assert (HL : forall c, In c w -> geo_char c = true) by (unfold allc in H2; now rewrite Forall_forall in H2).
  assert (HC : clean w).
  { split; [exact H1|]. split; [|split; [|split; [|split; [|split; [exact H4|exact H3]]]]].
    - revert H2. apply Forall_impl. intros c. pose proof (all_ascii (fun c => implb (geo_char c) (negb (is_space c))) eq_refl c) as Q. cbv beta in Q. intros E. rewrite E in Q. exact Q.
    - intros X. apply HL in X. discriminate.
    - intros X. apply HL in X. discriminate.
    - intros X. pose proof (app_removelast_last " " H1) as E. rewrite X in E. assert (HI : In "&" w) by (rewrite E; apply in_or_app; right; left; reflexivity). apply HL in HI. discriminate. }
  destruct (nonletter_plain w HC HN) as [A B]. auto.
Qed.
Lemma geo_text g : readable g -> exists gs, gs <> [] /\ Forall plain_word gs /\ geo_to_mcnp g = join [sp] gs /\ allc (inset nonletter) (geo_to_mcnp g) /\ strip (geo_to_mcnp g) = geo_to_mcnp g.
Proof.
  intros H. destruct (geo_words g H) as (w & ws & HF & E). exists (w :: ws).
  assert (HP : Forall plain_word (w :: ws)) by (eapply Forall_impl; [|exact HF]; intros v Hv; apply (gw_facts v Hv)).
  assert (HL : Forall (allc (inset nonletter)) (w :: ws)) by (eapply Forall_impl; [|exact HF]; intros v Hv; apply (gw_facts v Hv)).
  split; [discriminate|]. split; [exact HP|]. split; [now rewrite E, spaced_join|]. split.
  - rewrite E. inversion HL as [|? ? H1 H2]; subst. apply allc_app. split; auto. clear - H2. induction H2 as [|v ws HV _ IH]; [constructor|].
    change (spaced (v :: ws)) with (sp :: v ++ spaced ws). constructor; [reflexivity|]. apply allc_app. auto.
  - rewrite E. inversion HP; subst. apply strip_ends; [apply H2|]. eapply Forall_impl; [|exact H3]. intros v Hv. apply Hv.
Qed.

(** ** A blank at the end *)

Lemma wrap_last ws : forall n, wrap n (ws ++ [[]]) = wrap n ws ++ [[]] \/ wrap n (ws ++ [[]]) = wrap n ws ++ [["&"; nl] ++ srepeat 5 [sp]; []].
Proof.
  induction ws as [|w ws IH]; intros n; cbn [app wrap].
  - destruct (Nat.ltb 78 (length (@nil ascii) + n)); auto.
  - destruct (Nat.ltb 78 (length w + n)).
    + destruct (IH (5 + (length w + 1))) as [E|E]; rewrite E; auto.
    + destruct (IH (n + (length w + 1))) as [E|E]; rewrite E; auto.
Qed.
Lemma post_last w ws : CardTextFacts3.W w -> Forall nospace ws -> postprocess (join [sp] (w :: ws ++ [[]])) = postprocess (join [sp] (w :: ws)) ++ [sp] \/
  postprocess (join [sp] (w :: ws ++ [[]])) = postprocess (join [sp] (w :: ws)) ++ brk.
Proof.
  intros HW HS. unfold postprocess. rewrite <- !spaced_join.
  assert (HS' : Forall nospace (ws ++ [[]])) by (apply Forall_app; split; auto; constructor; [constructor|constructor]).
  rewrite (compress_nospace w ws HW HS), (compress_nospace w (ws ++ [[]]) HW HS').
  assert (EE : cws (ws ++ [[]]) = cws ws ++ [[]]) by exact (cws_empty ws []). rewrite EE. clear EE.
  assert (HC : Forall (fun v => ~ In sp v) (cws ws)) by (unfold cws; eapply Forall_impl; [|repeat apply nospace_cw; exact HS]; intros v; apply nospace_nosp).
  rewrite !split_words; auto; try (apply nospace_nosp; apply HW).
  2:{ apply Forall_app. split; auto. }
  change (w :: cws ws ++ [[]]) with ((w :: cws ws) ++ [[]]).
  assert (HNE : wrap 0 (w :: cws ws) <> []) by (cbn [wrap]; destruct (Nat.ltb 78 (length w + 0)); discriminate).
  destruct (wrap_last (w :: cws ws) 0) as [E|E]; [left|right]; (etransitivity; [apply (f_equal (join [sp])); exact E|]); rewrite join_app by (auto; discriminate); reflexivity.
Qed.
Lemma brk_blank t : ~ no_blank_line (t ++ brk).
Proof.
  intros H. change brk with ([sp; "&"] ++ nl :: srepeat 6 [sp]) in H. unfold no_blank_line in H. rewrite app_assoc, split_on_app in H. apply Forall_app in H as [_ H]. inversion H as [|? ? H1 _]; subst. apply H1. reflexivity.
Qed.
Lemma row_last r : row_ok r -> row_ok (mkrow (r_first r) (r_more r) (r_tail r ++ [sp])) /\ row_text (mkrow (r_first r) (r_more r) (r_tail r ++ [sp])) = row_text r ++ [sp] /\
  card_preprocess (row_text r ++ [sp]) = card_preprocess (row_text r).
Proof.
  intros H. set (r' := mkrow (r_first r) (r_more r) (r_tail r ++ [sp])).
  assert (H' : row_ok r') by (destruct H as (H1 & H2 & H3 & H4); repeat split; auto; try apply H1; apply Forall_app; split; auto; repeat constructor).
  assert (E : row_text r' = row_text r ++ [sp]) by (unfold r', row_text; cbn [r_first r_more r_tail]; now rewrite app_assoc).
  split; [exact H'|]. split; [exact E|]. rewrite <- E. rewrite <- (preprocess_row r' (join [sp] (row_words r')) H') by now left. rewrite <- (preprocess_row r (join [sp] (row_words r)) H) by now left. reflexivity.
Qed.

(** ** The line *)

Lemma cell_line w m d gs os : clean w -> hd " " w <> "#" -> length w <= 75 -> plain_word m -> match d with Some x => plain_word x | None => m = ["0"] end ->
  gs <> [] -> Forall plain_word gs -> Forall plain_word os ->
  let T := w ++ [sp] ++ m ++ [sp] ++ match d with Some x => x | None => [] end ++ [sp] ++ join [sp] gs ++ [sp] ++ join [sp] os in
  os <> [] \/ no_blank_line (postprocess T) ->
  exists r, row_ok r /\ row_text r = postprocess T /\ card_preprocess (row_text r) = (w ++ sp :: m ++ gap_text d ++ (sp :: join [sp] gs) ++ spaced os, []).
Proof.
  intros CW HH LW PM PD NG PG PO T HB.
  set (dw := match d with Some x => [x] | None => [] end).
  set (dx := match d with Some x => x | None => [] end).
  assert (LW' : length w <= 78) by (apply (Nat.le_trans _ 75); [exact LW|apply Nat.leb_le; reflexivity]).
  assert (PDW : Forall plain_word dw) by (unfold dw; destruct d; [constructor; auto|constructor]).
  (* the row without the blank at the end *)
  assert (HR : forall b, b <> [] -> Forall plain_word b -> exists r, row_ok r /\ row_text r = postprocess (join [sp] (w :: m :: dx :: b)) /\
     card_preprocess (row_text r) = (join [sp] (w :: m :: dw ++ b), [])).
  { intros b NB PB. assert (PA : Forall plain_word (m :: dw ++ b)) by (constructor; auto; apply Forall_app; auto).
    assert (CA : Forall clean (m :: dw ++ b)) by (eapply Forall_impl; [|exact PA]; intros v Hv; apply Hv).
    assert (NA : forall v k n, In v (m :: dw ++ b) -> ~ counted k n v) by (intros v k n Hv; rewrite Forall_forall in PA; now apply PA).
    unfold dw, dx in *. destruct d as [x|]; cbn [app] in *.
    - destruct (post_row w (m :: x :: b) CW LW' HH CA NA) as (r & R1 & R2 & _). exists r. split; auto. split; auto. rewrite R2. apply card_text_exact; auto.
    - destruct (post_gap w [m] b CW HH CA NB NA) as (r & R1 & R2 & R3).
      + constructor; [|constructor]. rewrite PD. intros k. destruct k; reflexivity.
      + rewrite PD. rewrite <- spaced_join, app_length. cbn. lia.
      + exists r. split; auto. split; [exact R2|]. rewrite R3. apply card_text_exact; auto. }
  assert (ES : w ++ sp :: m ++ gap_text d ++ (sp :: join [sp] gs) ++ spaced os = join [sp] (w :: m :: dw ++ gs ++ os)).
  { rewrite <- spaced_join. change (spaced (m :: dw ++ gs ++ os)) with (sp :: m ++ spaced (dw ++ gs ++ os)). rewrite !spaced_app, join_spaced by auto. do 4 f_equal.
    unfold dw, gap_text. destruct d; [|reflexivity]. unfold spaced. cbn. now rewrite app_nil_r. }
  rewrite ES. destruct os as [|o os].
  - destruct HB as [HB|HB]; [congruence|]. destruct (HR gs NG PG) as (r & R1 & R2 & R3).
    assert (ET : T = join [sp] (w :: (m :: dx :: gs) ++ [[]])).
    { change ((m :: dx :: gs) ++ [[]]) with (m :: dx :: gs ++ [[]]). unfold T. fold dx. cbn [join]. destruct gs as [|g0 gs]; [congruence|]. cbn [app]. do 8 f_equal. change (g0 :: gs ++ [[]]) with ((g0 :: gs) ++ [[]]).
      rewrite join_app by discriminate. reflexivity. }
    rewrite ET in HB |- *. clear ET.
    destruct (post_last w (m :: dx :: gs)) as [E|E].
    + now apply clean_W.
    + constructor; [apply PM|]. constructor; [unfold dx; destruct d; [apply PD|constructor]|]. eapply Forall_impl; [|exact PG]. intros v Hv. apply Hv.
    + rewrite E, <- R2. destruct (row_last r R1) as (Q1 & Q2 & Q3). eexists. split; [exact Q1|]. split; [exact Q2|]. rewrite Q2, Q3, R3. now rewrite app_nil_r.
    + rewrite E in HB. elim (brk_blank _ HB).
  - destruct (HR (gs ++ o :: os)) as (r & R1 & R2 & R3); [destruct gs; discriminate|apply Forall_app; auto|].
    exists r. split; [exact R1|]. split; [|exact R3]. rewrite R2. f_equal. unfold T. fold dx. cbn [join]. destruct gs as [|g0 gs]; [congruence|]. cbn [app]. do 8 f_equal.
    change (g0 :: gs ++ o :: os) with ((g0 :: gs) ++ o :: os). rewrite join_app by discriminate. reflexivity.
Qed.
