(** Cards written with an attribute that is left out: two blanks between their words. *)

From Coq Require Import Ascii String NArith ZArith Bool Arith Lia List.
From Verif Require Import PyStr Regex RegexParse PyNum PyNumFacts Types TypesSpec TypesFacts TypesFacts2 TypesFacts3 TypesFacts4 TypesFacts5 SubFacts CardText CardTextSpec CardTextFacts CardTextFacts2 CardTextFacts3 CardTextFacts4 CardTextFacts5 CardTextFacts6
  Cards Tables CardsSpec CardsFacts CardsFacts2 CardsFacts3 CardsFacts4 CardsFacts5 Geometry Numbered Problem InpFile InpSpec InpSpec2 InpFacts InpFacts2 InpFacts5 RegexFacts RegexLang RegexDer InpFacts6 InpFacts7.
Import ListNotations.
Open Scope char_scope.
Open Scope list_scope.

Definition noK (w : str) : Prop := forall k, isK (kd k) (kl k) w = false.

Lemma cw_app k a b : Forall noK a -> cw k (a ++ b) = a ++ cw k b.
Proof. unfold cw. induction 1 as [|w a HW HF IH]; cbn [app]; auto. cbn [cwd]. rewrite (HW k). now rewrite IH. Qed.
Lemma cws_app a b : Forall noK a -> cws (a ++ b) = a ++ cws b.
Proof. intros H. unfold cws. now rewrite !cw_app. Qed.
Lemma cws_self a : Forall noK a -> cws a = a.
Proof. intros H. rewrite <- (app_nil_r a) at 1. rewrite cws_app by auto. cbn. apply app_nil_r. Qed.

Lemma wrap_fits a : forall len rest, len + length (spaced a) <= 79 -> wrap len (a ++ rest) = a ++ wrap (len + length (spaced a)) rest.
Proof.
  induction a as [|w a IH]; intros len rest HL; cbn [app].
  - now rewrite Nat.add_0_r.
  - change (spaced (w :: a)) with (sp :: w ++ spaced a) in *. cbn [length] in *. rewrite app_length in *. cbn [wrap].
    replace (Nat.ltb 78 (length w + len)) with false by (symmetry; apply Nat.ltb_ge; lia). rewrite IH by lia. do 2 f_equal. f_equal. lia.
Qed.

Lemma laid_spaced a : forall w l, laid_out (w ++ spaced a) l = laid_out w (map (fun v => ([sp], v)) a ++ l).
Proof.
  induction a as [|v a IH]; intros w l; cbn [map app].
  - unfold spaced. cbn [map concat]. now rewrite app_nil_r.
  - change (spaced (v :: a)) with (sp :: v ++ spaced a). cbn [laid_out].
    rewrite <- (IH v l). clear. destruct l as [|[s u] l]; cbn [laid_out]; [reflexivity|]. rewrite <- !app_assoc. cbn [app]. now rewrite <- app_assoc.
Qed.

(** [words_of l]: words that come through the text layer. *)
Lemma post_words w ws : clean w -> length w <= 78 -> hd " " w <> "#" -> Forall clean ws -> (forall v k n, In v ws -> ~ counted k n v) ->
  Forall clean (cws ws) /\
  (forall t, (exists r, row_ok r /\ row_words r = w :: cws ws /\ row_text r = t) -> card_preprocess t = card_preprocess (postprocess (join [sp] (w :: ws)))).
Proof.
  intros HW HL HH HC HN. destruct (itemize ws) as (l & <- & HO & HR).
  { eapply Forall_impl; [|exact HC]. intros v. apply clean_W. }
  { intros v k HI HCn. now apply (HN v k 0%N). }
  assert (HCR : Forall clean (render (map cks l))).
  { unfold cks. replace (map _ l) with (map (ck Silog) (map (ck Slog) (map (ck Si) (map (ck Sr) (map (ck Sj) l))))) by now rewrite !map_map.
    auto 10 using clean_ck. }
  assert (HCW : Forall CardTextFacts3.W (render l)) by (eapply Forall_impl; [|exact HC]; intros v; apply clean_W).
  assert (EC : cws (render l) = render (map cks l)) by (apply cws_render; auto).
  split; [now rewrite EC|]. intros t (r & R1 & R2 & <-).
  assert (exists r', row_ok r' /\ row_words r' = w :: cws (render l) /\ row_text r' = postprocess (join [sp] (w :: render l))) as (r' & P1 & P2 & <-).
  { unfold postprocess. rewrite <- spaced_join, compress_words by auto using clean_W. rewrite EC.
    rewrite split_words.
    2:{ apply nospace_nosp. apply HW. }
    2:{ eapply Forall_impl; [|exact HCR]. intros v Hv. apply nospace_nosp. apply Hv. }
    cbn [wrap]. replace (Nat.ltb 78 (length w + 0)) with false by (symmetry; apply Nat.ltb_ge; lia).
    rewrite <- spaced_join. destruct (wrap_layout (render (map cks l)) (0 + (length w + 1)) w) as (ly & E1 & E2 & E3). rewrite E3.
    assert (HCL : Forall (fun x => clean (snd x)) ly). { rewrite <- E1 in HCR. rewrite Forall_map in HCR. exact HCR. }
    exists (mkrow w ly []). unfold row_ok, row_text, row_words. cbn [r_first r_more r_tail]. rewrite app_nil_r. split; [|split; [now rewrite E1|auto]]. split; [exact HW|]. split; [exact HH|]. split; [|constructor].
    clear - E2 HCL. induction E2 as [|x ly HX E2 IH]; constructor; inversion HCL; subst; auto. split; auto.
    destruct x as [a b]. cbn [fst snd] in *. destruct HX as [HX|HX]; subst a; [|exact brk_fold]. apply F_blanks; [repeat constructor|discriminate]. }
  rewrite <- (preprocess_row r (join [sp] (row_words r)) R1) by now left.
  rewrite <- (preprocess_row r' (join [sp] (row_words r')) P1) by now left. now rewrite R2, P2.
Qed.

(** A text with one word left out after the short words [w :: a]. *)
Theorem post_gap w a b : clean w -> hd " " w <> "#" -> Forall clean (a ++ b) -> b <> [] -> (forall v k n, In v (a ++ b) -> ~ counted k n v) ->
  Forall noK a -> length (join [sp] (w :: a)) <= 77 ->
  exists r, row_ok r /\ row_text r = postprocess (join [sp] (w :: a ++ [] :: b)) /\
            card_preprocess (row_text r) = card_preprocess (postprocess (join [sp] (w :: a ++ b))).
Proof.
  intros HW HH HC HB HN HK HL.
  assert (LW : length w <= 78). { rewrite <- spaced_join, app_length in HL. lia. }
  destruct (post_words w (a ++ b) HW LW HH HC HN) as [HCC HP]. rewrite cws_app in * by auto. pose proof HCC as HCB. apply Forall_app in HCB as [HCA HCB].
  unfold postprocess at 1. rewrite <- spaced_join, compress_nospace.
  2: now apply clean_W.
  2:{ apply Forall_app in HC as [C1 C2]. apply Forall_app. split; [|apply Forall_cons; [apply Forall_nil|]]; (eapply Forall_impl; [|eassumption]); intros v Hv; apply Hv. }
  rewrite cws_empty, (cws_self a) by auto.
  rewrite split_words.
  2:{ apply nospace_nosp. apply HW. }
  2:{ apply Forall_app. split; [|apply Forall_cons; [intros []|]]; (eapply Forall_impl; [|eassumption]); intros v Hv; apply nospace_nosp; apply Hv. }
  assert (EL : length (join [sp] (w :: a)) = length w + length (spaced a)) by (rewrite <- spaced_join, app_length; reflexivity).
  cbn [wrap]. replace (Nat.ltb 78 (length w + 0)) with false by (symmetry; apply Nat.ltb_ge; lia).
  rewrite wrap_fits by lia. cbn [wrap]. 
  match goal with |- context [Nat.ltb 78 ?n] => replace (Nat.ltb 78 n) with false by (symmetry; apply Nat.ltb_ge; cbn [length]; lia) end.
  match goal with |- context [wrap ?n (cws b)] => generalize n end. intros n.
  rewrite <- spaced_join, spaced_app. change (spaced ([] :: wrap n (cws b))) with ([sp] ++ spaced (wrap n (cws b))).
  rewrite !app_assoc. destruct (wrap_layout (cws b) n ((w ++ spaced a) ++ [sp])) as (ly & E1 & E2 & ->).
  destruct ly as [|[s v] ly].
  { exfalso. cbn in E1. apply HB. clear - E1. destruct b as [|x b]; auto. exfalso.
    assert (HE : forall k l, cw k l = [] -> l = []).
    { intros k [|y l]; auto. unfold cw. cbn [cwd]. destruct (isK _ _ y); [destruct (krun _ _ l)|]; discriminate. }
    unfold cws in E1. symmetry in E1. do 5 apply HE in E1. discriminate. }
  set (ly' := map (fun v => ([sp], v)) a ++ (sp :: s, v) :: ly).
  assert (ET : laid_out ((w ++ spaced a) ++ [sp]) ((s, v) :: ly) = laid_out w ly').
  { unfold ly'. rewrite <- laid_spaced. cbn [laid_out]. rewrite <- !app_assoc. reflexivity. }
  rewrite ET. exists (mkrow w ly' []).
  assert (HR : row_ok (mkrow w ly' [])).
  { split; [exact HW|]. split; [exact HH|]. split; [|constructor]. cbn [r_more]. unfold ly'. apply Forall_app. split.
    - apply Forall_map. eapply Forall_impl; [|exact HCA]. intros u Hu. cbn [fst snd]. split; auto. apply F_blanks; [repeat constructor|discriminate].
    - rewrite <- E1 in HCB. rewrite Forall_map in HCB. inversion E2 as [|? ? X1 X2]; subst. inversion HCB as [|? ? Y1 Y2]; subst. constructor.
      + cbn [fst snd] in *. split; auto. destruct X1 as [->| ->].
        * apply F_blanks; [repeat constructor|discriminate].
        * change (sp :: brk) with ([sp; sp] ++ "&" :: [] ++ nl :: srepeat 6 [sp]). apply F_amp; try (repeat constructor). discriminate.
      + clear - X2 Y2. induction X2 as [|x ly HX E2 IH]; constructor; inversion Y2; subst; auto. split; auto.
        destruct x as [c d]. cbn [fst snd] in *. destruct HX as [HX|HX]; subst c; [|exact brk_fold]. apply F_blanks; [repeat constructor|discriminate]. }
  split; [exact HR|]. unfold row_text at 1. cbn [r_first r_more r_tail]. rewrite app_nil_r. split; [reflexivity|].
  apply HP. eexists. split; [exact HR|]. split; [|reflexivity]. unfold row_words, ly'. cbn [r_first r_more]. rewrite map_app, map_map. cbn [snd map]. cbn [map snd] in E1. rewrite map_id, <- E1. reflexivity.
Qed.
