(** The cards of a written INP file: reading a line depends only on its words. *)

From Coq Require Import Ascii String NArith ZArith Bool Arith Lia List.
From Verif Require Import PyStr Regex RegexParse RegexFacts RegexLang PyNum PyNumFacts Types TypesSpec TypesFacts TypesFacts3 TypesFacts4 SubFacts CardText CardTextSpec CardTextFacts CardTextFacts5 CardTextFacts2 CardTextFacts6 Cards Tables Numbered Problem PtracFacts2 PtracFacts InpFile InpSpec InpSpec2 InpFacts.
From Verif Require Import CardsFacts InpFacts2 InpFacts3 InpFacts4.
Import ListNotations.
Open Scope char_scope.

(** ** The text layer of a line *)

Lemma cont_nl0 t p : nb t -> match_at re_cont p (nl :: t) = None.
Proof.
  intros HT. apply match_at_miss. rewrite re_cont_eq, m_altE, m_catE. unfold c1 at 1. rewrite m_chr, ceqb_refl.
  replace (m (RRep false 1 None (c1 sp)) _ Some) with (@None st).
  - rewrite m_catE. unfold c1 at 1. rewrite m_chr. reflexivity.
  - destruct HT as [->|(c & t' & -> & H)]; [reflexivity|]. cbn [m need c1 rest]. now rewrite inset_chr_ceqb, H.
Qed.

Lemma fold_gap s : fold s -> gap s /\ s <> [].
Proof.
  intros [b HB HN|a c b HA HC HB HN|a b HA HB HN].
  - split; [now constructor|exact HN].
  - split; [|destruct a; discriminate]. replace (a ++ "&" :: c ++ nl :: b) with (a ++ ("&" :: c ++ nl :: b) ++ []) by now rewrite app_nil_r.
    apply G_break; [exact HA|now apply B_amp|constructor; constructor|discriminate].
  - split; [|destruct a; discriminate]. replace (a ++ nl :: b) with (a ++ (nl :: b) ++ []) by now rewrite app_nil_r.
    apply G_break; [exact HA|now apply B_indent|constructor; constructor|discriminate].
Qed.

Lemma passK l : Forall (lineS fold blank) l -> exists l', Forall (lineS gapb blank) l' /\ map lwords l' = map lwords l /\
  sub re_cont (fun _ => [sp]) (rows_text l) = rows_text l'.
Proof.
  apply pass_rows.
  - reflexivity.
  - intros w t o (_ & HS & _ & _ & HA & _) HR. now apply cont_word.
  - intros s HS. destruct (fold_gap s HS) as [HG HN]. destruct (cont_gap s HG) as (b & HB & HBN & H). exists b.
    split; [split; auto|]. intros w t o CW HR. apply H; auto. now apply clean_nb.
  - intros s HS. exists s. split; auto. split; [reflexivity|]. intros. now apply cont_blank.
  - intros t o HT HR. apply reps_copy; auto. intros p. apply cont_nl0. now apply starts_nb.
Qed.

Lemma row_words_shape r r0 : shape r = shape r0 -> row_words r = row_words r0.
Proof. unfold shape. congruence. Qed.

Theorem tidy_row r : row_ok r -> tidy (row_text r) = join [sp] (row_words r).
Proof.
  intros H. unfold tidy. assert (H0 : Forall (lineS fold blank) [Some r]) by (constructor; [exact H|constructor]).
  change (row_text r) with (rows_text [Some r]).
  destruct (passK _ H0) as (l3 & H3 & E3 & ->).
  destruct (passE _ H3) as (l4 & H4 & E4 & ->).
  destruct (passF (fun _ => ["("]) l4 H4) as (l5 & H5 & E5 & ->).
  destruct (passG (fun _ => [")"]) l5 H5) as (l6 & H6 & E6 & ->).
  destruct (passH (fun _ => [nl; nl]) l6 H6) as (l7 & H7 & E7 & ->).
  destruct (passI (fun _ => [sp]) l7 H7) as (l8 & H8 & E8 & ->).
  destruct (passJ (fun _ => [sp; sp; sp; sp]) l8 H8) as (l9 & H9 & E9 & ->).
  assert (E : map lwords l9 = map lwords (map Some [r])) by (cbn [map] in *; congruence).
  apply lwords_some in E as ([|x [|]] & -> & E); try discriminate. cbn [map] in *. assert (EX : shape x = shape r) by congruence.
  assert (H1 : rowS one tail1 x) by (inversion H9; subst; assumption). change (rows_text [Some x]) with (row_text x).
  pose proof (strip_row x 0 H1) as S. cbn [repeat] in S. rewrite app_nil_r in S. rewrite S.
  destruct (bare_shows x H1) as (_ & -> & _). now rewrite (row_words_shape _ _ EX).
Qed.

Lemma fold_nodollar s : fold s -> ~ In "$" s.
Proof.
  assert (B : forall b, blank b -> ~ In "$" b) by (intros b HB HI; unfold blank in HB; rewrite Forall_forall in HB; specialize (HB _ HI); discriminate).
  intros [b HB HN|a c b HA HC HB HN|a b HA HB HN] HI; rewrite ?in_app_iff in HI; cbn [In] in HI; rewrite ?in_app_iff in HI; cbn [In] in HI.
  - now apply (B b).
  - destruct HI as [HI|[HI|[HI|[HI|HI]]]]; try discriminate; [now apply (B a)|now apply (B c)|now apply (B b)].
  - destruct HI as [HI|[HI|HI]]; try discriminate; [now apply (B a)|now apply (B b)].
Qed.
Lemma row_nodollar r : row_ok r -> ~ In "$" (row_text r).
Proof.
  destruct r as [w l tl]. intros (CW & _ & CL & CT). cbn [r_first r_more r_tail] in *. unfold row_text. cbn [r_first r_more r_tail]. rewrite in_app_iff. intros [HI|HI].
  - revert w CW HI. induction CL as [|[s v] l [HS HV] CL IH]; intros w CW HI; cbn [laid_out] in HI.
    + destruct CW as (_ & _ & _ & D & _). now apply D.
    + rewrite !in_app_iff in HI. cbn [fst snd] in *. destruct HI as [HI|[HI|HI]]; [destruct CW as (_ & _ & _ & D & _); now apply D|now apply (fold_nodollar s)|eauto].
  - unfold blank in CT. rewrite Forall_forall in CT. specialize (CT _ HI). discriminate.
Qed.

(** A row of the words with one blank between them. *)
Definition plain_row (r : row) (t : str) : row := mkrow (r_first r) (map (fun x => ([sp], snd x)) (r_more r)) t.
Lemma plain_ok r t : row_ok r -> blank t -> row_ok (plain_row r t) /\ row_words (plain_row r t) = row_words r /\
  row_text (plain_row r t) = join [sp] (row_words r) ++ t.
Proof.
  destruct r as [w l tl]. intros (CW & CH & CL & CT) HB. unfold plain_row, row_words, row_text, row_ok. cbn [r_first r_more r_tail] in *.
  split; [|split].
  - split; [exact CW|]. split; [exact CH|]. split; [|exact HB]. apply Forall_map. eapply Forall_impl; [|exact CL]. intros x [_ HX]. cbn [fst snd]. split; auto.
    apply F_blanks; [repeat constructor|discriminate].
  - now rewrite map_map.
  - f_equal. clear. revert w. induction l as [|[s v] l IH]; intros w; [reflexivity|]. cbn [map laid_out fst snd]. rewrite IH. reflexivity.
Qed.

Theorem preprocess_row r t : row_ok r -> shows r t -> card_preprocess t = card_preprocess (row_text r).
Proof.
  intros H HS.
  assert (exists b, blank b /\ t = join [sp] (row_words r) ++ b) as (b & HB & ->).
  { destruct HS as [->|[_ ->]]; [exists []; split; [constructor|now rewrite app_nil_r]|exists [sp]; split; [repeat constructor|reflexivity]]. }
  destruct (plain_ok r b H HB) as (H' & E & <-). rewrite !card_nocomment by now apply row_nodollar.
  f_equal. unfold preprocess. rewrite !tidy_row by auto. now rewrite E.
Qed.

(** ** Readers *)


Lemma first_of_layer {A} (l : list (str -> result A)) : Forall through_layer l -> through_layer (first_of l).
Proof.
  intros H s s' E. induction H as [|r l HR HL IH]; [reflexivity|]. cbn [first_of]. rewrite (HR s s' E), IH. reflexivity.
Qed.
Lemma card_layer ex fm c : through_layer (card_from_mcnp ex fm c).
Proof. intros s s' E. unfold card_from_mcnp. now rewrite E. Qed.
Lemma cell_layer : through_layer cell_from_mcnp.
Proof. intros s s' E. unfold cell_from_mcnp. now rewrite E. Qed.
Lemma surface_layer : through_layer surface_from_mcnp.
Proof. intros s s' E. unfold surface_from_mcnp. now rewrite E. Qed.
Lemma like_layer : through_layer like_from_mcnp.
Proof. intros s s' E. unfold like_from_mcnp. now rewrite (card_layer ext fam k_Like s s' E). Qed.
Lemma comment_layer : through_layer comment_from_mcnp.
Proof. intros s s' E. unfold comment_from_mcnp. now rewrite (card_layer ext fam k_Comment s s' E). Qed.
Lemma cell_card_layer : through_layer read_cell_card.
Proof. apply first_of_layer. repeat constructor; auto using cell_layer, like_layer, comment_layer. Qed.
Lemma surface_card_layer : through_layer read_surface_card.
Proof. apply first_of_layer. repeat constructor; auto using surface_layer, comment_layer. Qed.
Lemma entry_layer e : through_layer (read_entry e).
Proof.
  intros s s' E. destruct e as [c|]; cbn [read_entry].
  - now rewrite (card_layer ext fam c s s' E).
  - now apply comment_layer.
Qed.
Lemma data_card_layer : through_layer read_data_card.
Proof. apply first_of_layer. apply Forall_map, Forall_forall. intros e _. now apply entry_layer. Qed.

Lemma mapM_shows {A} (rd : str -> result A) rs ts : through_layer rd -> Forall row_ok rs -> Forall2 shows rs ts ->
  mapM rd ts = mapM rd (map row_text rs).
Proof.
  intros HR HO H. induction H as [|r t rs ts HX HL IH]; [reflexivity|]. inversion HO; subst. cbn [map mapM].
  rewrite (HR t (row_text r)) by now apply preprocess_row. now rewrite IH.
Qed.

(** ** Files *)

(** Reading a file is reading its cards. *)
Theorem file_read rc rs rd message title cells surfaces data other :
  through_layer rc -> through_layer rs -> through_layer rd -> file_ok message title cells surfaces data other ->
  exists m' t' o',
    inp_from_mcnp rc rs rd (file_text (option_map row_text message) (row_text title) (map row_text cells) (map row_text surfaces) (map row_text data) (option_map rows_text other))
    = bind (mapM rc (map row_text cells)) (fun c => bind (mapM rs (map row_text surfaces)) (fun s => bind (mapM rd (map row_text data)) (fun d =>
        inp_new t' c s d (option_map (fun m => m ++ [nl]) m') (option_map (join [nl]) o')))) /\
    match message with Some r => exists m, m' = Some m /\ shows r m | None => m' = None end /\
    shows title t' /\
    match other with Some l => exists o, o' = Some o /\ Forall2 shows_line l o | None => o' = None end.
Proof.
  intros HC HS HD H. destruct (file_cut _ _ _ _ _ _ H) as (m' & t' & cs & ss & ds & o' & E & EM & ET & EC & ES & ED & EO).
  exists m', t', o'. split; [|auto]. unfold inp_from_mcnp. rewrite E. cbn [b_cells b_surfaces b_data b_message b_title b_other].
  destruct H as (_ & FC & _ & FS & _ & FD & _).
  now rewrite (mapM_shows rc cells cs), (mapM_shows rs surfaces ss), (mapM_shows rd data ds).
Qed.

Lemma settled_shows r t : settled r -> shows r t -> t = row_text r.
Proof. intros [E ET] [->|[N _]]; [now rewrite E|congruence]. Qed.
Lemma settled_lines l o : Forall (fun x => match x with Some r => settled r | None => True end) l -> Forall2 shows_line l o -> join [nl] o = rows_text l.
Proof.
  intros H F. unfold rows_text. f_equal. revert H. induction F as [|x t l o HX HL IH]; intros H; [reflexivity|]. inversion H; subst. cbn [map]. f_equal; auto.
  destruct x as [r|]; cbn [shows_line line_text] in *; auto. now apply settled_shows.
Qed.

Lemma mapM_back {A B} (f : A -> result B) (g : A -> result str) (rd : str -> result A) l ts :
  (forall x t, In x l -> g x = Ok t -> rd t = Ok x) -> mapM g l = Ok ts -> mapM rd ts = Ok l.
Proof.
  clear f B. revert ts. induction l as [|x l IH]; intros ts H E; cbn [mapM] in E.
  - injection E as <-. reflexivity.
  - destruct (g x) as [t|e|e] eqn:EG; cbn [bind] in E; try discriminate. destruct (mapM g l) as [ts'|e|e] eqn:EL; cbn [bind] in E; try discriminate.
    injection E as <-. cbn [mapM]. rewrite (H x t) by (auto; now left). cbn [bind]. rewrite (IH ts'); auto. intros y u HY. apply H. now right.
Qed.

Lemma row_texts ts : Forall (fun t => exists r, row_ok r /\ row_text r = t) ts -> exists rs, Forall row_ok rs /\ map row_text rs = ts.
Proof.
  induction 1 as [|t ts (r & HR & <-) HL (rs & HS & <-)]; [now exists []|]. exists (r :: rs). split; [constructor; auto|reflexivity].
Qed.

(** Writing a file and reading it back. *)
Theorem file_back x s :
  i_message x = None ->
  (exists r, row_ok r /\ settled r /\ row_text r = i_title x) -> announces (i_title x) = false -> length (i_title x) < 80 ->
  match i_other x with Some o => exists l, other_ok l /\ Forall (fun y => match y with Some r => settled r | None => True end) l /\ rows_text l = o | None => True end ->
  i_cells x <> [] -> i_surfaces x <> [] -> i_data x <> [] -> existsb (fun c => negb (no_imp (fst c))) (i_cells x) = true ->
  inp_to_mcnp x = Ok s ->
  (forall c t, In c (i_cells x ++ i_surfaces x ++ i_data x) -> card_text (fst c) = Ok t -> exists r, row_ok r /\ row_text r = t) ->
  (forall c t, In c (i_cells x) -> card_text (fst c) = Ok t -> read_cell_card t = Ok c) ->
  (forall c t, In c (i_surfaces x) -> card_text (fst c) = Ok t -> read_surface_card t = Ok c) ->
  (forall c t, In c (i_data x) -> card_text (fst c) = Ok t -> read_data_card t = Ok c) ->
  read_inp s = Ok x.
Proof.
  destruct x as [title cells surfaces data message other]. cbn [i_title i_cells i_surfaces i_data i_message i_other].
  intros -> (rt & RT & ST & <-) HA HL HOT NC NS ND HI HW HR RC RS RD.
  unfold inp_to_mcnp, card_texts in HW. cbn [i_title i_cells i_surfaces i_data i_message i_other] in HW.
  destruct (mapM (fun c : card * list str => card_text (fst c)) cells) as [ct|e|e] eqn:EC; cbn [bind] in HW; try discriminate.
  destruct (mapM (fun c : card * list str => card_text (fst c)) surfaces) as [sx|e|e] eqn:ES; cbn [bind] in HW; try discriminate.
  destruct (mapM (fun c : card * list str => card_text (fst c)) data) as [dt|e|e] eqn:ED; cbn [bind] in HW; try discriminate. injection HW as <-.
  assert (RR : forall l ts, (forall c, In c l -> In c (cells ++ surfaces ++ data)) -> mapM (fun c : card * list str => card_text (fst c)) l = Ok ts -> Forall (fun t => exists r, row_ok r /\ row_text r = t) ts).
  { clear - HR. intros l. induction l as [|c l IH]; intros ts HI E; cbn [mapM] in E.
    - injection E as <-. constructor.
    - destruct (card_text (fst c)) as [t|e|e] eqn:EG; cbn [bind] in E; try discriminate. destruct (mapM (fun c : card * list str => card_text (fst c)) l) as [ts'|e|e]; cbn [bind] in E; try discriminate.
      injection E as <-. constructor; [apply (HR c); auto; apply HI; now left|apply IH; auto; intros; apply HI; now right]. }
  assert (LN : forall (l : list remarked) (ts : list str), mapM (fun c : card * list str => card_text (fst c)) l = Ok ts -> l <> [] -> ts <> []).
  { intros [|c l] ts E N; [congruence|]. cbn [mapM] in E. destruct (card_text (fst c)); cbn [bind] in E; try discriminate. destruct (mapM (fun c : card * list str => card_text (fst c)) l); cbn [bind] in E; try discriminate. injection E as <-. discriminate. }
  destruct (row_texts ct) as (rcs & FC & <-). { apply (RR cells); auto. intros c H. rewrite in_app_iff. auto. }
  destruct (row_texts sx) as (rss & FS & <-). { apply (RR surfaces); auto. intros c H. rewrite !in_app_iff. auto. }
  destruct (row_texts dt) as (rds & FD & <-). { apply (RR data); auto. intros c H. rewrite !in_app_iff. auto. }
  assert (HOT' : exists lo, other = option_map rows_text lo /\ match lo with Some l => other_ok l /\ Forall (fun y => match y with Some r => settled r | None => True end) l | None => True end).
  { destruct other as [o|]; [|now exists None]. destruct HOT as (l & A & B & <-). exists (Some l). auto. }
  destruct HOT' as (lo & -> & HLO).
  assert (FO : file_ok None rt rcs rss rds lo).
  { unfold file_ok. split; [exact RT|]. split; [exact FC|]. split; [intros ->; now apply (LN cells [])|]. split; [exact FS|]. split; [intros ->; now apply (LN surfaces [])|].
    split; [exact FD|]. split; [intros ->; now apply (LN data [])|]. split; [destruct lo; [apply HLO|exact I]|]. destruct ST as [ST _]. now rewrite <- ST. }
  destruct (file_read read_cell_card read_surface_card read_data_card None rt rcs rss rds lo) as (m' & t' & o' & E & -> & ET & EO); auto using cell_card_layer, surface_card_layer, data_card_layer.
  unfold read_inp. cbn [option_map] in E. rewrite E.
  rewrite (mapM_back (fun c => Ok c) (fun c : card * list str => card_text (fst c)) read_cell_card cells); auto. cbn [bind].
  rewrite (mapM_back (fun c => Ok c) (fun c : card * list str => card_text (fst c)) read_surface_card surfaces); auto. cbn [bind].
  rewrite (mapM_back (fun c => Ok c) (fun c : card * list str => card_text (fst c)) read_data_card data); auto. cbn [bind].
  rewrite (settled_shows rt t') by auto. unfold inp_new. apply Nat.ltb_lt in HL. rewrite HL. cbn [negb].
  assert (HF : forallb (fun c : card * list str => no_imp (fst c)) cells = false).
  { clear - HI. induction cells as [|c l IH]; [discriminate|]. cbn [existsb forallb] in *. destruct (no_imp (fst c)); cbn in *; auto. }
  rewrite HF. do 2 f_equal.
  destruct lo as [l|]; [|now rewrite EO]. destruct EO as (o & -> & EO). cbn [option_map]. f_equal. apply settled_lines; auto. apply HLO.
Qed.
