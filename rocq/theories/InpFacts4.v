(** A written INP file: from the text to the arguments of the constructor. *)

From Coq Require Import Ascii String NArith ZArith Bool Arith Lia List.
From Verif Require Import PyStr Regex RegexParse RegexFacts RegexLang PyNum PyNumFacts Types TypesSpec TypesFacts TypesFacts3 TypesFacts4 SubFacts CardText CardTextSpec CardTextFacts CardTextFacts5 CardTextFacts2 CardTextFacts6 InpFile InpSpec InpFacts.
From Verif Require Import CardsFacts InpFacts2 InpFacts3.
Import ListNotations.
Open Scope char_scope.

Ltac napp := repeat first [rewrite <- app_assoc | progress cbn [app]].
Ltac nappin H := repeat first [rewrite <- app_assoc in H | progress cbn [app] in H].
Lemma lwords_some rs : forall l, map lwords l = map lwords (map Some rs) -> exists rs', l = map Some rs' /\ map shape rs' = map shape rs.
Proof.
  induction rs as [|r rs IH]; intros [|[x|] l] H; try discriminate; [now exists []|]. cbn [map lwords option_map] in H.
  assert (H1 : shape x = shape r) by congruence. assert (H2 : map lwords l = map lwords (map Some rs)) by congruence.
  destruct (IH l H2) as (rs' & -> & E). exists (x :: rs'). split; [reflexivity|]. cbn [map]. now rewrite H1, E.
Qed.
Lemma shape_shows r r0 t : shape r = shape r0 -> shows r t -> shows r0 t.
Proof.
  unfold shape. intros H [->|[N ->]]; assert (E : row_words r = row_words r0) by congruence; rewrite E; [now left|right].
  split; auto. assert (X : match r_tail r with [] => true | _ => false end = match r_tail r0 with [] => true | _ => false end) by congruence.
  destruct (r_tail r); [congruence|]. destruct (r_tail r0); [discriminate|discriminate].
Qed.
Lemma shapes_show rs rs0 ls : map shape rs = map shape rs0 -> Forall2 shows rs ls -> Forall2 shows rs0 ls.
Proof.
  intros E H. revert rs0 E. induction H as [|r t rs ls HX HL IH]; intros [|r0 rs0] E; try discriminate; constructor.
  - cbn [map] in E. apply (shape_shows r); auto. congruence.
  - apply IH. cbn [map] in E. congruence.
Qed.
Lemma lwords_app a b l : map lwords l = map lwords (a ++ b) -> exists a' b', l = a' ++ b' /\ map lwords a' = map lwords a /\ map lwords b' = map lwords b.
Proof. rewrite map_app. intros H. apply map_eq_app in H as (a' & b' & -> & H1 & H2). eauto. Qed.
Lemma lwords_none1 l : map lwords l = [None] -> l = [None].
Proof. destruct l as [|[x|] [|]]; intros H; try discriminate; auto. Qed.

Lemma Forall_somes rs : Forall (lineS one tail1) (map Some rs) -> Forall (rowS one tail1) rs.
Proof. intros H. rewrite Forall_map in H. exact H. Qed.

Lemma join_cons2 (x y : str) l : join [nl] (x :: y :: l) = x ++ [nl] ++ join [nl] (y :: l).
Proof. reflexivity. Qed.

Definition all_rows (message : option row) (title : row) (cells surfaces data : list row) : rows :=
  match message with Some m => [Some m] | None => [] end ++ [Some title] ++ map Some cells ++ [None] ++ map Some surfaces ++ [None] ++ map Some data.

Lemma app_ne {A} (a b : list A) : b <> [] -> a ++ b <> [].
Proof. destruct a; [auto|discriminate]. Qed.
Lemma map_ne {A B} (f : A -> B) l : l <> [] -> map f l <> [].
Proof. destruct l; [auto|discriminate]. Qed.

Lemma all_rows_text message title cells surfaces data : cells <> [] -> surfaces <> [] -> data <> [] ->
  rows_text (all_rows message title cells surfaces data) =
  flat_text (option_map row_text message) (row_text title) (map row_text cells) (map row_text surfaces) (map row_text data) None.
Proof.
  intros NC NS ND. unfold all_rows, flat_text.
  assert (E : rows_text ([Some title] ++ map Some cells ++ [None] ++ map Some surfaces ++ [None] ++ map Some data) =
    row_text title ++ [nl] ++ join [nl] (map row_text cells) ++ [nl; nl] ++ join [nl] (map row_text surfaces) ++ [nl; nl] ++ join [nl] (map row_text data)).
  { rewrite (rows_text_app [Some title]) by (try discriminate; apply app_ne; discriminate).
    rewrite (rows_text_app (map Some cells)) by (try discriminate; now apply map_ne).
    cbn [app]. rewrite rows_text_none by (apply app_ne; discriminate).
    rewrite (rows_text_app (map Some surfaces)) by (try discriminate; now apply map_ne).
    rewrite rows_text_none by now apply map_ne. rewrite !rows_text_some. reflexivity. }
  destruct message as [m|]; cbn [option_map].
  - rewrite rows_text_app by discriminate. rewrite E, app_nil_r, <- !app_assoc. reflexivity.
  - cbn [app] in *. rewrite E. now rewrite app_nil_r.
Qed.

Lemma file_text_rows message title cells surfaces data other : cells <> [] -> surfaces <> [] -> data <> [] -> match other with Some l => l <> [] | None => True end ->
  (forall m, message = Some m -> row_text m <> []) ->
  file_text (option_map row_text message) (row_text title) (map row_text cells) (map row_text surfaces) (map row_text data) (option_map rows_text other) =
  rows_text (all_rows message title cells surfaces data ++ [None] ++ match other with Some l => l | None => [None] end).
Proof.
  intros NC NS ND NO HM.
  rewrite rows_text_app by (try discriminate; unfold all_rows; apply app_ne; discriminate). rewrite all_rows_text by auto.
  assert (E : rows_text ([None] ++ match other with Some l => l | None => [None] end) = nl :: match option_map rows_text other with Some t => t | None => [] end).
  { destruct other as [l|]; [|reflexivity]. cbn [app]. rewrite rows_text_none by auto. reflexivity. }
  rewrite E. unfold file_text, flat_text, block_text. destruct message as [m|]; cbn [option_map].
  - specialize (HM m eq_refl). destruct (row_text m) eqn:ER; [congruence|]. rewrite app_nil_r, <- !app_assoc. reflexivity.
  - cbn [app]. rewrite app_nil_r. repeat (rewrite <- app_assoc; cbn [app]). reflexivity.
Qed.

Lemma row_ok_lineS r : row_ok r -> lineS fold blank (Some r).
Proof. intros H. exact H. Qed.
Lemma ok_lineS l : Forall line_ok l -> Forall (lineS fold blank) l.
Proof. apply Forall_impl. intros [x|] H; exact H. Qed.

Lemma ok_nonempty r : row_ok r -> row_text r <> [].
Proof.
  destruct r as [w l t]. intros ((HN & _) & _). cbn [r_first] in *. unfold row_text. cbn [r_first r_more]. destruct w; [congruence|]. destruct l as [|[s v] l]; discriminate.
Qed.

Lemma shows_rows l : Forall (lineS one tail1) l -> forall l0, map lwords l = map lwords l0 -> Forall2 shows_line l0 (map line_text l).
Proof.
  induction 1 as [|x l HX HL IH]; intros [|y l0] H; try discriminate; [constructor|]. cbn [map] in H. injection H as H1 H2. constructor; auto.
  destruct x as [x|], y as [y|]; try discriminate; [|reflexivity]. cbn [shows_line line_text lwords option_map] in *.
  destruct (row_shows x HX) as (HS & _). apply (shape_shows x); auto. congruence.
Qed.

Lemma shown_ne y l ts : row_ok y -> Forall2 shows_line (Some y :: l) ts -> join [nl] ts <> [].
Proof.
  intros ((HN & _) & _) H. inversion H as [|E1 t E3 ts' HS HL]; subst. destruct y as [w k tl]. cbn [r_first] in HN. destruct w as [|c w]; [congruence|].
  assert (exists u, t = c :: u) as (u & ->). { destruct HS as [->|[_ ->]]; unfold row_words; cbn [r_first r_more map]; destruct (map snd k); cbn; eauto. }
  destruct ts'; discriminate.
Qed.

Theorem file_cut message title cells surfaces data other : file_ok message title cells surfaces data other ->
  exists m' t' cs ss ds o',
    cut_blocks (inp_preprocess (file_text (option_map row_text message) (row_text title) (map row_text cells) (map row_text surfaces) (map row_text data) (option_map rows_text other)))
    = Some {| b_message := option_map (fun m => m ++ [nl]) m'; b_title := t'; b_cells := cs; b_surfaces := ss; b_data := ds; b_other := option_map (join [nl]) o' |} /\
    match message with Some r => exists m, m' = Some m /\ shows r m | None => m' = None end /\
    shows title t' /\ Forall2 shows cells cs /\ Forall2 shows surfaces ss /\ Forall2 shows data ds /\
    match other with Some l => exists o, o' = Some o /\ Forall2 shows_line l o | None => o' = None end.
Proof.
  intros (HT & HC & NC & HS & NS & HD & ND & HO & HM).
  assert (HMS : Forall line_ok (match message with Some m => [Some m] | None => [] end)) by (destruct message; repeat constructor; apply HM).
  assert (NO : match other with Some l => l <> [] | None => True end) by (destruct other as [l|]; auto; destruct HO as (_ & (x & l' & ->) & _); discriminate).
  rewrite file_text_rows; auto. 2:{ intros m ->. now apply ok_nonempty. }
  match goal with |- context[rows_text (?a ++ ?b ++ ?c)] => set (OT := c) end.
  assert (HOT : Forall line_ok OT) by (unfold OT; destruct other; [apply HO|repeat constructor]).
  assert (FS : forall rs, Forall row_ok rs -> Forall line_ok (map Some rs)) by (intros rs H; apply Forall_map; exact H).
  assert (ALL : Forall line_ok (all_rows message title cells surfaces data ++ [None] ++ OT)).
  { unfold all_rows. repeat (apply Forall_app; split); auto; repeat constructor; try apply HT. }
  destruct (prepared _ (ok_lineS _ ALL)) as (L' & HL' & EL & ->). { apply app_ne. discriminate. }
  (* the rows of the prepared text *)
  apply lwords_app in EL as (A' & OT1 & -> & EA & EO). apply lwords_app in EO as (N1 & OT' & -> & EN1 & EO). apply lwords_none1 in EN1. subst N1.
  unfold all_rows in EA. apply lwords_app in EA as (M' & X1 & -> & EM & EA). apply lwords_app in EA as (T' & X2 & -> & ET & EA).
  apply lwords_app in EA as (C' & X3 & -> & EC & EA). apply lwords_app in EA as (N2 & X4 & -> & EN2 & EA). apply lwords_none1 in EN2. subst N2.
  apply lwords_app in EA as (S' & X5 & -> & ES & EA). apply lwords_app in EA as (N3 & D' & -> & EN3 & ED). apply lwords_none1 in EN3. subst N3.
  apply lwords_some in EC as (cs & -> & EC). apply lwords_some in ES as (ss & -> & ES). apply lwords_some in ED as (ds & -> & ED).
  change [Some title] with (map Some [title]) in ET. apply lwords_some in ET as ([|t [|]] & -> & ET); try discriminate. assert (ET0 : shape t = shape title) by (cbn [map] in ET; congruence).
  assert (EMM : exists msg, M' = match msg with Some m => [Some m] | None => [] end /\ match message with Some r => exists m, msg = Some m /\ shape m = shape r | None => msg = None end).
  { destruct message as [m|].
    - change [Some m] with (map Some [m]) in EM. apply lwords_some in EM as ([|x [|]] & -> & EM); try discriminate. exists (Some x). split; [reflexivity|]. exists x. split; auto. cbn [map] in EM. congruence.
    - destruct M'; [|discriminate]. exists None. auto. }
  destruct EMM as (msg & -> & EMM).
  repeat (apply Forall_app in HL' as [?HF HL']). rename HL' into FOT.
  repeat match goal with H : Forall (lineS one tail1) (_ ++ _) |- _ => apply Forall_app in H as [? H] end.
  repeat match goal with H : Forall (lineS one tail1) (map Some _) |- _ => apply Forall_somes in H end.
  assert (NCs : cs <> []) by (intros ->; destruct cells; [congruence|discriminate]).
  assert (NSs : ss <> []) by (intros ->; destruct surfaces; [congruence|discriminate]).
  assert (NDs : ds <> []) by (intros ->; destruct data; [congruence|discriminate]).
  change (match msg with Some m => [Some m] | None => [] end ++ map Some [t] ++ map Some cs ++ [None] ++ map Some ss ++ [None] ++ map Some ds) with (all_rows msg t cs ss ds).
  (* stripping *)
  assert (STR : exists ds' oo, Forall (rowS one tail1) ds' /\ ds' <> [] /\ (forall ls, Forall2 shows ds' ls -> Forall2 shows ds ls) /\
     match other with Some l => exists Q0, oo = Some Q0 /\ Forall (lineS one tail1) Q0 /\ Forall2 shows_line l (map line_text Q0) | None => oo = None end /\
     strip (rows_text ((all_rows msg t cs ss ds ++ [None] ++ OT') ++ [None])) = rows_text (all_rows msg t cs ss ds' ++ match oo with Some Q0 => [None] ++ Q0 | None => [] end)).
  { assert (FT : rowS one tail1 t) by (match goal with H : Forall (rowS one tail1) [t] |- _ => now inversion H end).
    set (P := match msg with Some m => [Some m] | None => [] end ++ [Some t] ++ map Some cs ++ [None] ++ map Some ss ++ [None]).
    assert (EP : forall d, all_rows msg t cs ss d = P ++ map Some d) by (intros d; unfold all_rows, P; now rewrite <- !app_assoc).
    assert (FP : Forall (lineS one tail1) P).
    { unfold P. repeat (apply Forall_app; split); auto; try (repeat constructor; exact FT); apply Forall_map; auto. }
    assert (HP : exists x P', P = Some x :: P' /\ rowS one tail1 x /\ Forall (lineS one tail1) P').
    { clear EP. assert (exists x P', P = Some x :: P') as (x & P' & EX) by (unfold P; destruct msg; cbn [app]; eauto). rewrite EX in FP. inversion FP; subst. eauto. }
    destruct HP as (x & P' & HP & HX & HP'). rewrite EP. destruct other as [l|]; unfold OT in *.
    - destruct HO as (_ & _ & (l0 & r & ->)). rewrite map_app in EO. apply map_eq_app in EO as (O0 & O1 & -> & EO0 & EO1).
      apply Forall_app in FOT as [FO0 FO1]. destruct O1 as [|[o|] [|]]; try discriminate. inversion FO1; subst.
      exists ds, (Some (O0 ++ [Some (bare o)])). destruct (bare_shows o) as (B1 & B2 & _); auto. split; [assumption|]. split; [assumption|]. split; [intros ls X; exact X|]. split.
      + exists (O0 ++ [Some (bare o)]). split; auto. split; [apply Forall_app; auto|]. rewrite map_app. apply Forall2_app; [now apply shows_rows|].
        constructor; [|constructor]. left. cbn [line_text]. rewrite B2. f_equal. cbn [map lwords option_map] in EO1. assert (X : shape o = shape r) by congruence. unfold shape in X. congruence.
      + rewrite HP. napp.
        destruct (strip_rows x (P' ++ map Some ds ++ None :: O0) o 1 HX) as [EQ _]; auto.
        { apply Forall_app. split; auto. apply Forall_app. split; [apply Forall_map; auto|]. constructor; [exact I|auto]. }
        cbn [app repeat] in EQ. nappin EQ. rewrite EQ.
        rewrite EP, HP. napp. reflexivity.
    - apply lwords_none1 in EO. subst OT'. destruct (exists_last NDs) as (d0 & d & ->).
      match goal with H : Forall (rowS one tail1) (d0 ++ [d]) |- _ => apply Forall_app in H as [FD0 FD1] end. inversion FD1; subst.
      destruct (bare_shows d) as (B1 & _ & B2); [assumption|].
      exists (d0 ++ [bare d]), None. split; [apply Forall_app; auto|]. split; [destruct d0; discriminate|]. split.
      { intros ls X. apply Forall2_app_inv_l in X as (l1 & l2 & X1 & X2 & ->). apply Forall2_app; auto. inversion X2 as [|a1 a2 a3 a4 Y1 Y2]; subst. inversion Y2; subst. constructor; [|constructor].
        left. destruct Y1 as [->|[Y _]]; [now rewrite B2|]. exfalso. now apply Y. }
      split; auto.
      rewrite HP, map_app. napp. cbn [map]. napp.
      destruct (strip_rows x (P' ++ map Some d0) d 3 HX) as [EQ _]; auto.
      { apply Forall_app. split; auto. apply Forall_map; auto. }
      cbn [app repeat] in EQ. nappin EQ. rewrite EQ.
      rewrite EP, HP, map_app, app_nil_r. cbn [map]. napp. reflexivity. }
  destruct STR as (ds' & oo & FDs' & NDs' & EDs' & EOO & ->).
  assert (FT : rowS one tail1 t) by (match goal with H : Forall (rowS one tail1) [t] |- _ => now inversion H end).
  assert (FL : forall rs, Forall (rowS one tail1) rs -> Forall fline (map row_text rs)).
  { intros rs HH. apply Forall_map. eapply Forall_impl; [|exact HH]. intros y HY. apply (row_shows y HY). }
  assert (TXT : rows_text (all_rows msg t cs ss ds' ++ match oo with Some Q0 => [None] ++ Q0 | None => [] end)
    = flat_text (option_map row_text msg) (row_text t) (map row_text cs) (map row_text ss) (map row_text ds') (option_map rows_text oo)).
  { destruct oo as [Q0|]; [|now rewrite app_nil_r, all_rows_text].
    assert (Q0 <> []). { destruct other as [l|]; [|discriminate]. destruct EOO as (O' & [= <-] & _ & E). intros ->. cbn [map] in E. inversion E. subst. congruence. }
    rewrite rows_text_app by (try discriminate; unfold all_rows; apply app_ne; discriminate). rewrite all_rows_text by auto.
    cbn [app]. rewrite rows_text_none by auto. unfold flat_text. cbn [option_map]. napp. reflexivity. }
  rewrite TXT.
  destruct (file_match (option_map row_text msg) (row_text t) (map row_text cs) (map row_text ss) (map row_text ds') (option_map rows_text oo)) as (o & EQ & EQC); auto using map_ne.
  { destruct oo as [Q0|]; [|discriminate]. cbn [option_map]. destruct other as [l|]; [|discriminate]. destruct EOO as (O' & [= <-] & FO & E).
    destruct HO as (HY & (y & l' & ->) & _). intros [= X]. revert X. apply (shown_ne y l'); auto. now inversion HY. }
  { apply row_shows. exact FT. }
  { destruct message as [r|].
    - destruct EMM as (m & -> & EMM). cbn [option_map]. destruct (row_shows m) as (SM & FM & _).
      { match goal with H : Forall (lineS one tail1) [Some m] |- _ => now inversion H end. }
      split; [exact FM|]. destruct HM as (_ & HM1 & HM2). apply (shape_shows m r) in SM; auto. rewrite (announces_shows r _ SM). split; auto.
      destruct SM as [-> |[_ ->]]; auto. rewrite app_length. lia.
    - rewrite EMM. cbn [option_map]. destruct (row_shows t FT) as (ST & _). apply (shape_shows t title) in ST; auto. now rewrite (announces_shows title _ ST). }
  unfold cut_blocks. rewrite EQ.
  destruct (card_lines_rows cs 2) as (lc & ELC & SLC); auto. destruct (card_lines_rows ss 2) as (ls & ELS & SLS); auto.
  destruct (card_lines_rows ds' (match oo with Some _ => 2 | None => 0 end)) as (ld & ELD & SLD); auto.
  assert (G1 : truthy (group 1 o) = option_map (fun m => m ++ [nl]) (option_map row_text msg)).
  { unfold group. rewrite EQC. destruct oo, msg; cbn; try reflexivity; destruct (row_text r) eqn:X; cbn; try reflexivity. }
  assert (G2 : grp 2 o = row_text t) by (unfold grp, group; rewrite EQC; destruct oo; reflexivity).
  assert (G3 : grp 3 o = join [nl] (map row_text cs) ++ repeat nl 2) by (unfold grp, group; rewrite EQC; destruct oo; reflexivity).
  assert (G4 : grp 4 o = join [nl] (map row_text ss) ++ repeat nl 2) by (unfold grp, group; rewrite EQC; destruct oo; reflexivity).
  assert (G5 : grp 5 o = join [nl] (map row_text ds') ++ repeat nl (match oo with Some _ => 2 | None => 0 end)) by (unfold grp, group; rewrite EQC; destruct oo; reflexivity).
  assert (G6 : truthy (group 6 o) = option_map rows_text oo).
  { unfold group. rewrite EQC. destruct oo as [Q0|]; [|destruct msg; reflexivity]. cbn [option_map lookup app]. cbn. destruct (rows_text Q0) eqn:X; [|reflexivity].
    exfalso. destruct other as [l|]; [|discriminate]. destruct EOO as (O' & [= <-] & FO & E).
    destruct HO as (HY & (y & l' & ->) & _). revert X. apply (shown_ne y l'); auto. now inversion HY. }
  rewrite G1, G2, G3, G4, G5, G6, ELC, ELS, ELD.
  exists (option_map row_text msg), (row_text t), lc, ls, ld, (option_map (map line_text) oo).
  split. { f_equal. f_equal. destruct oo; reflexivity. }
  split. { destruct message as [r|]; [|now rewrite EMM]. destruct EMM as (m & -> & EMM). exists (row_text m). split; [reflexivity|]. apply (shape_shows m r); auto.
    apply row_shows. match goal with H : Forall (lineS one tail1) [Some m] |- _ => now inversion H end. }
  split. { destruct (row_shows t FT) as (ST & _). now apply (shape_shows t title). }
  apply (shapes_show _ cells) in SLC; auto. apply (shapes_show _ surfaces) in SLS; auto. apply EDs', (shapes_show _ data) in SLD; auto.
  split; auto. split; auto. split; auto.
  destruct other as [l|]; [|now rewrite EOO]. destruct EOO as (Q0 & -> & FO & E). exists (map line_text Q0). split; [reflexivity|]. exact E.
Qed.
