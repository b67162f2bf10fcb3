(** How a written INP file is read: its blocks and lines. *)

From Coq Require Import Ascii String NArith ZArith Bool Arith Lia List.
From Verif Require Import PyStr Regex RegexParse RegexFacts RegexLang PyNum PyNumFacts Types TypesSpec TypesFacts TypesFacts3 TypesFacts4 SubFacts CardText CardTextSpec CardTextFacts CardTextFacts5 CardTextFacts2 CardTextFacts6 PtracFacts2 PtracFacts InpFile InpSpec InpFacts.
From Verif Require Import CardsFacts InpFacts2.
Import ListNotations.
Open Scope char_scope.

Lemma starts_with_nl x0 l a b : ~ In x0 l -> starts_with l (slower a ++ x0 :: b) = starts_with l (slower a).
Proof.
  revert a. induction l as [|x l IH]; intros a HN; [now destruct a|]. destruct a as [|c a]; cbn [slower map app starts_with].
  - replace (ceqb x x0) with false; [reflexivity|]. symmetry. apply ceqb_neq. intros ->. apply HN. now left.
  - f_equal. apply IH. intros X. apply HN. now right.
Qed.
Lemma announces_nl a b : announces (a ++ nl :: b) = announces a.
Proof. unfold announces, slower. rewrite map_app. cbn [map]. change (lower nl) with nl. apply starts_with_nl. cbn. intuition discriminate. Qed.

Lemma announces_sp a : announces (a ++ [sp]) = announces a.
Proof. unfold announces, slower. rewrite map_app. cbn [map]. change (lower sp) with sp. apply starts_with_nl. cbn. intuition discriminate. Qed.
Lemma announces_shows r t : shows r t -> announces t = announces (join [sp] (row_words r)).
Proof. intros [->|[_ ->]]; [reflexivity|apply announces_sp]. Qed.

Lemma announces_split m : announces m = true -> 8 < length m -> exists a c b, m = a ++ c :: b /\ length a = 8.
Proof.
  intros _ H. exists (firstn 8 m). destruct (skipn 8 m) as [|c b] eqn:E.
  - apply (f_equal (@length ascii)) in E. rewrite skipn_length in E. cbn in E. lia.
  - exists c, b. rewrite <- E, firstn_skipn. split; auto. rewrite firstn_length. lia.
Qed.

(** The text of a file without trailing blanks, and its captures. *)
Definition flat_text (msg : option str) (title : str) (cs ss ds : list str) (oth : option str) : str :=
  match msg with Some m => m ++ [nl] | None => [] end ++ title ++ [nl] ++ join [nl] cs ++ [nl; nl] ++ join [nl] ss ++ [nl; nl] ++ join [nl] ds ++
  match oth with Some o => [nl; nl] ++ o | None => [] end.

Lemma blocks_match p cp cs ss ds oth : Forall fline cs -> cs <> [] -> Forall fline ss -> ss <> [] -> Forall fline ds -> ds <> [] -> oth <> Some [] ->
  let t := join [nl] cs ++ [nl; nl] ++ join [nl] ss ++ [nl; nl] ++ join [nl] ds ++ match oth with Some o => [nl; nl] ++ o | None => [] end in
  m r_blocks (mkst p t cp) Some = Some (mkst (rev t ++ p) []
    (match oth with Some o => [(6, o)] | None => [] end ++
     [(5, join [nl] ds ++ match oth with Some _ => [nl; nl] | None => [] end); (4, join [nl] ss ++ [nl; nl]); (3, join [nl] cs ++ [nl; nl])] ++ cp)).
Proof.
  intros FC NC FS NS FD ND NO t. subst t. unfold r_blocks. rewrite m_catE. apply m_block; auto. rewrite m_catE. apply m_block; auto. rewrite m_catE.
  destruct oth as [o|].
  - apply (m_last 5 ds _ o _ _ _ [nl; nl]); auto. rewrite m_rest_end. destruct o as [|a o]; [congruence|]. f_equal. f_equal.
    rewrite !rev_app_distr, <- !app_assoc. cbn [rev app]. now rewrite <- !app_assoc.
  - apply (m_last 5 ds _ [] _ _ _ []); auto. rewrite m_rest_end. f_equal. f_equal. rewrite !rev_app_distr, <- !app_assoc. reflexivity.
Qed.

Theorem file_match msg title cs ss ds oth : Forall fline cs -> cs <> [] -> Forall fline ss -> ss <> [] -> Forall fline ds -> ds <> [] -> oth <> Some [] ->
  fline title -> match msg with Some m => fline m /\ announces m = true /\ 8 < length m | None => announces title = false end ->
  exists o, re_match re_file (flat_text msg title cs ss ds oth) = Some o /\ mcaps o =
    match oth with Some o => [(6, o)] | None => [] end ++
     [(5, join [nl] ds ++ match oth with Some _ => [nl; nl] | None => [] end); (4, join [nl] ss ++ [nl; nl]); (3, join [nl] cs ++ [nl; nl])] ++
     [(2, title)] ++ match msg with Some m => [(1, m ++ [nl])] | None => [] end.
Proof.
  intros FC NC FS NS FD ND NO (TN & c & t' & ET & _) HM.
  assert (B := fun p cp => blocks_match p cp cs ss ds oth FC NC FS NS FD ND NO). cbv zeta in B.
  unfold flat_text. set (T := join [nl] cs ++ _) in *. clearbody T.
  assert (HT : forall p cp x, m r_blocks (mkst (nl :: rev title ++ p) T ((2, title) :: cp)) Some = Some x ->
    m (RCat (RGrp 2 r_dots) (RCat (c1 nl) r_blocks)) (mkst p (title ++ [nl] ++ T) cp) Some = Some x).
  { intros p cp x HX. rewrite m_catE, m_grp. apply m_dots.
    - rewrite ET. discriminate.
    - exact TN.
    - right. exists T. reflexivity.
    - rewrite m_catE, addcap_app. unfold c1. cbn [app]. rewrite m_chr, ceqb_refl. apply HX. }
  unfold re_match, match_at. rewrite re_file_eq, m_catE. cbn [m pre]. 
  set (S := match msg with Some _ => _ | None => _ end ++ _).
  enough (X : exists s, m (RCat (RRep false 0 (Some 1) (RGrp 1 (RCat r_msg (RCat r_dots (c1 nl))))) (RCat (RGrp 2 r_dots) (RCat (c1 nl) r_blocks))) (mkst [] S []) Some = Some s
    /\ caps s = match oth with Some o => [(6, o)] | None => [] end ++
     [(5, join [nl] ds ++ match oth with Some _ => [nl; nl] | None => [] end); (4, join [nl] ss ++ [nl; nl]); (3, join [nl] cs ++ [nl; nl])] ++
     [(2, title)] ++ match msg with Some m => [(1, m ++ [nl])] | None => [] end).
  { destruct X as (s & X1 & X2). change (m (RCat ?a ?b) ?s Some) with (m (RCat a b) s Some) in X1.
    cbn [m] in X1 |- *. rewrite X1. eexists. split; [reflexivity|]. exact X2. }
  rewrite m_catE, m_optE. subst S. destruct msg as [m0|].
  - destruct HM as ((MN & _) & MA & ML). destruct (announces_split m0 MA ML) as (a & d & b & EM & EL).
    rewrite m_grp, m_catE. unfold r_msg. rewrite m_rseq, eats_msg. rewrite <- app_assoc. cbn [app]. rewrite announces_nl, MA.
    assert (ES : skipn 8 (m0 ++ nl :: title ++ nl :: T) = (d :: b) ++ nl :: title ++ nl :: T).
    { rewrite EM, <- app_assoc, <- EL, skipn_app, skipn_all, Nat.sub_diag. reflexivity. }
    rewrite ES, m_catE.
    eexists. split.
    + erewrite m_dots; [reflexivity|discriminate| |right; eexists; reflexivity|].
      * intros X. apply MN. rewrite EM. apply in_app_iff. now right.
      * cbv beta. unfold c1. rewrite m_chr, ceqb_refl. cbv beta.
        unfold addcap. cbn [pre rest caps].
        replace (m0 ++ nl :: title ++ nl :: T) with ((m0 ++ [nl]) ++ title ++ [nl] ++ T) by now rewrite <- app_assoc.
        rewrite firstn_consumed. apply HT. apply B.
    + cbn [caps]. rewrite <- ?app_assoc. reflexivity.
  - assert (E : m (RGrp 1 (RCat r_msg (RCat r_dots (c1 nl)))) (mkst [] (title ++ [nl] ++ T) []) (fun s' => m (RCat (RGrp 2 r_dots) (RCat (c1 nl) r_blocks)) s' Some) = None).
    { rewrite m_grp, m_catE. unfold r_msg. rewrite m_rseq, eats_msg. cbn [app]. now rewrite announces_nl, HM. }
    cbn [app] in *. rewrite E. eexists. split; [apply HT; apply B|]. cbn [caps]. rewrite <- ?app_assoc. reflexivity.
Qed.

(** ** Rows without line ends *)

Definition bare (r : row) : row := mkrow (r_first r) (r_more r) [].

Lemma rows_text_app a b : a <> [] -> b <> [] -> rows_text (a ++ b) = rows_text a ++ [nl] ++ rows_text b.
Proof.
  intros HA HB. induction a as [|x a IH]; [congruence|]. cbn [app]. rewrite rows_text_cons. destruct a as [|y a].
  - cbn [app]. unfold tailt. destruct b; [congruence|]. rewrite (rows_text_cons x []). cbn [tailt]. now rewrite app_nil_r.
  - rewrite (rows_text_cons x (y :: a)). cbn [tailt app] in *. rewrite IH by discriminate. cbn [app]. now rewrite <- app_assoc.
Qed.
Lemma rows_text_some rs : rows_text (map Some rs) = join [nl] (map row_text rs).
Proof. unfold rows_text. now rewrite map_map. Qed.
Lemma rows_text_none b : b <> [] -> rows_text (None :: b) = nl :: rows_text b.
Proof. intros H. rewrite rows_text_cons. cbn [line_text app]. unfold tailt. destruct b; [congruence|reflexivity]. Qed.
Lemma rows_text_nones n : rows_text (repeat None (S n)) = repeat nl n.
Proof. induction n as [|n IH]; [reflexivity|]. change (repeat None (S (S n))) with (@None row :: repeat None (S n)). rewrite rows_text_none by discriminate. now rewrite IH. Qed.

Lemma bare_shows r : rowS one tail1 r -> rowS one tail1 (bare r) /\ row_text (bare r) = join [sp] (row_words r) /\ row_words (bare r) = row_words r.
Proof.
  intros H. destruct r as [w l tl]. destruct H as (CW & CH & CL & CT). cbn [r_first r_more r_tail] in *. unfold bare, row_text, row_words. cbn [r_first r_more r_tail].
  split; [|split; auto]. { split; [exact CW|]. split; [exact CH|]. split; [exact CL|]. now left. } rewrite app_nil_r. now apply laid_one.
Qed.

Lemma strip_row r n : rowS one tail1 r -> strip (row_text r ++ repeat nl n) = row_text (bare r).
Proof.
  intros H. destruct (row_shows r H) as (HS & _ & CW & CM). destruct (bare_shows r H) as (_ & -> & _).
  unfold row_words in *. apply strip_nls; auto. destruct HS as [HS|[_ HS]]; auto.
Qed.

Lemma strip_rows x l r n : rowS one tail1 x -> Forall (lineS one tail1) l -> rowS one tail1 r ->
  strip (rows_text (Some x :: l ++ [Some r] ++ repeat None n)) = rows_text (Some x :: l ++ [Some (bare r)]) /\
  strip (rows_text ([Some r] ++ repeat None n)) = rows_text [Some (bare r)].
Proof.
  intros HX HL HR.
  assert (EN : forall k, rows_text ([Some r] ++ repeat None k) = row_text r ++ repeat nl k).
  { intros [|k]; [cbn; unfold rows_text; cbn; now rewrite app_nil_r|]. rewrite rows_text_app by discriminate. rewrite rows_text_nones.
    unfold rows_text at 1. cbn [map join line_text]. reflexivity. }
  assert (E1 : forall y, rows_text [Some y] = row_text y) by reflexivity.
  split.
  - change (Some x :: l ++ [Some r] ++ repeat None n) with ((Some x :: l) ++ [Some r] ++ repeat None n).
    change (Some x :: l ++ [Some (bare r)]) with ((Some x :: l) ++ [Some (bare r)]).
    rewrite !(rows_text_app (Some x :: l)) by discriminate. rewrite EN, E1.
    destruct (row_shows x HX) as (_ & FX & _). destruct (row_shows r HR) as (_ & FR & _).
    rewrite app_assoc, strip_app_last.
    + rewrite <- app_assoc. do 2 f_equal. rewrite <- (strip_row r n HR). unfold strip. now rewrite lstrip_fapp.
    + rewrite rows_text_cons. cbn [line_text]. destruct FX as (_ & c & t' & -> & HC). exists c. eexists. split; [reflexivity|auto].
    + destruct FR as (_ & c & t' & -> & HC). exists c. split; auto. cbn. now left.
  - rewrite EN, E1. now apply strip_row.
Qed.

(** The lines of a block. *)
Lemma card_lines_rows rs n : Forall (rowS one tail1) rs -> rs <> [] ->
  exists ls, card_lines (join [nl] (map row_text rs) ++ repeat nl n) = ls /\ Forall2 shows rs ls.
Proof.
  intros HF HN. destruct (exists_last HN) as (l & r & ->). apply Forall_app in HF as [HL HR]. inversion HR; subst. clear HR H2.
  assert (E : strip (join [nl] (map row_text (l ++ [r])) ++ repeat nl n) = join [nl] (map row_text (l ++ [bare r]))).
  { assert (HL' : Forall (lineS one tail1) (map Some (tl l))) by (apply Forall_map; destruct HL; cbn; auto).
    assert (X : forall y, join [nl] (map row_text (l ++ [y])) = rows_text (map Some (l ++ [y]))) by (intros; now rewrite rows_text_some).
    assert (N : forall k, rows_text ([Some r] ++ repeat None k) = row_text r ++ repeat nl k).
    { intros [|k]; [cbn; unfold rows_text; cbn; now rewrite app_nil_r|]. rewrite rows_text_app by discriminate. rewrite rows_text_nones.
      unfold rows_text at 1. cbn [map join line_text]. reflexivity. }
    destruct HL as [|x l HX HL].
    - cbn [map app join]. rewrite <- N. now apply (strip_rows r [] r n).
    - assert (E0 : join [nl] (map row_text ((x :: l) ++ [r])) ++ repeat nl n = rows_text (Some x :: map Some l ++ [Some r] ++ repeat None n)).
      { rewrite X, map_app. cbn [map]. change (Some x :: map Some l ++ [Some r] ++ repeat None n) with ((Some x :: map Some l) ++ [Some r] ++ repeat None n).
        rewrite !rows_text_app by discriminate. rewrite N, <- !app_assoc. reflexivity. }
      rewrite E0. destruct (strip_rows x (map Some l) r n HX) as [-> _]; auto.
      + rewrite X, map_app. reflexivity. }
  exists (map row_text (l ++ [bare r])). unfold card_lines. rewrite E.
  destruct (bare_shows r H1) as (HB & _ & EB).
  assert (HA : Forall (rowS one tail1) (l ++ [bare r])) by (apply Forall_app; auto).
  split.
  - apply split_join; [destruct l; discriminate|]. apply Forall_map. eapply Forall_impl; [|exact HA]. intros y HY. apply (proj1 (proj2 (row_shows y HY))).
  - rewrite map_app. apply Forall2_app.
    + clear - HL. induction HL as [|y l' HY HA IH]; constructor; auto. now apply row_shows.
    + constructor; [left; apply bare_shows; exact H1|constructor].
Qed.
