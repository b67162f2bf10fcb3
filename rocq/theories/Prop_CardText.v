(** Properties C21-C24: the text of a card, as written ([postprocess],
    Card._postprocess) and as read ([card_preprocess], Card._preprocess;
    [preprocess], InpNonterminal._preprocess). *)

From Coq Require Import Ascii String NArith ZArith Bool Arith Lia List.
From Verif Require Import PyStr Regex RegexFacts PyNum Types TypesSpec CardText CardTextSpec
  CardTextFacts3 CardTextFacts4 CardTextFacts5 CardTextFacts6.
Import ListNotations.
Open Scope char_scope.

(** ** C21 *)

(** 66 and 70 letters. *)
Definition long_words : list str := [srepeat 70 ["a"]; srepeat 66 ["b"]; L "cccccc"; L "dd"].

(** The limit of 80 columns is broken: a continuation line of 81. *)
Theorem C21_column_limit_refuted : exists w ws,
  Forall clean (w :: ws) /\ Forall (fun v => length v <= 72) (w :: ws) /\
  Exists (fun l => length l = 81) (lines (postprocess (join [sp] (w :: ws)))).
Proof.
  exists (L "m1"), long_words. split; [|split].
  - assert (C : forall n a, a = "a" \/ a = "b" -> clean (srepeat (S n) [a])).
    { intros n a Ha. assert (HA : forall n, Forall (fun c => c = a) (srepeat n [a])) by (induction n0; simpl; auto).
      specialize (HA (S n)). 
      assert (HL : forall s, s <> [] -> Forall (fun c => c = a) s -> last s " " = a /\ hd " " s = a).
      { intros s HN HF. destruct HF as [|c s -> HF]; [congruence|]. split; [|reflexivity]. clear HN.
        induction HF as [|d s -> HF IH]; auto. }
      assert (HN : srepeat (S n) [a] <> []) by discriminate. destruct (HL _ HN HA) as [H1 H2].
      rewrite Forall_forall in HA. split; [exact HN|]. rewrite H1, H2. split.
      - apply Forall_forall. intros c Hc. rewrite (HA _ Hc). destruct Ha as [-> | ->]; reflexivity.
      - repeat split; try (intros Hc; apply HA in Hc); destruct Ha; subst; discriminate. }
    constructor; [|constructor; [apply C; auto|constructor; [apply C; auto|]]].
    + repeat split; try discriminate; try (intros HI; simpl in HI; repeat destruct HI as [HI|HI]; auto; discriminate). repeat constructor.
    + repeat constructor; try discriminate; try (intros HI; simpl in HI; repeat destruct HI as [HI|HI]; auto; discriminate).
  - repeat constructor.
  - vm_compute. do 1 apply Exists_cons_tl. apply Exists_cons_hd. reflexivity.
Qed.
Print Assumptions C21_column_limit_refuted.

(** What holds: no line is wider than 81 columns, unless one of its words alone
    is longer than 72 ([fits]); the first line is never wider than 80. The text
    is any text on one line. Missing for the full property: 80 instead of 81. *)
Theorem C21_column_limit_partial : forall s, ~ In nl s -> Forall (fits 81) (lines (postprocess s)).
Proof. exact lines_bounded. Qed.
Print Assumptions C21_column_limit_partial.

Theorem C21_first_line : forall s, ~ In nl s ->
  exists l t, lines (postprocess s) = l :: t /\ length l <= 80.
Proof. exact first_line_bounded. Qed.
Print Assumptions C21_first_line.

Example C21_case : let s := join [sp] (L "m1" :: repeat (L "92235.80c") 40) in
  ~ In nl s /\ 6 = length (lines (postprocess s)).
Proof.
  split; [|vm_compute; reflexivity]. vm_compute. intros HI.
  repeat (destruct HI as [HI|HI]; [discriminate HI|]). exact HI.
Qed.

(** ** C22 *)

(** Reading the written text gives the words back, all on one line, for any
    number of words of any lengths (the first at most 78 columns). *)
Theorem C22_wrap_undone : forall w ws, clean w -> length w <= 78 -> Forall clean ws ->
  (forall v k n, In v ws -> ~ counted k n v) ->
  (forall v k, In v ws -> is_short k v = true -> v = short_name k) ->
  card_preprocess (postprocess (join [sp] (w :: ws))) = (join [sp] (w :: ws), []).
Proof. exact write_read_exact. Qed.
Print Assumptions C22_wrap_undone.

(** How words are separated (blanks, continuation lines, [&], [=]) does not matter. *)
Theorem C22_layout_irrelevant : forall w l, clean w ->
  Forall (fun x => separator (fst x) /\ clean (snd x)) l ->
  preprocess (laid_out w l) = preprocess (join [sp] (w :: map snd l)).
Proof. exact layout_free. Qed.
Print Assumptions C22_layout_irrelevant.

(** A comment on any line is set aside and does not touch the card's text. *)
Theorem C22_comments_set_aside : forall ls : list (str * option str), ls <> [] ->
  Forall (fun x => ~ In nl (fst x) /\ ~ In "$" (fst x) /\ forall c, snd x = Some c -> ~ In nl c) ls ->
  card_preprocess (join [nl] (map (fun x => fst x ++ match snd x with Some c => "$" :: c | None => [] end) ls))
  = (preprocess (join [nl] (map fst ls)), flat_map (fun x => match snd x with Some c => [c] | None => [] end) ls).
Proof. exact comments_separated. Qed.
Print Assumptions C22_comments_set_aside.

Example C22_case :
  let text := join [sp] (L "e14" :: concat (repeat [L "0.125"; L "j"; L "j"; L "r"] 30)) in
  2 < length (lines (postprocess text)) /\ card_preprocess (postprocess text) = (text, []).
Proof. split; vm_compute; [lia|reflexivity]. Qed.

Example C22_layout_case :
  laid_out (L "si1") [(L "  ", L "l"); (sp :: "&" :: nl :: L "     ", L "1"); (L "=", L "2"); (nl :: L "      ", L "3")]
  = L "si1  l &" ++ nl :: L "     1=2" ++ nl :: L "      3"
  /\ preprocess (L "si1  l &" ++ nl :: L "     1=2" ++ nl :: L "      3") = L "si1 l 1 2 3".
Proof. split; vm_compute; reflexivity. Qed.

(** ** C23 *)

(** Entries written (runs compressed, lines wrapped) and read back are the same
    entries; an upper-case shorthand word may come back in lower case. *)
Theorem C23_compression_cancels : forall w ws, clean w -> length w <= 78 -> Forall clean ws ->
  (forall v k n, In v ws -> ~ counted k n v) ->
  exists us, Forall2 reads_as ws us /\
             card_preprocess (postprocess (join [sp] (w :: ws))) = (join [sp] (w :: us), []).
Proof. exact write_read. Qed.
Print Assumptions C23_compression_cancels.

Example C23_case :
  postprocess (L "imp:n 1 j j j r r 2 i i ilog ilog log log log J J") = L "imp:n 1 3j 2r 2 2i 2ilog 3log 2j" /\
  card_preprocess (L "imp:n 1 3j 2r 2 2i 2ilog 3log 2j") = (L "imp:n 1 j j j r r 2 i i ilog ilog log log log j j", []).
Proof. split; vm_compute; reflexivity. Qed.

(** ** C24 *)

(** Two counted words of the same kind side by side: the second stays. *)
Theorem C24_expansion_refuted : exists w ws vss, clean w /\ Forall clean ws /\ Forall2 stands_for ws vss /\
  (forall v k, In v ws -> ~ counted k 0 v) /\
  forall us, Forall2 reads_as (concat vss) us -> preprocess (join [sp] (w :: ws)) <> join [sp] (w :: us).
Proof.
  assert (HC : forall n c, is_digit c = true -> N_of_digits [c] = n -> counted Sr n [c; "r"]).
  { intros n c Hc Hn. exists [c], (L "r"). repeat split; auto. discriminate. }
  assert (C2 : counted Sr 2 (L "2r")) by (apply HC; reflexivity).
  assert (C3 : counted Sr 3 (L "3r")) by (apply HC; reflexivity).
  exists (L "e1"), [L "2r"; L "3r"], [repeat (L "r") 2; repeat (L "r") 3].
  assert (CL : forall v, In v [L "e1"; L "2r"; L "3r"] -> clean v).
  { intros v [<-|[<-|[<-|[]]]]; repeat split; try discriminate; try (intros HI; simpl in HI; repeat destruct HI as [HI|HI]; auto; discriminate); repeat constructor. }
  split; [apply CL; simpl; auto|]. split; [repeat constructor; apply CL; simpl; auto|]. split; [|split].
  - constructor; [exact (SF_count Sr 2 _ C2)|constructor; [exact (SF_count Sr 3 _ C3)|constructor]].
  - intros v k [<-|[<-|[]]] H0.
    + destruct (counted_unique _ _ _ _ _ C2 H0) as [_ E]. discriminate.
    + destruct (counted_unique _ _ _ _ _ C3 H0) as [_ E]. discriminate.
  - intros us HU HE.
    assert (EU : us = repeat (L "r") 5).
    { assert (G : forall n, Forall2 reads_as (repeat (L "r") n) us -> us = repeat (L "r") n).
      { intros n. clear HU HE. revert us. induction n as [|n IH]; intros us H; inversion H as [|? u ? us' HR HT]; subst; auto.
        simpl. f_equal; auto. destruct HR as [->|(k & HK & ->)]; auto. destruct k; vm_compute in HK; congruence || reflexivity. }
      now apply (G 5). }
    subst us. vm_compute in HE. discriminate.
Qed.
Print Assumptions C24_expansion_refuted.

(** What holds: every counted word with a positive count becomes that many
    entries and every other word stays, provided no counted word other than
    [nJ] stands beside another word of its own kind. Missing: crowded words of the kinds
    r, i, log, ilog (see the refutation), zero counts. *)
Theorem C24_expansion_partial : forall w ws vss, clean w -> Forall clean ws -> Forall2 stands_for ws vss ->
  (forall v k, In v ws -> ~ counted k 0 v) -> (forall k, k <> Sj -> ~ crowded k ws) ->
  exists us, Forall2 reads_as (concat vss) us /\ preprocess (join [sp] (w :: ws)) = join [sp] (w :: us).
Proof. exact expansion. Qed.
Print Assumptions C24_expansion_partial.

Example C24_case : preprocess (L "imp:n 1 2j 3J j 1j 2R 2i 1LOG 2iLog 5 3r") = L "imp:n 1 j j j j j j j r r i i log ilog ilog 5 r r r".
Proof. vm_compute. reflexivity. Qed.
