(** Facts about counted shorthand words ([expand]) and the whole text layer. *)

From Coq Require Import Ascii String NArith ZArith Bool Arith Lia List.
From Verif Require Import PyStr Regex RegexParse RegexFacts RegexLang PyNum PyNumFacts Types TypesSpec TypesFacts TypesFacts3 TypesFacts4 SubFacts CardText CardTextSpec CardTextFacts CardTextFacts2.
Import ListNotations.
Open Scope char_scope.

(** A greedy run of a set when only its full extent can continue. *)
Lemma m_plus_full A cs0 (k : st -> option A) u t p cp :
  u <> [] -> allc (inset cs0) u -> (t = [] \/ exists c t', t = c :: t' /\ inset cs0 c = false) ->
  (forall v1 v2, u = v1 ++ v2 -> v2 <> [] -> k (mkst (rev v1 ++ p) (v2 ++ t) cp) = None) ->
  m (RRep false 1 None (RSet cs0)) (mkst p (u ++ t) cp) k = k (mkst (rev u ++ p) t cp).
Proof.
  intros HN HU HT HK. destruct (k (mkst (rev u ++ p) t cp)) as [x|] eqn:E.
  - pose proof (m_plus_run A cs0 k u [] t p cp x HN) as H. rewrite app_nil_r in H. apply H; auto.
    intros v1 v2 EV HV. destruct v1; [congruence|discriminate].
  - apply m_none. intros s' HM. apply M_W in HM as (v & c & HW & HR & HP & HC); [|reflexivity].
    apply W_rep_set in HW as (HV & HL & _ & ->). cbn [rest pre caps app] in *.
    destruct s' as [p' r' c']. cbn [rest pre caps] in *. subst p' c'.
    assert (HX : exists v2, u = v ++ v2 /\ r' = v2 ++ t).
    { clear -HU HV HT HR. revert u HU HR. induction HV as [|a v HA HV IH]; intros u HU HR.
      - exists u. auto.
      - destruct u as [|b u].
        + exfalso. cbn [app] in HR. destruct HT as [->|(c & t' & -> & HC)]; [discriminate|].
          injection HR as <- _. congruence.
        + cbn [app] in HR. injection HR as <- HR. inversion HU; subst. destruct (IH u) as (v2 & -> & ->); auto.
          now exists v2. }
    destruct HX as (v2 & -> & ->). destruct v2 as [|b v2].
    + rewrite app_nil_r in E. auto.
    + now apply HK.
Qed.

Lemma span_digits_spec s : let '(ds, t) := span_digits s in s = ds ++ t /\ digits ds /\ nodigit_head t.
Proof.
  induction s as [|c s IH]; simpl; [repeat split; constructor|].
  destruct (is_digit c) eqn:E; simpl; [|repeat split; auto; constructor].
  destruct (span_digits s) as [a b]. destruct IH as (-> & H1 & H2). repeat split; auto. constructor; auto.
Qed.

Ltac revs := repeat (progress (cbn [rev app]; rewrite ?rev_app_distr, ?app_nil_r, <- ?app_assoc)).

Section Count.
  Variables (d : cset) (css : list cset).
  Hypothesis HNS : nosps (d :: css) = true.
  Hypothesis HND : forall c, is_digit c = true -> inset d c = false.

  Definition r_count : re := RCat (c1 sp) (RCat (RGrp 1 (RRep false 1 None (RSet cs_dig))) (rcats (d :: css) r_end)).

  (** The count of a counted word. *)
  Definition cntK (w : str) : option str :=
    let '(ds, t) := span_digits w in
    match ds with [] => None | _ => if isK d css t then Some ds else None end.

  Lemma m_rcats_end A w t p cp (k : st -> option A) : nospace w -> bnd t -> isK d css w = false ->
    m (rcats (d :: css) r_end) (mkst p (w ++ t) cp) k = None.
  Proof.
    intros HW HT HK. rewrite m_rcats, eats_word; auto. unfold isK in HK.
    destruct (eats (d :: css) w) as [[|x u]|] eqn:E; try discriminate; auto.
    cbn [app]. apply m_end_out. eapply eats_rest; eauto.
  Qed.

  Lemma match_count p w ws : nospace w ->
    match_at r_count p (spaced (w :: ws)) =
    match cntK w with
    | Some ds => Some {| mpre := p; mtext := (sp :: w) ++ ending ws; mrest := after ws; mcaps := [(2, ending ws); (1, ds)] |}
    | None => None
    end.
  Proof.
    intros HW.
    assert (HM : m r_count (mkst p (spaced (w :: ws)) []) Some =
      match cntK w with
      | Some ds => Some (mkst (rev ((sp :: w) ++ ending ws) ++ p) (after ws) [(2, ending ws); (1, ds)])
      | None => None end).
    { change (spaced (w :: ws)) with (sp :: w ++ spaced ws). unfold r_count. rewrite m_catE. unfold c1. rewrite m_chr.
      change (ceqb sp sp) with true. cbv iota. rewrite m_catE, m_grp. unfold cntK.
      pose proof (span_digits_spec w) as HS. destruct (span_digits w) as [ds t]. destruct HS as (-> & HD & HH).
      assert (HDT : nospace t) by (unfold nospace in *; now apply allc_app in HW as [_ HW]).
      destruct ds as [|a ds].
      - cbn [app]. replace (m (RRep false 1 None (RSet cs_dig)) (mkst (sp :: p) (t ++ spaced ws) []) _) with (@None st); auto.
        cbn [m need rest]. destruct t as [|c t].
        + cbn [app]. destruct ws as [|v ws]; [reflexivity|]. change (spaced (v :: ws)) with (sp :: v ++ spaced ws). reflexivity.
        + cbn [app]. simpl in HH. now rewrite inset_dig, HH.
      - rewrite <- app_assoc. rewrite m_plus_full; try discriminate.
        + unfold addcap. cbn [rest pre caps]. rewrite firstn_text.
          destruct (isK d css t) eqn:EK.
          * apply isK_eats in EK as [E1 E2]. rewrite m_rcats, eats_word, E1; auto using bnd_spaced.
            assert (EF : firstn (length (d :: css)) (t ++ spaced ws) = t).
            { apply firstn_app_eq. apply eats_split in E1 as (v & E & EL). rewrite app_nil_r in E. now subst. }
            rewrite EF. cbn [app]. destruct ws as [|v ws].
            -- cbn [spaced map concat ending after]. rewrite m_end_nil. revs. reflexivity.
            -- change (spaced (v :: ws)) with (sp :: v ++ spaced ws). rewrite m_end_sp. cbn [ending after]. revs. reflexivity.
          * apply m_rcats_end; auto using bnd_spaced.
        + now apply allc_dig.
        + destruct t as [|c t]; cbn [app].
          * destruct ws as [|v ws]; [now left|right]. change (spaced (v :: ws)) with (sp :: v ++ spaced ws). eauto.
          * right. exists c, (t ++ spaced ws). split; auto. rewrite inset_dig. exact HH.
        + intros v1 v2 E HV. unfold addcap. cbn [rest pre caps]. rewrite m_rcats.
          destruct v2 as [|x v2]; [congruence|]. cbn [app eats].
          assert (HX : is_digit x = true).
          { rewrite E in HD. apply digits_app in HD as [_ HD]. now inversion HD. }
          now rewrite HND. }
    destruct (cntK w) as [ds|]; [|now apply match_at_miss].
    assert (ES : spaced (w :: ws) = ((sp :: w) ++ ending ws) ++ after ws).
    { change (spaced (w :: ws)) with ((sp :: w) ++ spaced ws). now rewrite (ending_after ws), app_assoc. }
    rewrite ES at 1. apply match_at_hit. rewrite <- ES. exact HM.
  Qed.

  Lemma count_miss p c t : is_space c = false -> match_at r_count p (c :: t) = None.
  Proof.
    intros H. apply match_at_miss. unfold r_count. rewrite m_catE. unfold c1. now rewrite m_chr, nonspace_sp.
  Qed.

  Variable name : str.
  Definition count_repl (o : mobj) : str :=
    srepeat (N.to_nat (N_of_digits (grp 1 o))) (sp :: name) ++ grp 2 o.

  Fixpoint ewd (skip : bool) (ws : list str) : list str :=
    match ws with
    | [] => []
    | w :: t =>
        if skip then w :: ewd false t
        else match cntK w with
             | Some ds => repeat name (N.to_nat (N_of_digits ds)) ++ ewd true t
             | None => w :: ewd false t
             end
    end.

  Lemma spaced_repeat n : spaced (repeat name n) = srepeat n (sp :: name).
  Proof. induction n as [|n IH]; auto. change (spaced (repeat name (S n))) with ((sp :: name) ++ spaced (repeat name n)). now rewrite IH. Qed.

  Lemma count_word w t o : nospace w -> reps r_count count_repl t o -> reps r_count count_repl (w ++ t) (w ++ o).
  Proof. intros HW. apply reps_word. intros c w1 w2 p E. apply count_miss. eapply nospace_char; eauto. Qed.

  Lemma reps_count n : forall ws, length ws <= n -> Forall nospace ws ->
    reps r_count count_repl (spaced ws) (spaced (ewd false ws)).
  Proof.
    induction n as [|n IH]; intros ws HL HF.
    { destruct ws; [|simpl in HL; lia]. apply reps_nil. reflexivity. }
    destruct ws as [|w ws]; [apply reps_nil; reflexivity|].
    inversion HF as [|? ? HW HF']; subst. simpl in HL. cbn [ewd]. destruct (cntK w) as [ds|] eqn:E.
    - rewrite spaced_app, spaced_repeat.
      assert (HO : exists o, reps r_count count_repl (after ws) o /\ spaced (ewd true ws) = ending ws ++ o).
      { destruct ws as [|v t].
        - exists []. split; [apply reps_nil; reflexivity|reflexivity].
        - inversion HF'; subst. exists (v ++ spaced (ewd false t)). split; [|reflexivity].
          cbn [after]. apply count_word; auto. apply IH; auto. simpl in HL. lia. }
      destruct HO as (o & HO & EO). rewrite EO, app_assoc.
      change (spaced (w :: ws)) with ((sp :: w) ++ spaced ws). rewrite (ending_after ws), app_assoc.
      apply reps_hit with (c := [(2, ending ws); (1, ds)]); auto; [discriminate|].
      intros p. rewrite <- app_assoc, <- ending_after. change ((sp :: w) ++ spaced ws) with (spaced (w :: ws)).
      rewrite match_count by auto. now rewrite E.
    - change (spaced (w :: ws)) with (sp :: w ++ spaced ws). change (spaced (w :: ewd false ws)) with (sp :: w ++ spaced (ewd false ws)).
      apply reps_copy.
      + intros p. change (sp :: w ++ spaced ws) with (spaced (w :: ws)). rewrite match_count by auto. now rewrite E.
      + apply count_word; auto. apply IH; auto. lia.
  Qed.
End Count.

(** * The five kinds *)

Definition kd (k : short) : cset :=
  match k with Sj => cs_ic 106 74 | Sr => cs_ic 114 82 | Si => cs_ic 105 73 | Slog => cs_ic 108 76 | Silog => cs_ic 105 73 end.
Definition kl (k : short) : list cset :=
  match k with
  | Slog => [cs_ic 111 79; cs_ic 103 71]
  | Silog => [cs_ic 108 76; cs_ic 111 79; cs_ic 103 71]
  | _ => []
  end.
Definition kpat (k : short) : string :=
  match k with Sj => "[jJ]" | Sr => "[rR]" | Si => "[iI]" | Slog => "[lL][oO][gG]" | Silog => "[iI][lL][oO][gG]" end.
Definition kname (k : short) : string :=
  match k with Sj => "j" | Sr => "r" | Si => "i" | Slog => "log" | Silog => "ilog" end.

Lemma kname_eq k : L (kname k) = short_name k.
Proof. now destruct k. Qed.
Lemma re_run_eq k : re_run (kpat k) = r_run (kd k) (kl k).
Proof. destruct k; vm_compute; reflexivity. Qed.
Lemma re_count_eq k : re_count (kpat k) = r_count (kd k) (kl k).
Proof. destruct k; vm_compute; reflexivity. Qed.
Lemma knosps k : nosps (kd k :: kl k) = true.
Proof. destruct k; reflexivity. Qed.
Lemma knodig k c : is_digit c = true -> inset (kd k) c = false.
Proof. destruct c as [[] [] [] [] [] [] [] []]; try discriminate; intros _; destruct k; reflexivity. Qed.

Definition W (w : str) : Prop := nospace w /\ w <> [].

Lemma nospace_W ws : Forall W ws -> Forall nospace ws.
Proof. apply Forall_impl. intros a [H _]. exact H. Qed.

Definition cw (k : short) : list str -> list str := cwd (kd k) (kl k) (short_name k) 0.
Definition ew (k : short) : list str -> list str := ewd (kd k) (kl k) (short_name k) false.

Lemma first_word r f w ws o : W w -> (forall p c t, is_space c = false -> match_at r p (c :: t) = None) ->
  reps r f (spaced ws) (spaced o) -> sub r f (w ++ spaced ws) = w ++ spaced o.
Proof.
  intros [HW _] HM HR. apply reps_sub. apply reps_word; auto.
  intros c w1 w2 p E. apply HM. eapply nospace_char; eauto.
Qed.

Lemma shorten_nospace k w ws : W w -> Forall nospace ws ->
  shorten (kpat k) (kname k) (w ++ spaced ws) = w ++ spaced (cw k ws).
Proof.
  intros HW HF. unfold shorten. rewrite re_run_eq, kname_eq. apply first_word; auto.
  - intros. now apply run_miss.
  - apply (reps_run _ _ (knosps k) _ (length ws)); auto.
Qed.
Lemma shorten_words k w ws : W w -> Forall W ws ->
  shorten (kpat k) (kname k) (w ++ spaced ws) = w ++ spaced (cw k ws).
Proof. intros HW HF. apply shorten_nospace; auto using nospace_W. Qed.

Lemma lengthen_words k w ws : W w -> Forall W ws ->
  lengthen (kpat k) (kname k) (w ++ spaced ws) = w ++ spaced (ew k ws).
Proof.
  intros HW HF. unfold lengthen. rewrite re_count_eq, kname_eq. apply first_word; auto.
  - intros. now apply count_miss.
  - apply (reps_count _ _ (knosps k) (knodig k) _ (length ws)); auto using nospace_W.
Qed.

Lemma digits_nospace ds : digits ds -> nospace ds.
Proof. apply Forall_impl. intros c H. destruct c as [[] [] [] [] [] [] [] []]; try discriminate; reflexivity. Qed.
Lemma name_nospace k : nospace (short_name k).
Proof. destruct k; repeat constructor. Qed.

Lemma W_num k n : W (num (short_name k) n).
Proof.
  unfold num. split.
  - apply allc_app. split; [apply digits_nospace, str_of_N_digits|apply name_nospace].
  - destruct k; apply not_eq_sym, app_cons_not_nil.
Qed.

Lemma W_cwd k j ws : Forall W ws -> Forall W (cwd (kd k) (kl k) (short_name k) j ws).
Proof.
  intros H. revert j. induction H as [|w ws HW HF IH]; intros [|j]; simpl; auto.
  destruct (isK _ _ w); auto. destruct (krun _ _ ws); auto. constructor; auto. apply W_num.
Qed.
Lemma W_cw k ws : Forall W ws -> Forall W (cw k ws).
Proof. apply W_cwd. Qed.

Lemma W_name k : W (short_name k).
Proof. split; [apply name_nospace|destruct k; discriminate]. Qed.

Lemma W_ewd k b ws : Forall W ws -> Forall W (ewd (kd k) (kl k) (short_name k) b ws).
Proof.
  intros H. revert b. induction H as [|w ws HW HF IH]; intros [|]; simpl; auto.
  destruct (cntK _ _ w); auto. apply Forall_app. split; auto. apply Forall_forall. intros x Hx.
  apply repeat_spec in Hx. subst. apply W_name.
Qed.
Lemma W_ew k ws : Forall W ws -> Forall W (ew k ws).
Proof. apply W_ewd. Qed.

Definition cws (ws : list str) : list str := cw Silog (cw Slog (cw Si (cw Sr (cw Sj ws)))).
Definition ews (ws : list str) : list str := ew Silog (ew Slog (ew Sj (ew Si (ew Sr (ew Sj ws))))).

Lemma compress_words w ws : W w -> Forall W ws -> compress (w ++ spaced ws) = w ++ spaced (cws ws).
Proof.
  intros HW HF. unfold compress.
  rewrite (shorten_words Sj), (shorten_words Sr), (shorten_words Si), (shorten_words Slog), (shorten_words Silog); auto using W_cw.
Qed.

(** The same for words some of which are empty: two blanks between their neighbours. *)
Lemma nospace_cw k ws : Forall nospace ws -> Forall nospace (cw k ws).
Proof.
  unfold cw. generalize 0 as j. intros j H. revert j. induction H as [|w ws HW HF IH]; intros [|j]; simpl; auto.
  destruct (isK _ _ w); auto. destruct (krun _ _ ws); auto. constructor; auto. apply W_num.
Qed.
Lemma compress_nospace w ws : W w -> Forall nospace ws -> compress (w ++ spaced ws) = w ++ spaced (cws ws).
Proof.
  intros HW HF. unfold compress.
  rewrite (shorten_nospace Sj), (shorten_nospace Sr), (shorten_nospace Si), (shorten_nospace Slog), (shorten_nospace Silog); auto 10 using nospace_cw.
Qed.
Lemma krun_empty k a b : krun (kd k) (kl k) (a ++ [] :: b) = krun (kd k) (kl k) a.
Proof. induction a as [|w a IH]; cbn [app krun]; [reflexivity|]. now rewrite IH. Qed.
Lemma cw_empty k a b : cw k (a ++ [] :: b) = cw k a ++ [] :: cw k b.
Proof.
  unfold cw. enough (H : forall j, j <= length a -> cwd (kd k) (kl k) (short_name k) j (a ++ [] :: b) = cwd (kd k) (kl k) (short_name k) j a ++ [] :: cwd (kd k) (kl k) (short_name k) 0 b) by (apply H; lia).
  induction a as [|w a IH]; intros j HJ; cbn [app].
  - cbn [length] in HJ. assert (j = 0) as -> by lia. reflexivity.
  - cbn [cwd]. cbn [length] in HJ. destruct j as [|j]; [|apply IH; lia].
    revert HJ; destruct (isK _ _ w); intros HJ; [|cbn [app]; f_equal; apply IH; lia]. rewrite krun_empty. pose proof (krun_le (kd k) (kl k) a) as HL.
    revert HL. destruct (krun (kd k) (kl k) a) as [|r]; intros HL; cbn [app]; f_equal; apply IH; exact HL.
Qed.
Lemma cws_empty a b : cws (a ++ [] :: b) = cws a ++ [] :: cws b.
Proof. unfold cws. now rewrite !cw_empty. Qed.

Lemma expand_words w ws : W w -> Forall W ws -> expand (w ++ spaced ws) = w ++ spaced (ews ws).
Proof.
  intros HW HF. unfold expand.
  rewrite (lengthen_words Sj), (lengthen_words Sr), (lengthen_words Si), (lengthen_words Sj), (lengthen_words Slog), (lengthen_words Silog); auto using W_ew.
  all: auto 10 using W_ew.
Qed.

(** * Items: runs and counted words *)

Inductive item :=
| IPlain (w : str)
| IRun (k : short) (ws : list str)
| ICnt (k : short) (ds : str) (t : str).

Definition render1 (i : item) : list str :=
  match i with IPlain w => [w] | IRun _ ws => ws | ICnt _ ds t => [ds ++ t] end.
Definition render (l : list item) : list str := flat_map render1 l.

Definition plainW (w : str) : Prop :=
  W w /\ (forall k, isK (kd k) (kl k) w = false) /\ (forall k, cntK (kd k) (kl k) w = None).

Definition okI (i : item) : Prop :=
  match i with
  | IPlain w => plainW w
  | IRun k ws => ws <> [] /\ Forall (fun w => isK (kd k) (kl k) w = true) ws
  | ICnt k ds t => ds <> [] /\ digits ds /\ isK (kd k) (kl k) t = true /\ N_of_digits ds <> 0%N
  end.

Definition short_eqb (a b : short) : bool :=
  match a, b with Sj, Sj | Sr, Sr | Si, Si | Slog, Slog | Silog, Silog => true | _, _ => false end.
Lemma short_eqb_eq a b : short_eqb a b = true <-> a = b.
Proof. destruct a, b; split; intros; try discriminate; auto. Qed.

Definition run_of (k : short) (i : item) : bool := match i with IRun k' _ => short_eqb k k' | _ => false end.
Definition cnt_of (k : short) (i : item) : bool := match i with ICnt k' _ _ => short_eqb k k' | _ => false end.

(** No two neighbours both satisfy [P]. *)
Fixpoint apart (P : item -> bool) (l : list item) : Prop :=
  match l with
  | a :: ((b :: _) as t) => P a && P b = false /\ apart P t
  | _ => True
  end.

(** Kinds exclude each other. *)
Lemma inset_ic a b c : inset (cs_ic a b) c = ((code c =? a) || (code c =? b))%N.
Proof.
  unfold inset, cs_ic, cs, in_ranges. cbn [cneg cranges existsb xorb]. rewrite orb_false_r.
  f_equal; destruct (N.eqb_spec (code c) a); destruct (N.eqb_spec (code c) b); subst;
  repeat match goal with |- context [(?x <=? ?y)%N] => destruct (N.leb_spec x y) end; simpl; auto; lia.
Qed.

Ltac sets := repeat match goal with
  | H : context [inset (cs_ic ?a ?b) ?c] |- _ => destruct (inset (cs_ic a b) c) eqn:?; try discriminate H
  end.

Lemma isK_other k k' w : isK (kd k) (kl k) w = true -> k <> k' -> isK (kd k') (kl k') w = false.
Proof.
  intros H HN. destruct (isK (kd k') (kl k') w) eqn:E; auto. exfalso.
  unfold isK in *. apply isK_eats in H as [H _]. apply isK_eats in E as [E _].
  assert (HL : length (kd k :: kl k) = length (kd k' :: kl k')).
  { apply eats_split in H as (u & E1 & H1). apply eats_split in E as (v & E2 & H2). rewrite app_nil_r in *. congruence. }
  destruct w as [|c w]; [destruct k; discriminate|].
  destruct k, k'; try congruence; try discriminate HL; cbn [eats kd kl] in *; rewrite !inset_ic in *;
  repeat match type of H with (if ?b then _ else _) = _ => destruct b eqn:?; [|discriminate] end;
  repeat match type of E with (if ?b then _ else _) = _ => destruct b eqn:?; [|discriminate] end;
  repeat match goal with X : (_ || _)%bool = true |- _ => apply orb_prop in X as [X|X]; apply N.eqb_eq in X end; lia.
Qed.

Lemma isK_nodigit k w : isK (kd k) (kl k) w = true -> nodigit_head w /\ w <> [].
Proof.
  unfold isK. destruct w as [|c w]; [destruct k; discriminate|]. intros H. split; [|discriminate]. simpl.
  destruct (is_digit c) eqn:E; auto. apply (knodig k) in E. cbn [eats] in H. now rewrite E in H.
Qed.

Lemma isK_cnt k k' w : isK (kd k) (kl k) w = true -> cntK (kd k') (kl k') w = None.
Proof.
  intros H. apply isK_nodigit in H as [H HN]. unfold cntK. destruct w as [|c w]; [congruence|]. simpl in H. cbn [span_digits]. now rewrite H.
Qed.

Lemma cnt_span k ds t : ds <> [] -> digits ds -> isK (kd k) (kl k) t = true ->
  span_digits (ds ++ t) = (ds, t).
Proof. intros HN HD HK. apply span_digits_app; auto. now apply isK_nodigit in HK as [HK _]. Qed.

Lemma cnt_same k ds t : ds <> [] -> digits ds -> isK (kd k) (kl k) t = true ->
  cntK (kd k) (kl k) (ds ++ t) = Some ds.
Proof.
  intros HN HD HK. unfold cntK. rewrite (cnt_span k); auto. rewrite HK. now destruct ds.
Qed.

Lemma cnt_other k k' ds t : ds <> [] -> digits ds -> isK (kd k) (kl k) t = true -> k <> k' ->
  cntK (kd k') (kl k') (ds ++ t) = None.
Proof.
  intros HN HD HK HE. unfold cntK. rewrite (cnt_span k); auto. rewrite (isK_other k k'); auto. now destruct ds.
Qed.

Lemma cnt_notK k k' ds t : ds <> [] -> digits ds -> isK (kd k) (kl k) (ds ++ t) = false /\ isK (kd k') (kl k') (ds ++ t) = false.
Proof.
  intros HN HD. destruct ds as [|c ds]; [congruence|]. inversion HD; subst.
  unfold isK. cbn [app eats]. rewrite !knodig; auto.
Qed.
