(** A written lattice specification splits into its tokens. *)

From Coq Require Import Ascii String NArith ZArith Bool Arith List Lia.
From Verif Require Import PyStr Regex RegexParse RegexFacts RegexLang PyNumFacts Types TypesFacts TypesFacts2 TypesFacts3 TypesFacts4 SubFacts CardTextFacts CardTextFacts2 CardsFacts2 Geometry GeometrySpec GeometryFacts GeometryFacts2 GeometryFacts3 GeometryFacts4 Lattice LatticeSpec LatticeFacts.
Import ListNotations.
Open Scope list_scope.

Definition cs_punct : cset := cs [(58, 58); (60, 60); (41, 41); (40, 40); (91, 91); (93, 93); (124, 124)]%N.
Definition r_lnum : re := RCat (RRep false 0 (Some 1) (RSet cs_sign)) r_dig.
Definition r_punct : re := RCat r_sp0 (RCat (RSet cs_punct) r_sp0).
Lemma ltoken_eq : re_ltoken = RAlt r_sp1 (RAlt r_lnum r_punct).
Proof. vm_compute. reflexivity. Qed.

Definition puncts : list ascii := [":"; "<"; ")"; "("; "["; "]"]%char.
Lemma punct_ok c : In c puncts -> is_space c = false /\ is_digit c = false /\ inset cs_sign c = false /\ inset cs_punct c = true.
Proof. intros [<-|[<-|[<-|[<-|[<-|[<-|[]]]]]]]; repeat split. Qed.

Lemma ltok_blank p c t : is_space c = false ->
  match_at re_ltoken p (L " " ++ c :: t) = Some {| mpre := p; mtext := L " "; mrest := c :: t; mcaps := [] |}.
Proof.
  intros H1. apply match_at_hit. rewrite ltoken_eq, m_altE. cbn [app L list_ascii_of_string]. change " "%char with sp.
  assert (E2 : m r_sp1 (mkst p ([sp] ++ [] ++ (c :: t)) []) Some = Some (mkst (sp :: p) (c :: t) [])).
  { unfold r_sp1. apply m_plus_run; [discriminate|repeat constructor|right; exists c, t; split; auto; now rewrite inset_space|reflexivity|].
    intros v1 v2 E1 HV. destruct v1; [congruence|discriminate]. }
  cbn [app] in E2. rewrite E2. reflexivity.
Qed.
Lemma ltok_punct p c t : In c puncts -> stops is_space t ->
  match_at re_ltoken p ([c] ++ t) = Some {| mpre := p; mtext := [c]; mrest := t; mcaps := [] |}.
Proof.
  intros HC HT. apply punct_ok in HC as (A & B & C & D). apply match_at_hit. rewrite ltoken_eq, m_altE. cbn [app].
  rewrite sp1_stop by (right; eauto). rewrite m_altE.
  assert (EN : m r_lnum (mkst p (c :: t) []) Some = None).
  { unfold r_lnum. cbn [m need maxleft loopg rest length czero pre caps]. rewrite C. unfold orelse. unfold r_dig. cbn [m need rest]. now rewrite inset_dig, B. }
  rewrite EN. unfold r_punct.
  change (m (RCat r_sp0 (RCat (RSet cs_punct) r_sp0)) (mkst p (c :: t) []) Some) with
    (m r_sp0 (mkst p (c :: t) []) (fun s => m (RSet cs_punct) s (fun s => m r_sp0 s Some))).
  rewrite sp0_stop by (right; eauto). rewrite m_set, D, sp0_stop by auto. reflexivity.
Qed.
Lemma ltok_digit p d t : signed d -> stops is_digit t -> match_at re_ltoken p (d ++ t) = Some {| mpre := p; mtext := d; mrest := t; mcaps := [] |}.
Proof.
  intros HD HT. apply match_at_hit. rewrite ltoken_eq, m_altE.
  assert (HS : m r_sp1 (mkst p (d ++ t) []) Some = None).
  { pose proof (signed_head d HD) as (c & w & -> & HC). cbn [app]. apply sp1_stop. right. exists c, (w ++ t). split; auto.
    destruct HC as [HC|[<-|[<-|[]]]]; auto. now apply digit_space. }
  rewrite HS, m_altE. enough (EN : m r_lnum (mkst p (d ++ t) []) Some = Some (mkst (rev d ++ p) t [])) by (rewrite EN; reflexivity).
  unfold r_lnum.
  change (m (RCat (RRep false 0 (Some 1) (RSet cs_sign)) r_dig) (mkst p (d ++ t) []) Some) with
    (m (RRep false 0 (Some 1) (RSet cs_sign)) (mkst p (d ++ t) []) (fun s => m r_dig s Some)).
  destruct HD as [HD|(c & d' & HD & -> & HC)].
  - assert (E : m r_dig (mkst p (d ++ t) []) Some = Some (mkst (rev d ++ p) t [])) by (apply dig_run; auto).
    cbn [m need maxleft loopg rest czero]. destruct d as [|x d]; [now destruct HD|]. cbn [app length loopg rest czero].
    assert (HX : inset cs_sign x = false).
    { destruct HD as [_ HD]. inversion HD; subst. destruct (inset cs_sign x) eqn:E'; auto. apply inset_sign in E' as [<-|[<-|[]]]; discriminate. }
    rewrite HX. unfold orelse. exact E.
  - apply inset_sign in HC. cbn [m need maxleft loopg rest app length czero pre caps]. rewrite HC. unfold progress. cbn [rest length].
    replace (Nat.ltb (length (d' ++ t)) (S (length (d' ++ t)))) with true by (symmetry; apply Nat.ltb_lt; lia).
    cbn [loopg rest]. unfold orelse.
    assert (E : m r_dig (mkst (c :: p) (d' ++ t) []) Some = Some (mkst (rev (c :: d') ++ p) t [])).
    { apply dig_run; auto. cbn [rev]. now rewrite <- app_assoc. }
    destruct (length (d' ++ t)); cbn [loopg]; rewrite E; reflexivity.
Qed.

(** * The tokens of a tree *)
Fixpoint ltoks (l : lat) : list str :=
  match l with
  | LEmb l r => ltoks l ++ L "<" :: ltoks r
  | LRange c i j k => ltoks c ++ L "[" :: ltoks i ++ L " " :: ltoks j ++ L " " :: ltoks k ++ [L "]"]
  | LParen l => L "(" :: ltoks l ++ [L ")"]
  | LIndex lo hi => ltoks lo ++ L ":" :: ltoks hi
  | LDigit s => [s]
  end.
Lemma concat_ltoks l : concat (ltoks l) = lat_to_mcnp l.
Proof.
  induction l as [l IH1 r IH2|c IHc i IHi j IHj k IHk|l IH|lo IH1 hi IH2|d]; cbn [ltoks lat_to_mcnp]; rewrite ?concat_app; cbn [concat]; rewrite ?concat_app; cbn [concat]; rewrite ?concat_app; cbn [concat]; rewrite ?concat_app; cbn [concat];
    rewrite ?IH1, ?IH2, ?IHc, ?IHi, ?IHj, ?IHk, ?IH, ?app_nil_r; reflexivity.
Qed.

Definition lclean (l : list str) : list str := filter nonempty (map strip l).
Lemma lclean_app a b : lclean (a ++ b) = lclean a ++ lclean b.
Proof. unfold lclean. now rewrite map_app, filter_app. Qed.
Lemma lclean_cons a b : lclean (a :: b) = lclean [a] ++ lclean b.
Proof. apply (lclean_app [a] b). Qed.
Lemma signed_ends d : signed d -> head_ok d /\ last_ok d.
Proof.
  intros [D|(c & d' & D & -> & HC)].
  - apply number_ends. now left.
  - split; [exists c, d'; destruct HC as [<-|[<-|[]]]; repeat split; discriminate|]. apply (last_ok_app [c]). now apply digits_last.
Qed.
Lemma signed_clean d : signed d -> lclean [d] = [d].
Proof.
  intros H. pose proof (signed_ends d H) as [A B]. unfold lclean. cbn [map filter]. rewrite strip_ok by auto. destruct A as (c & t & -> & _). reflexivity.
Qed.
Lemma place_clean u l : g_place u l -> lclean (ltoks l) = u.
Proof.
  intros H. inversion H as [ts l' H1|ts1 lo ts2 hi H1 H2]; subst.
  - inversion H1; subst. now apply signed_clean.
  - inversion H1; inversion H2; subst. cbn [ltoks app]. rewrite lclean_cons, (lclean_cons (L ":")), (signed_clean d), (signed_clean d0) by auto. reflexivity.
Qed.
Lemma lat_clean : (forall ts l, g_item ts l -> lclean (ltoks l) = ts) /\ (forall ts l, g_chain ts l -> lclean (ltoks l) = ts).
Proof.
  apply lat_ind2.
  - intros ts l H. apply place_clean. now constructor.
  - intros tc c ti i tj j tk k HC HI HJ HK _. cbn [ltoks]. 
    rewrite lclean_app, (lclean_cons (L "[")), lclean_app, (lclean_cons (L " ") (ltoks j ++ _)), lclean_app, (lclean_cons (L " ") (ltoks k ++ _)), lclean_app.
    rewrite (place_clean ti i), (place_clean tj j), (place_clean tk k), (place_clean tc c) by (auto; now constructor). reflexivity.
  - intros ts l _ IH. cbn [ltoks]. rewrite (lclean_cons (L "(")), lclean_app, IH. reflexivity.
  - auto.
  - intros ts1 l1 ts2 l2 _ IH1 _ IH2. cbn [ltoks]. rewrite lclean_app, (lclean_cons (L "<")), IH1, IH2. reflexivity.
Qed.

(** * Ends *)
Definition lends (l : lat) : Prop := (exists c t, lat_to_mcnp l = c :: t /\ is_space c = false /\ c <> ":"%char) /\ last_ok (lat_to_mcnp l).
Lemma place_ends u l : g_place u l -> lends l.
Proof.
  intros H. inversion H as [ts l' H1|ts1 lo ts2 hi H1 H2]; subst.
  - inversion H1; subst. now apply signed_ends.
  - inversion H1 as [a A]; inversion H2 as [b B]; subst. apply signed_ends in A as [A _]. apply signed_ends in B as [_ B].
    split; cbn [lat_to_mcnp]; [now apply head_ok_app|apply last_ok_app; now apply (last_ok_app (L ":"))].
Qed.
Lemma lat_ends : (forall ts l, g_item ts l -> lends l) /\ (forall ts l, g_chain ts l -> lends l).
Proof.
  apply lat_ind2.
  - intros ts l H. apply (place_ends ts). now constructor.
  - intros tc c ti i tj j tk k HC _ _ _ _. assert (E : lends c) by (apply (place_ends tc); now constructor). destruct E as [E _].
    split; cbn [lat_to_mcnp]; [now apply head_ok_app|]. repeat apply last_ok_app. exists [], "]"%char. auto.
  - intros ts l _ _. split; cbn [lat_to_mcnp]; [eexists _, _; repeat split; discriminate|]. repeat apply last_ok_app. exists [], ")"%char. auto.
  - auto.
  - intros ts1 l1 ts2 l2 _ [A _] _ [_ B]. split; cbn [lat_to_mcnp]; [now apply head_ok_app|]. apply last_ok_app. now apply (last_ok_app (L "<")).
Qed.
Lemma lends_stop l t : lends l -> stops is_space (lat_to_mcnp l ++ t).
Proof. intros [(c & u & -> & H & _) _]. right. exists c, (u ++ t). auto. Qed.

(** * Cutting *)
Definition lrest (t : str) : Prop := stops (fun c => is_digit c || is_space c)%bool t.
Lemma lrest_space t : lrest t -> stops is_space t.
Proof. intros [->|(c & u & -> & H)]; [now left|right]. exists c, u. apply orb_false_iff in H. tauto. Qed.
Lemma lrest_digit t : lrest t -> stops is_digit t.
Proof. intros [->|(c & u & -> & H)]; [now left|right]. exists c, u. apply orb_false_iff in H. tauto. Qed.
Lemma stop_punct c t : In c puncts -> lrest (c :: t).
Proof. intros H. right. exists c, t. split; auto. apply punct_ok in H as (A & B & _). now rewrite A, B. Qed.
Ltac inp := unfold puncts; cbn; tauto.

Lemma cutr_punct c ts rest : In c puncts -> stops is_space (concat ts ++ rest) -> cutr re_ltoken ts rest -> cutr re_ltoken ([c] :: ts) rest.
Proof. intros HC HS H. cbn [cutr]. split; [discriminate|]. split; auto. intros p. exists []. now apply ltok_punct. Qed.
Lemma cutr_blank ts rest l : concat ts = lat_to_mcnp l -> lends l -> cutr re_ltoken ts rest -> cutr re_ltoken (L " " :: ts) rest.
Proof.
  intros E [(c & u & EL & HS & _) _] H. cbn [cutr]. split; [discriminate|]. split; auto. intros p. exists []. rewrite E, EL. now apply ltok_blank.
Qed.
Lemma digit_cut ts l rest : g_digit ts l -> stops is_digit rest -> cutr re_ltoken (ltoks l) rest.
Proof.
  intros H HR. inversion H as [d HD]; subst. cbn [ltoks cutr concat app]. split; [apply signed_head in HD as (c & t & -> & _); discriminate|]. split; auto.
  intros p. exists []. now apply ltok_digit.
Qed.
Lemma place_cut ts l rest : g_place ts l -> stops is_digit rest -> cutr re_ltoken (ltoks l) rest.
Proof.
  intros H HR. inversion H as [ts' l' H1|ts1 lo ts2 hi H1 H2]; subst; [now apply (digit_cut ts)|]. cbn [ltoks]. apply cutr_app.
  - apply (digit_cut ts1); auto. cbn [concat app]. apply lrest_digit. apply stop_punct. inp.
  - apply cutr_punct; [inp| |now apply (digit_cut ts2)]. rewrite concat_ltoks. apply lends_stop. apply (place_ends ts2). now constructor.
Qed.
Lemma lat_cut : (forall ts l, g_item ts l -> forall rest, lrest rest -> cutr re_ltoken (ltoks l) rest) /\
  (forall ts l, g_chain ts l -> forall rest, lrest rest -> cutr re_ltoken (ltoks l) rest).
Proof.
  destruct lat_ends as [EI EC]. apply lat_ind2.
  - intros ts l H rest HR. apply (digit_cut ts); auto. now apply lrest_digit.
  - intros tc c ti i tj j tk k HC HI HJ HK _ rest HR. cbn [ltoks]. apply cutr_app.
    { apply (digit_cut tc); auto. cbn [concat app]. apply lrest_digit, stop_punct. inp. }
    apply cutr_punct; [inp| |].
    { rewrite concat_app, concat_ltoks, <- app_assoc. apply lends_stop. now apply (place_ends ti). }
    assert (SB : forall t, stops is_digit (sp :: t)) by (intros t; right; exists sp, t; auto).
    apply cutr_app; [apply (place_cut ti); auto; cbn [concat app]; apply SB|].
    assert (CJ : cutr re_ltoken (ltoks j ++ L " " :: ltoks k ++ [L "]"]) rest).
    { apply cutr_app; [apply (place_cut tj); auto; cbn [concat app]; apply SB|].
      assert (CK : cutr re_ltoken (ltoks k ++ [L "]"]) rest).
      { apply cutr_app; [apply (place_cut tk); auto; cbn [concat app]; apply lrest_digit, stop_punct; inp|].
        apply cutr_punct; [inp|now apply lrest_space|exact I]. }
      cbn [cutr]. split; [discriminate|]. split; [|exact CK]. intros p. exists []. rewrite concat_app, concat_ltoks, <- app_assoc.
      apply place_ends in HK as [(x & u & -> & HS & _) _]. now apply ltok_blank. }
    cbn [cutr]. split; [discriminate|]. split; [|exact CJ]. intros p. exists []. rewrite concat_app, concat_ltoks, <- app_assoc.
    apply place_ends in HJ as [(x & u & -> & HS & _) _]. now apply ltok_blank.
  - intros ts l HC IH rest HR. cbn [ltoks]. apply cutr_punct; [inp| |].
    + rewrite concat_app, concat_ltoks, <- app_assoc. apply lends_stop. now apply (EC ts).
    + apply cutr_app; [apply IH; cbn [concat app]; apply stop_punct; inp|]. apply cutr_punct; [inp|now apply lrest_space|exact I].
  - auto.
  - intros ts1 l1 ts2 l2 H1 IH1 H2 IH2 rest HR. cbn [ltoks]. apply cutr_app; [apply IH1; cbn [concat app]; apply stop_punct; inp|].
    apply cutr_punct; [inp| |now apply IH2]. rewrite concat_ltoks. apply lends_stop. now apply (EI ts2).
Qed.

Theorem chain_tokens ts l : g_chain ts l -> lat_tokens (lat_to_mcnp l) = Some ts.
Proof.
  intros H. pose proof (proj2 lat_ends ts l H) as [H1 H2]. unfold lat_tokens. rewrite strip_ok by auto. unfold lat_raw. rewrite <- concat_ltoks, finditer_cut.
  - replace (seqb (concat (ltoks l)) (concat (ltoks l))) with true by (symmetry; now apply seqb_eq). f_equal. now apply (proj2 lat_clean).
  - reflexivity.
  - apply cutr_cut. apply (proj2 lat_cut ts); auto. now left.
Qed.
Theorem chain_round_trip s ts l : lat_tokens s = Some ts -> g_chain ts l ->
  lat_from_mcnp s = Ok l /\ lat_tokens (lat_to_mcnp l) = Some ts /\ lat_from_mcnp (lat_to_mcnp l) = Ok l.
Proof.
  intros HT H. assert (HB : g_bins ts l) by now constructor. split; [apply lat_from_iff; eauto|]. pose proof (chain_tokens ts l H). split; auto.
  apply lat_from_iff. eauto.
Qed.

(** * Several bins *)
Lemma item_items ts l : g_item ts l -> items l = [l].
Proof. intros H. inversion H as [? ? H'| |]; subst; auto. inversion H'; auto. Qed.
Lemma chain_join ts2 l2 : g_chain ts2 l2 -> forall ts1 l1, g_chain ts1 l1 ->
  exists l, g_chain (ts1 ++ L "<" :: ts2) l /\ lat_to_mcnp l = lat_to_mcnp l1 ++ L "<" ++ lat_to_mcnp l2 /\ items l = items l1 ++ items l2.
Proof.
  induction 1 as [ts2 l2 H|ts2 l2 ts3 l3 H IH H3]; intros ts1 l1 H1.
  - exists (LEmb l1 l2). split; [now apply chain_more|]. split; reflexivity.
  - destruct (IH ts1 l1 H1) as (l & HC & HT & HI). exists (LEmb l l3). split; [|split].
    + replace (ts1 ++ L "<" :: ts2 ++ L "<" :: ts3) with ((ts1 ++ L "<" :: ts2) ++ L "<" :: ts3) by (rewrite <- app_assoc; reflexivity). now apply chain_more.
    + cbn [lat_to_mcnp]. rewrite HT. now rewrite <- !app_assoc.
    + cbn [items]. rewrite HI. now rewrite <- app_assoc.
Qed.
Lemma bins_chain ts l : g_bins ts l -> exists ts' l', g_chain ts' l' /\ lat_to_mcnp l' = lat_to_mcnp l /\ items l' = items l.
Proof.
  induction 1 as [ts l H|ts1 l1 ts2 l2 H1 (ts' & l' & HC & HT & HI) H2]; [eauto|].
  destruct (chain_join ts2 l2 H2 ts' l' HC) as (l & HL & E1 & E2). exists (ts' ++ L "<" :: ts2), l. split; auto. cbn [lat_to_mcnp items]. now rewrite E1, E2, HT, HI.
Qed.
Theorem bins_round_trip s l : lat_from_mcnp s = Ok l ->
  exists l', lat_from_mcnp (lat_to_mcnp l) = Ok l' /\ lat_to_mcnp l' = lat_to_mcnp l /\ items l' = items l.
Proof.
  intros H. apply lat_from_iff in H as (ts & _ & H). apply bins_chain in H as (ts' & l' & HC & HT & HI). exists l'. split; auto.
  rewrite <- HT. apply lat_from_iff. exists ts'. split; [now apply chain_tokens|now constructor].
Qed.
