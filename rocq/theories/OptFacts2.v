(** Lists of options: scanning them with the pattern of the family. *)

From Coq Require Import Ascii String NArith ZArith Bool Arith Lia List.
From Verif Require Import PyStr Regex RegexParse RegexFacts RegexLang PyNum PyNumFacts Types TypesSpec TypesFacts TypesFacts2 TypesFacts3 TypesFacts4 TypesFacts5 SubFacts CardText CardTextSpec CardTextFacts CardTextFacts2 CardTextFacts3 CardTextFacts4 CardTextFacts5 CardTextFacts6
  Cards Tables CardsSpec CardsFacts CardsFacts2 CardsFacts3 CardsFacts4 CardsFacts5 CardsFacts6 RegexDer Geometry Numbered Problem InpFile InpSpec InpSpec2 InpFacts6 InpFacts9 InpFacts10 OptSpec OptFacts.
Import ListNotations.
Open Scope char_scope.
Open Scope list_scope.

(** ** What follows an option of a list: nothing, or a blank and another keyword *)

Definition cs_start : cset := {| cneg := false; cranges := [(97, 122)%N; (65, 90)%N; (42, 42)%N] |}.
Definition follow : re := RAlt REps (RCat (chr_re sp) (RCat (RSet cs_start) anything)).
Definition blank : re := RAlt REps (RCat (chr_re sp) anything).

Lemma V_anything t : V anything t.
Proof.
  exists (map (fun c => [c]) t). split; [|split; [cbn; lia|split; [exact I|]]].
  - apply Forall_map, Forall_forall. intros x _. exists x. split; auto.
  - induction t; cbn; congruence.
Qed.
Lemma V_chr c : V (chr_re c) [c].
Proof. exists c. split; [reflexivity|]. apply (all_ascii (fun c => inset {| cneg := false; cranges := [(code c, code c)] |} c)). vm_compute. reflexivity. Qed.
Lemma follow_nil : after follow [].
Proof. left. reflexivity. Qed.
Lemma follow_next c t : inset cs_start c = true -> after follow (sp :: c :: t).
Proof. intros H. right. exists [sp], (c :: t). split; [apply V_chr|]. split; [|reflexivity]. exists [c], t. split; [exists c; auto|]. split; [apply V_anything|reflexivity]. Qed.
Lemma follow_bnd t : after follow t -> bnd t.
Proof.
  intros [H|(u & v & (c & -> & HC) & _ & ->)]; [left; exact H|]. right. apply (inset_chr_eq sp) in HC. subst c. cbn. eauto.
Qed.

(** ** The check on the families *)

Fixpoint before (c : re) (l : list re) : option (list re) :=
  match l with [] => None | x :: l' => if re_eqb (erase x) c then Some [] else match before c l' with Some b => Some (x :: b) | None => None end end.
Definition scan_re (p : str) : re := compile true (slice 2 2 p).
Definition kw_okb (kw : str) : bool :=
  match kw with c :: _ => inset cs_start c | [] => false end && forallb (fun s => negb (starts_with (slower kw) (short_name s))) [Sj; Sr; Si; Slog; Silog].
Definition steadyb (u : re) (c : cls) : bool :=
  match c_kw c with
  | [] => true
  | _ =>
      kw_okb (c_kw c) &&
      match before (erase (compile true (c_pat c))) (alts u) with
      | Some l => forallb (fun y => disj steps (RCat y anything) (RCat (compile true (c_pat c)) follow)) l
      | None => false
      end
  end.
Definition family_steady (cs : list cls) (p : str) : bool :=
  let u := scan_re p in
  plain u && thrifty u && groups_above 0 u && forallb thrifty (alts u) && forallb (fun y => disj steps (RCat y anything) (RCat REps blank)) (alts u) &&
  forallb (fun c => memb (c_name c) shadowed_options || steadyb u c && negb (memb (c_name c) ambiguous_options)) cs.
Lemma families_steady : forallb (fun x => match assoc (fst x) families with Some cs => family_steady cs (snd x) | None => false end) option_patterns = true.
Proof. vm_cast_no_check (eq_refl true). Qed.

Lemma before_ok c l : forall b, before c l = Some b -> exists x l2, l = b ++ x :: l2 /\ erase x = c.
Proof.
  induction l as [|x l IH]; intros b H; [discriminate|]. cbn [before] in H. destruct (re_eqb (erase x) c) eqn:E.
  - injection H as <-. exists x, l. split; auto. now apply re_eqb_eq.
  - destruct (before c l) as [b'|]; [|discriminate]. injection H as <-. destruct (IH _ eq_refl) as (y & l2 & -> & HY). exists y, l2. auto.
Qed.

Section Family.
  Variables (n : string) (cs : list cls) (q : str).
  Hypotheses (HA : assoc n families = Some cs) (HF : In (n, q) option_patterns).
  Let u := scan_re q.

  Lemma steady_parts : (plain u = true /\ thrifty u = true /\ groups_above 0 u = true) /\ Forall (fun y => thrifty y = true) (alts u) /\ Forall (fun y => disj steps (RCat y anything) (RCat REps blank) = true) (alts u) /\
    forall c, In c cs -> ~ In (c_name c) shadowed_options -> steadyb u c = true /\ ~ In (c_name c) ambiguous_options.
  Proof.
    pose proof families_steady as H. rewrite forallb_forall in H. specialize (H _ HF). cbn [fst snd] in H. rewrite HA in H. unfold family_steady in H. fold u in H.
    apply andb_prop in H as [H H4]. apply andb_prop in H as [H H3]. apply andb_prop in H as [H1 H2].
    apply andb_prop in H1 as [H1 H5]. apply andb_prop in H1 as [H1 H6]. split; [auto|]. split; [apply Forall_forall; intros y; rewrite forallb_forall in H2; apply H2|]. split; [apply Forall_forall; intros y; rewrite forallb_forall in H3; apply H3|].
    intros c HC HS. rewrite forallb_forall in H4. specialize (H4 _ HC). apply orb_prop in H4 as [H4|H4]; [apply memb_in in H4; tauto|]. apply andb_prop in H4 as [H4 H7].
    split; [exact H4|]. intros X. apply memb_in in X. rewrite X in H7. discriminate.
  Qed.

  Lemma union_blank : no_blank_start u.
  Proof.
    destruct steady_parts as (_ & _ & H & _).
    assert (X : never (after blank) [] u).
    { apply never_alts. eapply Forall_impl; [|exact H]. intros y Hy. apply (never_disj _ _ _ _ [] Hy). reflexivity. }
    split; intros p; [|intros t]; unfold match_at.
    - pose proof (X p [] [] ltac:(now left)) as E. cbn [app] in E. now rewrite E.
    - assert (HB : after blank (sp :: t)) by (right; exists [sp], t; split; [apply V_chr|split; [apply V_anything|reflexivity]]).
      pose proof (X p (sp :: t) [] HB) as E. cbn [app] in E. now rewrite E.
  Qed.

  Lemma union_takes k T : In k cs -> ~ In (c_name k) shadowed_options -> c_kw k <> [] -> V (compile true (c_pat k)) T ->
    (forall x, erase x = erase (compile true (c_pat k)) -> thrifty x = true -> takes bnd x T) -> takes (after follow) u T.
  Proof.
    intros HI HS HK HV HT. destruct steady_parts as (_ & HTH & _ & HX). destruct (HX k HI HS) as [HY _]. unfold steadyb in HY. destruct (c_kw k); [congruence|].
    apply andb_prop in HY as [_ HY]. destruct (before _ (alts u)) as [l|] eqn:EB; [|discriminate]. apply before_ok in EB as (x & l2 & EA & EX).
    apply (takes_alts _ _ _ l x l2 EA).
    - apply Forall_forall. intros y Hy. rewrite forallb_forall in HY. exact (never_disj _ _ _ _ _ (HY _ Hy) HV).
    - apply takes_weak with (G := bnd); [exact follow_bnd|]. apply HT; [exact EX|]. rewrite Forall_forall in HTH. apply HTH. rewrite EA. apply in_or_app. right. now left.
  Qed.
End Family.

(** ** Scanning *)

Definition starts_ok (T : str) : Prop := exists c t, T = c :: t /\ inset cs_start c = true.
Lemma follow_spaced Ts : Forall starts_ok Ts -> after follow (spaced Ts).
Proof.
  destruct 1 as [|T Ts (c & t & -> & HC) _]; [apply follow_nil|]. change (spaced ((c :: t) :: Ts)) with (sp :: c :: t ++ spaced Ts). now apply follow_next.
Qed.
Lemma takes_at F r T p t : takes F r T -> F t -> exists c, match_at r p (T ++ t) = Some {| mpre := p; mtext := T; mrest := t; mcaps := c |}.
Proof.
  intros H HF. destruct (H p t [] HF) as (c & E). exists c. unfold match_at. rewrite E. cbn [rest caps]. f_equal. f_equal.
  rewrite app_length. replace (length T + length t - length t) with (length T) by lia. now rewrite firstn_app, Nat.sub_diag, firstn_all, firstn_O, app_nil_r.
Qed.
Lemma scan_f r Ts : no_blank_start r -> Forall (fun T => starts_ok T /\ takes (after follow) r T) Ts ->
  forall fuel p, length (spaced Ts) < fuel -> map mtext (finditer_f fuel r p (spaced Ts)) = Ts.
Proof.
  intros [N0 N1]. induction 1 as [|w ws [NW HW] HF IH]; intros fuel p HL.
  - destruct fuel; [lia|]. cbn [spaced map concat finditer_f search]. now rewrite N0.
  - destruct fuel as [|f]; [lia|]. cbn [finditer_f].
    change (spaced (w :: ws)) with (sp :: w ++ spaced ws) in *.
    assert (HB : after follow (spaced ws)) by (apply follow_spaced; eapply Forall_impl; [|exact HF]; intros ? []; auto).
    destruct (takes_at _ _ _ (sp :: p) _ HW HB) as (c & E).
    assert (ES : search r p (sp :: w ++ spaced ws) = Some {| mpre := sp :: p; mtext := w; mrest := spaced ws; mcaps := c |}).
    { cbn [search]. rewrite N1. destruct (w ++ spaced ws); cbn [search]; now rewrite E. }
    rewrite ES. cbn [mtext mrest mpre]. destruct NW as (a & w' & -> & _).
    cbn [map mtext]. f_equal. apply IH. simpl in HL. rewrite app_length in HL. lia.
Qed.
Lemma scan r Ts : no_blank_start r -> Forall (fun T => starts_ok T /\ takes (after follow) r T) Ts -> map mtext (finditer r (join [sp] Ts)) = Ts.
Proof.
  intros HN HF. destruct Ts as [|w ws].
  - destruct HN as [N0 _]. cbn. now rewrite N0.
  - rewrite <- spaced_join. inversion HF as [|? ? [NW HW] HF']; subst. unfold finditer. cbn [finditer_f].
    assert (HB : after follow (spaced ws)) by (apply follow_spaced; eapply Forall_impl; [|exact HF']; intros ? []; auto).
    destruct (takes_at _ _ _ [] _ HW HB) as (c & E).
    assert (ES : search r [] (w ++ spaced ws) = Some {| mpre := []; mtext := w; mrest := spaced ws; mcaps := c |}).
    { destruct (w ++ spaced ws); cbn [search]; now rewrite E. }
    rewrite ES. cbn [mtext mrest mpre]. destruct NW as (a & w' & -> & _).
    cbn [map mtext]. f_equal. apply scan_f; auto. simpl. rewrite app_length. lia.
Qed.
