(** Facts about sequences ([Tuple]). *)

From Coq Require Import Ascii String NArith ZArith Bool Arith Lia List.
From Verif Require Import PyStr Regex RegexParse RegexFacts RegexLang PyNum PyNumFacts Types TypesSpec TypesFacts TypesFacts2 TypesFacts3.
Import ListNotations.
Open Scope char_scope.

(** * Scanning a text of blank-separated words *)

(** [r] reads the whole word [w] wherever a blank or the end follows. *)
Definition reads_word (r : re) (w : str) : Prop :=
  w <> [] /\ forall p t, bnd t -> exists c,
  match_at r p (w ++ t) = Some {| mpre := p; mtext := w; mrest := t; mcaps := c |}.
(** [r] cannot start on a blank or at the end. *)
Definition no_blank_start (r : re) : Prop :=
  (forall p, match_at r p [] = None) /\ (forall p t, match_at r p (sp :: t) = None).

(** The text [" w1 w2 ... wn"]. *)
Definition spaced (ws : list str) : str := concat (map (fun w => sp :: w) ws).

Lemma bnd_spaced ws : bnd (spaced ws).
Proof. destruct ws; [now left|right]. unfold spaced. simpl. eauto. Qed.

Lemma spaced_join w ws : w ++ spaced ws = join [sp] (w :: ws).
Proof.
  revert w. induction ws as [|v ws IH]; intros w.
  - unfold spaced. simpl. now rewrite app_nil_r.
  - change (spaced (v :: ws)) with (sp :: v ++ spaced ws). rewrite IH. reflexivity.
Qed.

Lemma finditer_f_spaced r ws : no_blank_start r -> Forall (reads_word r) ws ->
  forall fuel p, length (spaced ws) < fuel -> map mtext (finditer_f fuel r p (spaced ws)) = ws.
Proof.
  intros [N0 N1]. induction 1 as [|w ws [NW HW] HF IH]; intros fuel p HL.
  - destruct fuel; [lia|]. cbn [spaced map concat finditer_f search]. now rewrite N0.
  - destruct fuel as [|f]; [lia|]. cbn [finditer_f].
    change (spaced (w :: ws)) with (sp :: w ++ spaced ws) in *.
    destruct (HW (sp :: p) (spaced ws) (bnd_spaced ws)) as (c & E).
    assert (ES : search r p (sp :: w ++ spaced ws)
               = Some {| mpre := sp :: p; mtext := w; mrest := spaced ws; mcaps := c |}).
    { cbn [search]. rewrite N1. destruct (w ++ spaced ws); cbn [search]; now rewrite E. }
    rewrite ES. cbn [mtext mrest mpre]. destruct w as [|a w]; [congruence|].
    cbn [map mtext]. f_equal. apply IH. simpl in HL. rewrite app_length in HL. lia.
Qed.

Lemma finditer_spaced r ws : no_blank_start r -> Forall (reads_word r) ws ->
  map mtext (finditer r (spaced ws)) = ws.
Proof. intros. apply finditer_f_spaced; auto. Qed.

Lemma finditer_join r ws : no_blank_start r -> Forall (reads_word r) ws ->
  map mtext (finditer r (join [sp] ws)) = ws.
Proof.
  intros HN HF. destruct ws as [|w ws].
  - destruct HN as [N0 _]. cbn. now rewrite N0.
  - rewrite <- spaced_join. inversion HF as [|? ? [NW HW] HF']; subst.
    unfold finditer. cbn [finditer_f].
    destruct (HW [] (spaced ws) (bnd_spaced ws)) as (c & E).
    assert (ES : search r [] (w ++ spaced ws)
               = Some {| mpre := []; mtext := w; mrest := spaced ws; mcaps := c |}).
    { destruct (w ++ spaced ws); cbn [search]; now rewrite E. }
    rewrite ES. cbn [mtext mrest mpre]. destruct w as [|a w]; [congruence|].
    cbn [map mtext]. f_equal. apply finditer_f_spaced; auto. simpl. rewrite app_length. lia.
Qed.

(** The sequence round trip, for any element type. *)
Lemma tuple_rt_gen {A} pat (conv : str -> result A) pr (l : list A) :
  no_blank_start (compile true (slice 2 2 pat)) ->
  (forall v, In v l -> reads_word (compile true (slice 2 2 pat)) (pr v) /\ conv (pr v) = Ok v) ->
  tuple_from_mcnp pat conv (tuple_to_mcnp pr l) = Ok l /\
  tuple_from_mcnp pat conv (spaced (map pr l)) = Ok l.
Proof.
  intros HN HV. set (r := compile true (slice 2 2 pat)) in *.
  assert (HF : Forall (reads_word r) (map pr l)).
  { apply Forall_map, Forall_forall. intros v Hv. now apply HV. }
  assert (HM : forall os, map mtext os = map pr l -> mapM (fun o => conv (mtext o)) os = Ok l).
  { clear HF. intros os. revert l HV. induction os as [|o os IH]; intros [|v l] HV E; try discriminate; [reflexivity|].
    cbn [map] in E. inversion E as [[E1 E2]]. cbn [mapM].
    destruct (HV v) as [_ HC]; [now left|]. rewrite E1, HC. cbn [bind].
    rewrite (IH l); auto. intros v' Hv'. apply HV. now right. }
  unfold tuple_from_mcnp, tuple_to_mcnp. fold r.
  split; apply HM; [now apply finditer_join|now apply finditer_spaced].
Qed.

(** * Numbers *)

Lemma number_pat : compile true (slice 2 2 pat_number) = r_number.
Proof. vm_compute. reflexivity. Qed.

Lemma number_no_blank : no_blank_start r_number.
Proof. split; intros; reflexivity. Qed.

Lemma m_star_run A cs (k : st -> option A) u t p cp x :
  allc (inset cs) u -> (t = [] \/ exists c t', t = c :: t' /\ inset cs c = false) ->
  k (mkst (rev u ++ p) t cp) = Some x ->
  m (RRep false 0 None (RSet cs)) (mkst p (u ++ t) cp) k = Some x.
Proof.
  intros Hu Ht HK. cbn [m need maxleft rest].
  apply (loopg_run _ cs k u [] t); rewrite ?app_nil_r; auto.
  intros v1 v2 E HV. destruct v1; [congruence|discriminate].
Qed.

Lemma bnd_out (P : ascii -> bool) t : P sp = false -> bnd t -> t = [] \/ exists c t', t = c :: t' /\ P c = false.
Proof. intros H [->|(t' & ->)]; [now left|right; eauto]. Qed.

Lemma firstn_text (w t : str) : firstn (length (w ++ t) - length t) (w ++ t) = w.
Proof. apply firstn_consumed. Qed.

Lemma no_digm w t p cp A (k : st -> option A) :
  allc (fun c => negb (inset (cs_ic 109 77) c)) w -> bnd t ->
  m (RCat (RRep false 0 None (RSet cs_dig)) (one_letter 109 77)) (mkst p (w ++ t) cp) k = None.
Proof.
  intros Hw Ht. apply m_none. intros s' HM. exfalso.
  apply M_W in HM as (u & c & HW & E & _ & _); [|reflexivity]. cbn [rest] in E.
  destruct HW as (u1 & u2 & c1 & c2 & H1 & (x & -> & Hx & ->) & -> & ->).
  apply W_rep_set in H1 as (A1 & _ & _ & ->).
  assert (HA : allc (fun c => negb (ceqb c sp)) (u1 ++ [x])).
  { apply allc_app. split.
    - revert A1. apply allc_impl. vm_compute. reflexivity.
    - constructor; [|constructor].
      pose proof (all_ascii (fun c => implb (inset (cs_ic 109 77) c) (negb (ceqb c sp))) eq_refl x) as Q.
      cbv beta in Q. now rewrite Hx in Q. }
  assert (HI : In x w).
  { rewrite <- app_assoc in E. clear - E Ht HA. revert w E. induction u1 as [|a u1 IH]; intros w E.
    - destruct w as [|b w]; cbn [app] in E; [|inversion E; subst; now left].
      destruct Ht as [->|(t' & ->)]; [discriminate|]. inversion E; subst.
      inversion HA; subst. discriminate.
    - destruct w as [|b w]; cbn [app] in E.
      + destruct Ht as [->|(t' & ->)]; [discriminate|]. inversion E; subst. inversion HA; subst. discriminate.
      + inversion E; subst. right. inversion HA; subst. apply IH; auto. }
  unfold allc in Hw. rewrite Forall_forall in Hw. apply Hw in HI. rewrite Hx in HI. discriminate.
Qed.

(** Texts starting with a sign or digit and made of number characters. *)
Definition plain_number (w : str) : Prop :=
  exists c w', w = c :: w' /\ (is_digit c || ceqb c "-")%bool = true /\ allc is_numchar w'.

Lemma reads_plain_number w : plain_number w -> reads_word r_number w.
Proof.
  intros (c & w' & -> & Hc & Hw). split; [discriminate|]. intros p t Ht. exists [].
  pose proof (all_ascii (fun c => implb (is_digit c || ceqb c "-")
     (negb (inset (cs_ic 106 74) c) && negb (inset (cs_ic 108 76) c) && negb (inset (cs_ic 105 73) c)
      && negb (inset (cs_ic 114 82) c) && inset cs_num1 c && negb (inset (cs_ic 109 77) c))) eq_refl c) as Q.
  cbv beta in Q. rewrite Hc in Q. cbn [implb] in Q.
  repeat (apply andb_prop in Q; destruct Q as [Q ?]). rewrite negb_true_iff in *.
  unfold match_at.
  assert (E : m r_number (mkst p ((c :: w') ++ t) []) Some = Some (mkst (rev (c :: w') ++ p) t [])).
  { unfold r_number.
    change (m (RAlt (one_letter 106 74) ?x) ?s ?k) with
      (match m (one_letter 106 74) s k with Some y => Some y | None => m x s k end).
    cbn [m rest pre caps app r_log r_ilog].
    rewrite Q, ?H, ?H0, ?H1, ?H2, ?H3.
    pose proof (no_digm (c :: w') t p [] _ (@Some st)) as ND. cbn [m app] in ND.
    rewrite ND; auto.
    2:{ constructor; [now rewrite H|]. revert Hw. apply allc_impl. vm_compute. reflexivity. }
    unfold r_numrun. cbn [m rest pre caps]. rewrite H0.
    pose proof (m_star_run _ cs_num (@Some st) w' t (c :: p) [] (mkst (rev (c :: w') ++ p) t [])) as R.
    cbn [m] in R. apply R.
    - revert Hw. apply allc_impl. vm_compute. reflexivity.
    - now apply bnd_out.
    - cbn [rev]. now rewrite <- app_assoc. }
  rewrite E. cbn [rest caps]. now rewrite firstn_text.
Qed.

Lemma plain_dec neg c e : plain_number (dec_str (Fin neg c e)).
Proof.
  pose proof (dec_str_numchars neg c e) as A. pose proof (dec_str_nonempty neg c e) as N.
  destruct (dec_str_shape neg c e) as (ip & fp & ep & ex & ES & Hi & _ & NI & _).
  destruct (dec_str (Fin neg c e)) as [|x w] eqn:E; [congruence|]. exists x, w. inversion A; subst.
  repeat split; auto.
  destruct neg; cbn [app] in ES.
  - injection ES as ES1 ES2. rewrite ES1. reflexivity.
  - destruct ip as [|d ip]; [congruence|]. cbn [app] in ES. injection ES as ES1 ES2. rewrite ES1. inversion Hi; subst.
    now rewrite H3.
Qed.

Lemma plain_int z : plain_number (str_of_Z z).
Proof.
  rewrite str_of_Z_dec. apply plain_dec.
Qed.


Lemma reads_horiz h : seq_horiz h = true -> reads_word r_number (horiz_to_mcnp h).
Proof.
  intros H. destruct h as [[n|]|[n|]|x|[n|]|[n|]]; try discriminate; cbn [horiz_to_mcnp or_empty app].
  1, 2, 4, 5: split; [discriminate|]; intros p t Ht; exists []; unfold match_at;
    match goal with |- context [m ?r (mkst _ (?w ++ _) _) ?k] =>
      assert (E : m r (mkst p (w ++ t) []) k = Some (mkst (rev w ++ p) t []))
        by (destruct Ht as [->|(t' & ->)]; reflexivity) end;
    rewrite E; cbn [rest caps]; now rewrite firstn_text.
  (* multiply *)
  pose proof (str_of_N_digits x) as D. pose proof (str_of_N_nonempty x) as N.
  split; [destruct (str_of_N x); discriminate|]. intros p t Ht. exists [].
  unfold match_at.
  assert (E : m r_number (mkst p ((str_of_N x ++ L "m") ++ t) []) Some
     = Some (mkst (rev (str_of_N x ++ L "m") ++ p) t [])).
  { destruct (str_of_N x) as [|c w]; [congruence|].
    inversion D; subst.
    pose proof (all_ascii (fun c => implb (is_digit c)
     (negb (inset (cs_ic 106 74) c) && negb (inset (cs_ic 108 76) c) && negb (inset (cs_ic 105 73) c))) eq_refl c) as Q.
    cbv beta in Q. rewrite H2 in Q. cbn [implb] in Q.
    repeat (apply andb_prop in Q; destruct Q as [Q ?]). rewrite negb_true_iff in *.
    assert (R : m (RCat (RRep false 0 None (RSet cs_dig)) (one_letter 109 77)) (mkst p (((c :: w) ++ L "m") ++ t) []) Some
        = Some (mkst (rev ((c :: w) ++ L "m") ++ p) t [])).
    { rewrite <- app_assoc. cbn [m]. 
      pose proof (m_star_run _ cs_dig (fun s' => m (one_letter 109 77) s' (@Some st)) (c :: w) (L "m" ++ t) p []
         (mkst (rev ((c :: w) ++ L "m") ++ p) t [])) as R.
      cbn [m] in R. apply R.
      - now apply allc_dig.
      - right. exists "m", t. split; reflexivity.
      - rewrite rev_app_distr. reflexivity. }
    unfold r_number. cbn [m] in R |- *. cbn [app rest pre caps] in *.
    rewrite Q, ?H, ?H0, ?H1. cbn [r_log r_ilog m rest]. rewrite ?Q, ?H, ?H0, ?H1. now rewrite R. }
  rewrite E. cbn [rest caps]. now rewrite firstn_text.
Qed.


Lemma seq_horiz_ok h : seq_horiz h = true -> horiz_ok h = true.
Proof. destruct h as [[n|]|[n|]|[|x]|[n|]|[n|]]; cbn; try discriminate; auto. Qed.
Lemma int_seq_ok i : int_seq i = true -> int_ok i = true.
Proof. destruct i; cbn; auto using seq_horiz_ok. Qed.
Lemma real_seq_ok r : real_seq r = true -> real_ok r = true.
Proof. destruct r as [[]|]; cbn; auto using seq_horiz_ok. Qed.

Lemma reads_int i : int_seq i = true -> reads_word r_number (integer_to_mcnp i).
Proof. destruct i; cbn; auto using reads_horiz, reads_plain_number, plain_int. Qed.
Lemma reads_real r : real_seq r = true -> reads_word r_number (real_to_mcnp r).
Proof. destruct r as [[]|]; cbn [real_seq real_to_mcnp]; try discriminate; auto using reads_horiz, reads_plain_number, plain_dec. Qed.

Theorem tuple_integer_rt l : forallb int_seq l = true ->
  tuple_from_mcnp pat_number integer_from_mcnp (tuple_to_mcnp integer_to_mcnp l) = Ok l /\
  tuple_from_mcnp pat_number integer_from_mcnp (spaced (map integer_to_mcnp l)) = Ok l.
Proof.
  intros H. rewrite forallb_forall in H. apply tuple_rt_gen; rewrite number_pat; [apply number_no_blank|].
  intros v Hv. apply H in Hv. split; [now apply reads_int|]. now apply int_rt, int_seq_ok.
Qed.
Theorem tuple_real_rt l : forallb real_seq l = true ->
  tuple_from_mcnp pat_number real_from_mcnp (tuple_to_mcnp real_to_mcnp l) = Ok l /\
  tuple_from_mcnp pat_number real_from_mcnp (spaced (map real_to_mcnp l)) = Ok l.
Proof.
  intros H. rewrite forallb_forall in H. apply tuple_rt_gen; rewrite number_pat; [apply number_no_blank|].
  intros v Hv. apply H in Hv. split; [now apply reads_real|]. now apply real_rt, real_seq_ok.
Qed.

(** * Words *)

Lemma string_pat : compile true (slice 2 2 pat_string) = r_S.
Proof. vm_compute. reflexivity. Qed.

Lemma reads_string w : w <> [] -> nospace w -> reads_word r_S w.
Proof.
  intros N H. split; auto. intros p t Ht. exists []. unfold match_at.
  assert (E : m r_S (mkst p (w ++ [] ++ t) []) Some = Some (mkst (rev w ++ p) t [])).
  { apply m_plus_run; auto.
    - rewrite app_nil_r. now apply allc_S.
    - now apply bnd_out.
    - intros v1 v2 E HV. destruct v1; [congruence|discriminate]. }
  cbn [app] in E. rewrite E. cbn [rest caps]. now rewrite firstn_text.
Qed.

Theorem tuple_string_rt (l : list str) : Forall (fun w => w <> [] /\ nospace w) l ->
  tuple_from_mcnp pat_string string_from_mcnp (tuple_to_mcnp (fun s => s) l) = Ok l /\
  tuple_from_mcnp pat_string string_from_mcnp (spaced (map (fun s => s) l)) = Ok l.
Proof.
  intros H. rewrite Forall_forall in H. apply tuple_rt_gen; rewrite string_pat.
  - split; intros; reflexivity.
  - intros v Hv. apply H in Hv as [A B]. split; [now apply reads_string|reflexivity].
Qed.

(** * Zaids *)

Lemma zaid_pat : compile true (slice 2 2 pat_zaid) = r_zaid.
Proof. vm_compute. reflexivity. Qed.

Lemma progress_step a t p cp p' cp' : progress (mkst p (a :: t) cp) (mkst p' t cp') = true.
Proof. unfold progress. cbn [rest length]. apply Nat.ltb_lt. lia. Qed.

Lemma m_upto3 A cs a b c t p cp (k : st -> option A) x :
  inset cs a = true -> inset cs b = true -> inset cs c = true ->
  k (mkst (c :: b :: a :: p) t cp) = Some x ->
  m (RRep false 1 (Some 3) (RSet cs)) (mkst p (a :: b :: c :: t) cp) k = Some x.
Proof.
  intros HA HB HC HK. cbn [m need rest pre caps]. rewrite HA. cbn [maxleft Nat.sub rest length].
  cbn [loopg czero m rest pre caps]. rewrite HB, progress_step. cbn [cdec].
  cbn [loopg czero m rest pre caps]. rewrite HC, progress_step. cbn [cdec].
  destruct (length t); cbn [loopg czero]; now rewrite HK.
Qed.

Lemma m_grp A n a s (k : st -> option A) : m (RGrp n a) s k = m a s (fun s' => k (addcap n s s')).
Proof. reflexivity. Qed.
Lemma m_catE A a b s (k : st -> option A) : m (RCat a b) s k = m a s (fun s' => m b s' k).
Proof. reflexivity. Qed.
Lemma m_setE A cs c t p cp (k : st -> option A) : inset cs c = true ->
  m (RSet cs) (mkst p (c :: t) cp) k = k (mkst (c :: p) t cp).
Proof. intros H. cbn [m rest pre caps]. now rewrite H. Qed.

Lemma m_opt_some A a s (k : st -> option A) x :
  m a s (fun s' => if progress s s' then k s' else k s') = Some x ->
  m (RRep false 0 (Some 1) a) s k = Some x.
Proof.
  intros H. cbn [m need maxleft Nat.sub loopg czero cdec]. cbn [m] in H.
  match goal with |- match ?e with _ => _ end = _ => replace e with (Some x); auto end.
  rewrite <- H. destruct (length (rest s)); reflexivity.
Qed.

Lemma m_run_S A (k : st -> option A) w t p cp x :
  w <> [] -> nospace w -> bnd t -> k (mkst (rev w ++ p) t cp) = Some x ->
  m r_S (mkst p (w ++ t) cp) k = Some x.
Proof.
  intros NW HW Ht HK. apply (m_plus_run _ cs_S k w [] t); auto.
  - rewrite app_nil_r. now apply allc_S.
  - now apply bnd_out.
  - intros v1 v2 E HV. destruct v1; [congruence|discriminate].
Qed.

Lemma m_zaid A x t p cp (k : st -> option A) : zaid_ok x -> bnd t ->
  forall y,
  let w := zaid_to_mcnp x in
  let c := (suffix_caps (zabx x) ++ [(2, zpad 3 (str_of_N (za x)))]) ++ [(1, zpad 3 (str_of_N (zz x)))] in
  k (mkst (rev w ++ p) t (c ++ cp)) = Some y ->
  m r_zaid (mkst p (w ++ t) cp) k = Some y.
Proof.
  intros (Hz & Ha & Ho) Ht y w c. unfold w, c. clear w c. destruct x as [z a o]; cbn [zz za zabx] in *.
  destruct (zpad3 z Hz) as (Dz & Lz & _). destruct (zpad3 a Ha) as (Da & La & _).
  assert (E : zaid_to_mcnp {| zz := z; za := a; zabx := o |}
     = zpad 3 (str_of_N z) ++ zpad 3 (str_of_N a) ++ suffix_text o).
  { unfold zaid_to_mcnp. cbn [zz za zabx].
    destruct o as [[|c u]|]; cbn [truthy suffix_text]; rewrite <- ?app_assoc; auto.
    - now destruct Ho.
    - now rewrite app_nil_r. }
  rewrite E. clear E.
  set (u := zpad 3 (str_of_N z)) in *. set (v := zpad 3 (str_of_N a)) in *. clearbody u v.
  destruct u as [|u1 [|u2 [|u3 [|]]]]; try discriminate. destruct v as [|v1 [|v2 [|v3 [|]]]]; try discriminate.
  inversion Dz as [|? ? A1 Dz1]; subst. inversion Dz1 as [|? ? A2 Dz2]; subst. inversion Dz2 as [|? ? A3 Dz3]; subst.
  inversion Da as [|? ? B1 Da1]; subst. inversion Da1 as [|? ? B2 Da2]; subst. inversion Da2 as [|? ? B3 Da3]; subst.
  rewrite <- inset_dig in *. intros HK. unfold r_zaid, r_3d. rewrite m_catE, m_grp. cbn [app] in *.
  apply m_upto3; auto.
  pose proof (addcap_app 1 p [u1; u2; u3] (v1 :: v2 :: v3 :: suffix_text o ++ t) cp (u3 :: u2 :: u1 :: p) cp) as X1.
  cbn [app] in X1. rewrite X1. clear X1.
  rewrite m_catE, m_grp, !m_catE, m_setE by auto. rewrite m_catE, m_setE by auto. rewrite m_setE by auto.
  pose proof (addcap_app 2 (u3 :: u2 :: u1 :: p) [v1; v2; v3] (suffix_text o ++ t) ((1, [u1; u2; u3]) :: cp)
     (v3 :: v2 :: v1 :: u3 :: u2 :: u1 :: p) ((1, [u1; u2; u3]) :: cp)) as X2.
  cbn [app] in X2. rewrite X2. clear X2.
  destruct o as [o|]; cbn [suffix_text suffix_caps app] in *.
  - apply m_opt_some. rewrite m_catE, m_setE by reflexivity. rewrite m_grp. apply m_run_S; try tauto.
    rewrite (addcap_app 3).
    match goal with |- (if ?b then ?e else ?e) = _ => assert (X : e = Some y); [|destruct b; exact X] end.
    rewrite <- HK. f_equal. f_equal. cbn [rev app]. rewrite <- !app_assoc. reflexivity.
  - destruct Ht as [->|(t' & ->)]; cbn [rev app] in HK; cbn [app]; exact HK.
Qed.

Lemma reads_zaid x : zaid_ok x -> reads_word r_zaid (zaid_to_mcnp x).
Proof.
  intros HX. split; [now apply zaid_chars|]. intros p t Ht. eexists. unfold match_at.
  erewrite m_zaid; eauto. cbn [rest caps]. now rewrite firstn_text.
Qed.

Theorem tuple_zaid_rt l : Forall zaid_ok l ->
  tuple_from_mcnp pat_zaid zaid_from_mcnp (tuple_to_mcnp zaid_to_mcnp l) = Ok l /\
  tuple_from_mcnp pat_zaid zaid_from_mcnp (spaced (map zaid_to_mcnp l)) = Ok l.
Proof.
  intros H. rewrite Forall_forall in H. apply tuple_rt_gen; rewrite zaid_pat.
  - split; intros; reflexivity.
  - intros v Hv. apply H in Hv. split; [now apply reads_zaid|now apply zaid_rt].
Qed.

(** * Substances *)

Lemma substance_pat : compile true (slice 2 2 pat_substance) = r_substance.
Proof. vm_compute. reflexivity. Qed.

Lemma reads_substance x : zaid_ok (fst x) -> real_ok (snd x) = true -> reads_word r_substance (substance_to_mcnp x).
Proof.
  intros Hz Hr. destruct x as [z r]. cbn [fst snd] in *. unfold substance_to_mcnp. cbn [fst snd].
  destruct (zaid_chars z Hz) as [Ca Na]. pose proof (wordchar_nospace _ (real_chars r Hr)) as Cb.
  pose proof (real_nonempty r Hr) as Nb.
  set (a := zaid_to_mcnp z) in *. set (b := real_to_mcnp r) in *. clearbody a b.
  split; [destruct a; discriminate|]. intros p t Ht. exists [(2, b); (1, a)]. unfold match_at.
  assert (E : m r_substance (mkst p ((a ++ [sp] ++ b) ++ t) []) Some
     = Some (mkst (rev (a ++ [sp] ++ b) ++ p) t [(2, b); (1, a)])).
  { unfold r_substance. rewrite <- !app_assoc. rewrite m_catE, m_grp. apply m_run_S; auto.
    { right. cbn [app]. eauto. }
    rewrite (addcap_app 1). cbn [app]. rewrite m_catE, m_setE by reflexivity. rewrite m_grp.
    apply m_run_S; auto. rewrite (addcap_app 2). f_equal. f_equal.
    rewrite rev_app_distr. cbn [rev]. rewrite <- !app_assoc. reflexivity. }
  rewrite E. cbn [rest caps]. now rewrite firstn_text.
Qed.

Theorem tuple_substance_rt l : Forall (fun x => zaid_ok (fst x) /\ real_ok (snd x) = true) l ->
  tuple_from_mcnp pat_substance substance_from_mcnp (tuple_to_mcnp substance_to_mcnp l) = Ok l /\
  tuple_from_mcnp pat_substance substance_from_mcnp (spaced (map substance_to_mcnp l)) = Ok l.
Proof.
  intros H. rewrite Forall_forall in H. apply tuple_rt_gen; rewrite substance_pat.
  - split; intros; reflexivity.
  - intros [z r] Hv. apply H in Hv as [A B]. split; [now apply reads_substance|now apply substance_rt].
Qed.

(** * Distributions *)

Definition r_distribution : re :=
  RAlt (RCat (RSet (cs [(100, 100); (68, 68); (68, 68); (100, 100)]%N)) (RGrp 1 r_dig)) (RSet (cs_chr 48)).
Lemma distribution_pat : compile true (slice 2 2 pat_distribution) = r_distribution.
Proof. vm_compute. reflexivity. Qed.

Lemma reads_distribution n : reads_word r_distribution (distribution_to_mcnp (IVal (Z.of_N n))).
Proof.
  unfold distribution_to_mcnp, integer_to_mcnp.
  assert (E : str_of_Z (Z.of_N n) = str_of_N n) by (destruct n; reflexivity).
  rewrite E. pose proof (str_of_N_digits n) as D. pose proof (str_of_N_nonempty n) as NE.
  set (w := str_of_N n) in *. clearbody w. split; [discriminate|].
  intros p t Ht. exists [(1, w)]. unfold match_at.
  assert (EM : m r_distribution (mkst p (("d" :: w) ++ t) []) Some = Some (mkst (rev ("d" :: w) ++ p) t [(1, w)])).
  { unfold r_distribution.
    assert (E1 : m (RCat (RSet (cs [(100, 100); (68, 68); (68, 68); (100, 100)]%N)) (RGrp 1 r_dig)) (mkst p (("d" :: w) ++ t) []) Some
      = Some (mkst (rev ("d" :: w) ++ p) t [(1, w)])).
    { cbn [app]. rewrite m_catE, m_setE by reflexivity. rewrite m_grp.
      apply (m_plus_run _ cs_dig _ w [] t); auto.
      - rewrite app_nil_r. now apply allc_dig.
      - now apply bnd_out.
      - rewrite (addcap_app 1). f_equal. f_equal. cbn [rev]. now rewrite <- app_assoc.
      - intros v1 v2 EV HV. destruct v1; [congruence|discriminate]. }
    cbn [m] in E1 |- *. now rewrite E1. }
  cbn [app] in *. rewrite EM. cbn [rest caps]. f_equal. f_equal. exact (firstn_text ("d" :: w) t).
Qed.

Theorem tuple_distribution_rt l : Forall (fun n => (n <= 9)%N) l ->
  let vs := map (fun n => IVal (Z.of_N n)) l in
  tuple_from_mcnp pat_distribution distribution_from_mcnp (tuple_to_mcnp distribution_to_mcnp vs) = Ok vs /\
  tuple_from_mcnp pat_distribution distribution_from_mcnp (spaced (map distribution_to_mcnp vs)) = Ok vs.
Proof.
  intros H vs. rewrite Forall_forall in H. apply tuple_rt_gen; rewrite distribution_pat.
  - split; intros; reflexivity.
  - intros v Hv. unfold vs in Hv. apply in_map_iff in Hv as (n & <- & Hn). apply H in Hn.
    split; [apply reads_distribution|now apply distribution_rt].
Qed.

(** * Nothing is skipped when the elements are words (C13) *)

Lemma span_nospace (s : str) : exists w t, s = w ++ t /\ nospace w /\ (t = [] \/ exists c t', t = c :: t' /\ is_space c = true).
Proof.
  induction s as [|c s (w & t & -> & HW & HT)].
  - exists [], []. repeat split; auto. constructor.
  - destruct (is_space c) eqn:E.
    + exists [], (c :: w ++ t). repeat split; [constructor|]. right; eauto.
    + exists (c :: w), t. repeat split; auto. constructor; [now rewrite E|auto].
Qed.

Lemma search_S s : forall p,
  (allc is_space s /\ search r_S p s = None) \/
  exists a w t p' c, s = a ++ w ++ t /\ allc is_space a /\ w <> [] /\ nospace w /\
    search r_S p s = Some {| mpre := p'; mtext := w; mrest := t; mcaps := c |}.
Proof.
  induction s as [|c s IH]; intros p.
  - left. split; [constructor|reflexivity].
  - destruct (is_space c) eqn:E.
    + assert (N : match_at r_S p (c :: s) = None).
      { unfold match_at, r_S. cbn [m need rest]. now rewrite inset_S, E. }
      cbn [search]. rewrite N. destruct (IH (c :: p)) as [[A B]|(a & w & t & p' & k & -> & A & NW & HW & B)].
      * left. split; auto. constructor; auto.
      * right. exists (c :: a), w, t, p', k. repeat split; auto. constructor; auto.
    + right. destruct (span_nospace s) as (w & t & -> & HW & HT).
      exists [], (c :: w), t, p, []. 
      assert (NW : nospace (c :: w)) by (constructor; [now rewrite E|auto]).
      repeat split; auto; [constructor|discriminate|].
      assert (EM : m r_S (mkst p ((c :: w) ++ [] ++ t) []) Some = Some (mkst (rev (c :: w) ++ p) t [])).
      { apply m_plus_run; auto; [discriminate| | |].
        - rewrite app_nil_r. now apply allc_S.
        - destruct HT as [->|(x & t' & -> & Hx)]; [now left|right]. exists x, t'. split; auto.
          now rewrite inset_S, Hx.
        - intros v1 v2 EV HV. destruct v1; [congruence|discriminate]. }
      cbn [search]. unfold match_at. cbn [app] in EM |- *. rewrite EM. cbn [rest caps].
      f_equal. f_equal. exact (firstn_text (c :: w) t).
Qed.

Lemma filter_space a : allc is_space a -> filter (fun c => negb (is_space c)) a = [].
Proof. induction 1; cbn [filter]; auto. now rewrite H. Qed.
Lemma filter_nospace a : nospace a -> filter (fun c => negb (is_space c)) a = a.
Proof. induction 1; cbn [filter]; auto. now rewrite H, IHForall. Qed.

Theorem tuple_string_complete s l :
  tuple_from_mcnp pat_string string_from_mcnp s = Ok l ->
  concat l = filter (fun c => negb (is_space c)) s.
Proof.
  unfold tuple_from_mcnp. rewrite string_pat. unfold string_from_mcnp.
  assert (HM : forall os : list mobj, mapM (fun o => Ok (mtext o)) os = Ok (map mtext os)).
  { intros os. apply mapM_ok. auto. }
  rewrite HM. intros [= <-]. unfold finditer.
  assert (G : forall fuel s p, length s < fuel ->
    concat (map mtext (finditer_f fuel r_S p s)) = filter (fun c => negb (is_space c)) s).
  { clear s. induction fuel as [|f IH]; intros s p HL; [lia|]. cbn [finditer_f].
    destruct (search_S s p) as [[A B]|(a & w & t & p' & k & -> & A & NW & HW & B)]; rewrite B.
    - cbn. symmetry. now apply filter_space.
    - cbn [mtext mrest mpre]. destruct w as [|c w]; [congruence|].
      cbn [map concat mtext]. rewrite IH.
      + rewrite !filter_app, (filter_space a A). rewrite (filter_nospace (c :: w) HW). reflexivity.
      + rewrite !app_length in HL. cbn [length] in HL. lia. }
  apply G. lia.
Qed.

Lemma string_never_fails s : exists l, tuple_from_mcnp pat_string string_from_mcnp s = Ok l.
Proof. unfold tuple_from_mcnp, string_from_mcnp. eexists. apply mapM_ok. auto. Qed.
