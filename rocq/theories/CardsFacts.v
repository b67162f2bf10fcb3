(** Matching the regular form: words, fields, captures. *)

From Coq Require Import Ascii String NArith ZArith Bool Arith List Lia.
From Verif Require Import PyStr Regex RegexParse RegexFacts RegexLang PyNum Types TypesSpec TypesFacts TypesFacts2 TypesFacts3 TypesFacts4 SubFacts CardText CardTextSpec Cards CardsSpec.
Import ListNotations.
Open Scope char_scope.
Open Scope list_scope.

(** * Shifting group numbers *)

Lemma plain_shift k r : plain (shift k r) = plain r.
Proof. induction r; simpl; auto; try congruence. Qed.
Lemma nocap_shift k r : nocap (shift k r) = nocap r.
Proof. induction r; simpl; auto; try congruence. Qed.
Lemma alpha_shift k r c : alpha (shift k r) c = alpha r c.
Proof. induction r; simpl; auto; try congruence. Qed.

Lemma progress_caps p t c p' t' c' d d' : progress (mkst p t c) (mkst p' t' c') = progress (mkst p t d) (mkst p' t' d').
Proof. reflexivity. Qed.

(** Captures do not influence what is matched. *)
Lemma M_shift k r : forall s s', M r s s' -> forall cp, exists cp',
  M (shift k r) (mkst (pre s) (rest s) cp) (mkst (pre s') (rest s') cp').
Proof.
  induction r; simpl; intros s s' H cp.
  - subst. eauto.
  - destruct H as (x & t & E & I & ->). exists cp. exists x, t. simpl. auto.
  - destruct H as (s1 & H1 & H2). destruct (IHr1 _ _ H1 cp) as (c1 & A). destruct (IHr2 _ _ H2 c1) as (c2 & B).
    exists c2. eexists. split; eauto.
  - destruct H as [H|H]; [destruct (IHr1 _ _ H cp) as (c & A)|destruct (IHr2 _ _ H cp) as (c & A)]; eauto.
  - assert (HL : forall b s s', loopR (M r) b s s' -> forall cp, exists cp',
        loopR (M (shift k r)) b (mkst (pre s) (rest s) cp) (mkst (pre s') (rest s') cp')).
    { intros b s0 s0' HL; induction HL as [b s0|b s0 s1 Z HM P|b s0 s1 s2 Z HM P HL IHL]; intros c0.
      - exists c0. constructor.
      - destruct (IHr _ _ HM c0) as (c1 & A). exists c1. apply L_zero; auto.
      - destruct (IHr _ _ HM c0) as (c1 & A). destruct (IHL c1) as (c2 & B). exists c2. eapply L_step; eauto. }
    clear - H HL IHr. revert s cp H. generalize (maxleft mn mx) as b. intros b.
    induction mn as [|n IHn]; intros s cp H; cbn [needR] in *.
    + now apply HL.
    + destruct H as (s1 & H1 & H2). destruct (IHr _ _ H1 cp) as (c1 & A). destruct (IHn _ c1 H2) as (c2 & B).
      exists c2. eexists. split; eauto.
  - destruct H as (s1 & H1 & ->). destruct (IHr _ _ H1 cp) as (c1 & A). eexists. eexists. split; [exact A|]. reflexivity.
  - destruct H as [H ->]. eauto.
  - destruct H as [H ->]. eauto.
  - destruct H as [H ->]. eauto.
Qed.

(** Group numbers. *)
Fixpoint groups_above (g : nat) (r : re) : bool :=
  match r with
  | RCat a b | RAlt a b => groups_above g a && groups_above g b
  | RRep _ _ _ a => groups_above g a
  | RGrp n a => Nat.ltb g n && groups_above g a
  | _ => true
  end.
Definition above (g : nat) (c : capl) : Prop := Forall (fun x => g < fst x) c.

Lemma above_app g c d : above g (c ++ d) <-> above g c /\ above g d.
Proof. apply Forall_app. Qed.

Lemma above_nil g : above g [].
Proof. apply Forall_nil. Qed.
Lemma W_above g r : groups_above g r = true -> forall u c, W r u c -> above g c.
Proof.
  induction r; cbn [groups_above W]; intros G u c H; try apply andb_prop in G as [G1 G2].
  - destruct H as [_ ->]. apply above_nil.
  - destruct H as (x & _ & _ & ->). apply above_nil.
  - destruct H as (u1 & u2 & c1 & c2 & H1 & H2 & _ & ->). apply above_app. eauto.
  - destruct H as [H|H]; eauto.
  - destruct H as (l & HF & _ & _ & _ & ->). clear - HF IHr G. induction HF as [|x l HX HF IH]; [apply above_nil|].
    cbn [map rev]. rewrite concat_app. apply above_app. split; auto. cbn [concat]. rewrite app_nil_r. eauto.
  - destruct H as (c' & H & ->). apply Forall_cons; [simpl; now apply Nat.ltb_lt in G1|]. now apply (IHr G2 u).
  - destruct H.
  - destruct H.
  - destruct H.
Qed.

Lemma groups_shift k r : groups_above 0 r = true -> groups_above k (shift k r) = true.
Proof.
  induction r; simpl; auto; intros H; try (apply andb_prop in H as [H1 H2]; apply andb_true_intro; auto).
  split; auto. apply Nat.ltb_lt in H1. apply Nat.ltb_lt. lia.
Qed.

Lemma lookup_above g c d : above g c -> lookup g (c ++ d) = lookup g d.
Proof.
  induction 1 as [|[i x] c H HF IH]; auto. simpl in *. replace (i =? g)%nat with false; auto. symmetry. apply Nat.eqb_neq. lia.
Qed.
Lemma lookup_above_lt g j c d : above g c -> j <= g -> lookup j (c ++ d) = lookup j d.
Proof.
  intros H. induction H as [|[i x] c H HF IH]; auto. simpl in *. intros HJ.
  replace (i =? j)%nat with false; auto. symmetry. apply Nat.eqb_neq. lia.
Qed.

(** * Matching one word *)

Definition insists {A} (k : st -> option A) : Prop := forall s, k s <> None -> bnd (rest s).

(** [r] matches the word [w] and nothing else when the continuation insists on a
    word boundary; its captures have numbers above [g]. *)
Definition only (g : nat) (r : re) (c : capl) : Prop := above g c /\ (nocap r = true -> c = []).
Lemma only_app g r c d : only g r c -> only g r d -> only g r (c ++ d).
Proof.
  intros [H1 H2] [H3 H4]. split; [now apply above_app|]. intros N. now rewrite H2, H4.
Qed.
Lemma only_nil g r : only g r [].
Proof. split; auto. apply above_nil. Qed.
Lemma W_nocap r : nocap r = true -> forall u c, W r u c -> c = [].
Proof.
  induction r; cbn [nocap W]; intros G u c H; try apply andb_prop in G as [G1 G2].
  - now destruct H as [_ ->].
  - now destruct H as (x & _ & _ & ->).
  - destruct H as (u1 & u2 & c1 & c2 & H1 & H2 & _ & ->). now rewrite (IHr1 G1 _ _ H1), (IHr2 G2 _ _ H2).
  - destruct H as [H|H]; eauto.
  - destruct H as (l & HF & _ & _ & _ & ->). clear - HF IHr G. induction HF as [|x l HX HF IH]; auto.
    cbn [map rev]. rewrite concat_app, IH. cbn [concat app]. rewrite app_nil_r. eauto.
  - discriminate.
  - destruct H.
  - destruct H.
  - destruct H.
Qed.
Lemma W_only g r u c : groups_above g r = true -> W r u c -> only g r c.
Proof. intros G H. split; [eapply W_above; eauto|]. intros N. eapply W_nocap; eauto. Qed.

Definition tok (r : re) (g : nat) (w : str) : Prop :=
  forall A (k : st -> option A) p t cp, bnd t -> insists k ->
  exists c, only g r c /\ m r (mkst p (w ++ t) cp) k = k (mkst (rev w ++ p) t (c ++ cp)).

Lemma tok_reads r g w :
  plain r = true -> alpha r sp = false -> groups_above 0 r = true -> nosp w -> reads_word r w ->
  tok (shift g r) g w.
Proof.
  intros PL AL GR NW [_ HR] A k p t cp Ht HK.
  assert (HM : exists c, M (shift g r) (mkst p (w ++ t) cp) (mkst (rev w ++ p) t c)).
  { destruct (HR p t Ht) as (c & E). unfold match_at in E.
    destruct (m r (mkst p (w ++ t) []) Some) as [s'|] eqn:E'; [|discriminate].
    apply m_sound in E' as (s1 & HM & [= ->]). destruct s' as [q u d]. cbn [rest caps] in E.
    injection E as _ -> _. pose proof HM as HM2. apply M_W in HM2 as (v & c' & _ & A1 & B1 & _); auto.
    cbn [rest pre] in *. apply app_inv_tail in A1. subst v.
    destruct (M_shift g _ _ _ HM cp) as (c2 & X). cbn [pre rest] in X. rewrite B1 in X. eauto. }
  assert (HU : forall s1, M (shift g r) (mkst p (w ++ t) cp) s1 -> k s1 <> None ->
            exists c, only g (shift g r) c /\ s1 = mkst (rev w ++ p) t (c ++ cp)).
  { intros s1 H1 K1. apply M_W in H1 as (v & c & HW & A1 & B1 & C1); [|now rewrite plain_shift].
    cbn [rest pre caps] in *. apply HK in K1.
    destruct (nosp_split w v t (rest s1)) as [-> ->]; auto.
    { eapply allc_nosp; [|eapply W_alpha; exact HW]. now rewrite alpha_shift. }
    exists c. split. { eapply W_only; [|exact HW]. now apply groups_shift. }
    destruct s1 as [q1 u1 d1]; cbn [rest pre caps] in *. congruence. }
  destruct (m (shift g r) (mkst p (w ++ t) cp) k) as [x|] eqn:E.
  - pose proof E as E0. apply m_sound in E0 as (s1 & H1 & K1).
    destruct (HU s1 H1) as (c & HC & ->); [congruence|]. exists c. split; auto.
  - destruct HM as (c & HM). pose proof HM as HM2.
    apply M_W in HM2 as (v & c' & HW & A1 & _ & C1); [|now rewrite plain_shift].
    cbn [rest caps] in *. exists c'. split. { eapply W_only; [|exact HW]. now apply groups_shift. }
    rewrite <- C1. destruct (k (mkst (rev w ++ p) t c)) eqn:EK; auto.
    exfalso. revert E. apply (m_complete _ _ _ _ _ HM). congruence.
Qed.

Lemma m_sp A t p cp (k : st -> option A) : m (chr_re sp) (mkst p (sp :: t) cp) k = k (mkst (sp :: p) t cp).
Proof. reflexivity. Qed.
Lemma m_sp_end A p cp (k : st -> option A) : m (chr_re sp) (mkst p [] cp) k = None.
Proof. reflexivity. Qed.

(** A field group starts with a blank. *)
Lemma m_sp_bnd A s (k : st -> option A) : m (chr_re sp) s k <> None -> bnd (rest s).
Proof.
  destruct s as [p [|c t] cp]; cbn [rest]; [now left|]. cbn -[inset]. destruct (inset _ c) eqn:E; [|congruence].
  intros _. right. exists t. f_equal. apply (inset_chr_eq sp). exact E.
Qed.
Lemma m_field_bnd A g a s (k : st -> option A) : m (field_re g a) s k <> None -> bnd (rest s).
Proof. destruct a as [t|t]; cbn [field_re]; rewrite m_grp; intros H; eapply m_sp_bnd; exact H. Qed.

Lemma m_opt_bnd A a s (k : st -> option A) : m (RRep false 0 (Some 1) a) s k <> None ->
  k s <> None \/ exists k' : st -> option A, m a s k' <> None.
Proof.
  cbn [m need maxleft]. cbn [loopg Nat.sub czero cdec pred]. intros H.
  match type of H with match ?x with _ => _ end <> None => destruct x eqn:E end; [|auto].
  right. eexists. rewrite E. discriminate.
Qed.

Lemma m_fields_bnd A l : forall g s (k : st -> option A), m (fields_re g l) s k <> None -> bnd (rest s).
Proof.
  induction l as [|[a o] l IH]; intros g s k H; cbn [fields_re] in H.
  - cbn [m] in H. destruct (rest s); [now left|congruence].
  - rewrite m_catE in H. destruct o; cbn [opt_re] in H.
    + apply m_opt_bnd in H as [H|(k' & H)]; [now apply IH in H|now apply m_field_bnd in H].
    + now apply m_field_bnd in H.
Qed.

(** * Matching fields *)

Lemma addcap_app' g p u t cp p' cp' :
  addcap g (mkst p (u ++ t) cp) (mkst p' t cp') = mkst p' t ((g, u) :: cp').
Proof. unfold addcap. cbn [rest pre caps]. now rewrite firstn_consumed. Qed.

Definition tywords (t : ty) (g : nat) (ws : list str) : Prop := Forall (fun w => tok (shift g (ty_re t)) g w) ws.

Lemma m_one A g t w u p cp (k : st -> option A) : tok (shift g (ty_re t)) g w -> bnd u -> insists k ->
  exists c, only g (shift g (ty_re t)) c /\
  m (field_re g (One t)) (mkst p ((sp :: w) ++ u) cp) k = k (mkst (rev (sp :: w) ++ p) u ((g, sp :: w) :: c ++ cp)).
Proof.
  intros HT Hu HK. cbn [field_re]. rewrite m_grp, m_catE. change ((sp :: w) ++ u) with (sp :: w ++ u). rewrite m_sp.
  set (s0 := mkst p (sp :: w ++ u) cp).
  destruct (HT A (fun s' => k (addcap g s0 s')) (sp :: p) u cp Hu) as (c & HC & E).
  { intros s Hs. apply HK in Hs. exact Hs. }
  exists c. split; auto. rewrite E. f_equal. unfold s0. change (sp :: w ++ u) with ((sp :: w) ++ u).
  rewrite addcap_app'. cbn [rev]. now rewrite <- app_assoc.
Qed.

(** Lazily matched words up to the end of the text. *)
Lemma m_words A g t ws : forall w p cp (k : st -> option A), tywords t g (w :: ws) -> (forall s, k s <> None -> rest s = []) ->
  exists c, only g (shift g (ty_re t)) c /\
  m (RRep true 1 None (RCat (chr_re sp) (shift g (ty_re t)))) (mkst p (spaced (w :: ws)) cp) k
  = k (mkst (rev (spaced (w :: ws)) ++ p) [] (c ++ cp)).
Proof.
  set (R := RCat (chr_re sp) (shift g (ty_re t))).
  intros w p cp k HW HK.
  assert (HB : forall f s, loopl (fun s k => m R s k) k f None s <> None -> bnd (rest s)).
  { intros [|f] s; cbn [loopl czero cdec].
    - intros H. left. now apply HK.
    - destruct (k s) eqn:E; [intros _; left; apply HK; congruence|].
      unfold R. rewrite m_catE. apply m_sp_bnd. }
  assert (HL : forall ws p cp f, tywords t g ws -> length (spaced ws) <= f ->
    exists c, only g (shift g (ty_re t)) c /\ loopl (fun s k => m R s k) k f None (mkst p (spaced ws) cp) = k (mkst (rev (spaced ws) ++ p) [] (c ++ cp))).
  { clear w ws p cp HW. induction ws as [|w ws IH]; intros p cp f HW HF.
    - exists []. split; [apply only_nil|]. destruct f; cbn [loopl czero cdec spaced map concat rev app]; auto.
      change (spaced []) with (@nil ascii). destruct (k (mkst p [] cp)) eqn:E; auto.
    - inversion HW as [|? ? H1 H2]; subst. change (spaced (w :: ws)) with (sp :: w ++ spaced ws) in *.
      destruct f as [|f]; [simpl in HF; lia|]. cbn [loopl czero cdec].
      destruct (k (mkst p (sp :: w ++ spaced ws) cp)) eqn:EK.
      { assert (X : rest (mkst p (sp :: w ++ spaced ws) cp) = []) by (apply HK; congruence). discriminate. }
      unfold R at 1. rewrite m_catE, m_sp. set (s0 := mkst p (sp :: w ++ spaced ws) cp).
      destruct (H1 A (fun s' => if progress s0 s' then loopl (fun s k => m R s k) k f None s' else k s') (sp :: p) (spaced ws) cp (bnd_spaced ws)) as (c1 & HC1 & E1).
      { intros s Hs. destruct (progress s0 s); [now apply HB in Hs|left; now apply HK]. }
      rewrite E1. replace (progress s0 _) with true.
      2:{ symmetry. unfold s0. change (sp :: w ++ spaced ws) with ((sp :: w) ++ spaced ws). apply progress_app. discriminate. }
      destruct (IH (rev w ++ sp :: p) (c1 ++ cp) f H2) as (c2 & HC2 & E2).
      { simpl in HF. rewrite app_length in HF. lia. }
      exists (c2 ++ c1). split; [now apply only_app|]. rewrite E2. f_equal.
      cbn [rev]. rewrite rev_app_distr, <- !app_assoc. reflexivity. }
  inversion HW as [|? ? H1 H2]; subst. cbn [m need maxleft]. fold R. unfold R at 1. rewrite m_catE.
  change (spaced (w :: ws)) with (sp :: w ++ spaced ws). rewrite m_sp.
  destruct (H1 A (fun s' => loopl (fun s k => m R s k) k (S (length (rest s'))) None s') (sp :: p) (spaced ws) cp (bnd_spaced ws)) as (c1 & HC1 & E1).
  { intros s. apply HB. }
  rewrite E1. cbn [rest].
  destruct (HL ws (rev w ++ sp :: p) (c1 ++ cp) (S (length (spaced ws))) H2) as (c2 & HC2 & E2); [lia|].
  exists (c2 ++ c1). split; [now apply only_app|]. rewrite E2. f_equal.
  cbn [rev]. rewrite rev_app_distr, <- !app_assoc. reflexivity.
Qed.

Lemma m_tup A g t w ws p cp (k : st -> option A) : tywords t g (w :: ws) -> (forall s, k s <> None -> rest s = []) ->
  exists c, only g (shift g (ty_re t)) c /\
  m (field_re g (Tup t)) (mkst p (spaced (w :: ws)) cp) k
  = k (mkst (rev (spaced (w :: ws)) ++ p) [] ((g, spaced (w :: ws)) :: c ++ cp)).
Proof.
  intros HW HK. cbn [field_re]. rewrite m_grp. set (s0 := mkst p (spaced (w :: ws)) cp).
  destruct (m_words A g t ws w p cp (fun s' => k (addcap g s0 s'))) as (c & HC & E); auto.
  { intros s Hs. apply HK in Hs. exact Hs. }
  exists c. split; auto. unfold s0 at 1. rewrite E. f_equal. unfold s0.
  pose proof (addcap_app' g p (spaced (w :: ws)) [] cp (rev (spaced (w :: ws)) ++ p) (c ++ cp)) as X.
  rewrite app_nil_r in X. exact X.
Qed.

(** The words of a field value. *)
Definition fwords (a : aty) (v : val) : list str :=
  match a, v with
  | Tup _, VTup l => map write l
  | _, _ => [write v]
  end.
Definition ftext (a : aty) (v : val) : str := spaced (fwords a v).

(** Fields whose values' words are read by their types. *)
Definition field_good (g : nat) (a : aty) (v : val) : Prop :=
  fwords a v <> [] /\ tywords (ty_of a) g (fwords a v) /\
  match a with Tup _ => exists l, v = VTup l | _ => True end.

Fixpoint all_words (l : list (aty * bool)) (vs : list (option val)) : list str :=
  match l, vs with
  | (a, _) :: l', Some v :: vs' => fwords a v ++ all_words l' vs'
  | _, _ => []
  end.

Fixpoint fields_good (g : nat) (l : list (aty * bool)) (vs : list (option val)) : Prop :=
  match l, vs with
  | [], [] => True
  | (a, o) :: l', Some v :: vs' => field_good g a v /\ fields_good (S g) l' vs'
  | _, None :: vs' => Forall (fun x => snd x = true) l /\ Forall (fun v => v = None) vs' /\ S (length vs') = length l
  | _, _ => False
  end.

Lemma m_fields_none A l : forall g p cp (k : st -> option A), Forall (fun x => snd x = true) l ->
  m (fields_re g l) (mkst p [] cp) k = k (mkst p [] cp).
Proof.
  induction l as [|[a o] l IH]; intros g p cp k HF; [reflexivity|].
  inversion HF as [|? ? E HF']; subst. cbn in E. subst o. cbn [fields_re opt_re]. rewrite m_catE.
  cbn [m need maxleft]. cbn [loopg Nat.sub czero cdec pred rest length].
  match goal with |- match ?x with _ => _ end = _ => replace x with (@None A); [now apply IH|] end.
  symmetry. destruct a; reflexivity.
Qed.

Lemma spaced_app a b : spaced (a ++ b) = spaced a ++ spaced b.
Proof. unfold spaced. now rewrite map_app, concat_app. Qed.


Lemma m_ext A r : forall s (k k' : st -> option A), (forall s1, k s1 = k' s1) -> m r s k = m r s k'.
Proof.
  assert (HG : forall (body : st -> (st -> option A) -> option A) (k k' : st -> option A),
    (forall s q q', (forall s1, q s1 = q' s1) -> body s q = body s q') -> (forall s1, k s1 = k' s1) ->
    (forall f c s, loopg body k f c s = loopg body k' f c s) /\ (forall f c s, loopl body k f c s = loopl body k' f c s)).
  { intros body k k' HB HK. split; induction f as [|f IH]; intros c s; cbn [loopg loopl]; auto; rewrite HK; destruct (czero c); auto.
    - erewrite HB; [reflexivity|]. intros s1. cbv beta. destruct (progress s s1); auto.
    - destruct (k' s); [reflexivity|]. apply HB. intros s1. cbv beta. destruct (progress s s1); auto. }
  induction r; intros s k k' HK; cbn [m]; [now apply HK|..].
  - destruct (rest s) as [|c t]; auto. destruct (inset cs c); auto.
  - apply IHr1. intros s1. now apply IHr2.
  - rewrite (IHr1 s k k' HK), (IHr2 s k k' HK). reflexivity.
  - destruct (HG (fun s k => m r s k) k k' (fun s q q' H => IHr s q q' H) HK) as [G1 G2].
    generalize (maxleft mn mx) as b. intros b. revert s. induction mn as [|n IHn]; intros s; cbn [need].
    + destruct lazy; auto.
    + apply IHr. intros s1. apply IHn.
  - apply IHr. intros s1. apply HK.
  - destruct (pre s); auto.
  - destruct (rest s); auto.
  - match goal with |- (if ?b then _ else _) = _ => destruct b; auto end.
Qed.

Lemma m_optE A a s (k : st -> option A) :
  m (RRep false 0 (Some 1) a) s k = match m a s k with Some x => Some x | None => k s end.
Proof.
  cbn [m need maxleft]. cbn [loopg Nat.sub czero cdec pred].
  match goal with |- match ?x with _ => _ end = _ => replace x with (m a s k); auto end.
  apply m_ext. intros s1. destruct (progress s s1); auto. destruct (length (rest s)); reflexivity.
Qed.

(** Fields match their words; group [g + j] holds the text of field [j]. *)
Lemma m_fields l : forall g vs p cp, fields_ok l = true -> fields_good g l vs ->
  exists p' cs, m (fields_re g l) (mkst p (spaced (all_words l vs)) cp) Some = Some (mkst p' [] (cs ++ cp)) /\
    Forall (fun x => g <= fst x) cs /\
    forall j a, nth_error (map fst l) j = Some a ->
      lookup (g + j) (cs ++ cp) = match nth j vs None with Some v => Some (ftext a v) | None => lookup (g + j) cp end.
Proof.
  induction l as [|[a o] l IH]; intros g vs p cp HO HG.
  - destruct vs as [|[v|] vs]; cbn [fields_good] in HG.
    + exists p, []. cbn. repeat split; auto. intros [|j] a; discriminate.
    + destruct HG.
    + destruct HG as (_ & _ & HG). discriminate.
  - destruct vs as [|[v|] vs]; cbn [fields_good] in HG; [destruct HG| |].
    + destruct HG as [(HN & HT & HS) HG]. cbn [all_words]. rewrite spaced_app. fold (ftext a v).
      (* the continuation accepts the remaining words *)
      assert (HA : exists c, only g (shift g (ty_re (ty_of a))) c /\
          m (field_re g a) (mkst p (ftext a v ++ spaced (all_words l vs)) cp) (fun s' => m (fields_re (S g) l) s' Some)
          = m (fields_re (S g) l) (mkst (rev (ftext a v) ++ p) (spaced (all_words l vs)) ((g, ftext a v) :: c ++ cp)) Some).
      { destruct a as [t|t].
        - unfold ftext. cbn [fwords ty_of] in *. inversion HT as [|? ? HT1 _]; subst.
          change (spaced [write v]) with (sp :: write v ++ []). rewrite app_nil_r.
          apply m_one; auto. apply bnd_spaced. intros s Hs. now apply m_fields_bnd in Hs.
        - destruct HS as (lv & ->). destruct l as [|b l]; [|discriminate HO].
          assert (vs = []) as ->.
          { destruct vs as [|[v'|] vs]; cbn [fields_good] in HG; auto; [destruct HG|]. destruct HG as (_ & _ & HG). discriminate. }
          cbn [all_words]. change (spaced []) with (@nil ascii). rewrite app_nil_r.
          unfold ftext. cbn [fwords ty_of] in *. destruct (map write lv) as [|w ws]; [congruence|].
          apply m_tup; auto. intros s. cbn [fields_re m]. destruct (rest s); congruence. }
      destruct HA as (c & HC & E).
      destruct (IH (S g) vs (rev (ftext a v) ++ p) ((g, ftext a v) :: c ++ cp)) as (p' & cs & E2 & HF & HL); auto.
      { destruct l as [|b l]; auto. destruct a; [|discriminate HO]. cbn [fields_ok] in HO.
        destruct l; apply andb_prop in HO as [_ HO]; exact HO. }
      exists p', (cs ++ (g, ftext a v) :: c). rewrite <- app_assoc. cbn [app]. split; [|split].
      * cbn [fields_re]. rewrite m_catE. rewrite E2 in E.
        destruct o; cbn [opt_re]; [rewrite m_optE, E|]; auto.
      * apply Forall_app. split. { eapply Forall_impl; [|exact HF]. cbn. intros; lia. }
        constructor; cbn; auto. eapply Forall_impl; [|exact (proj1 HC)]. cbn. intros; lia.
      * intros [|j] a' HJ; cbn [nth].
        -- cbn in HJ. injection HJ as <-. rewrite Nat.add_0_r.
           rewrite (lookup_above g cs). { cbn. now rewrite Nat.eqb_refl. }
           eapply Forall_impl; [|exact HF]. cbn. intros; lia.
        -- cbn in HJ. replace (g + S j) with (S g + j) by lia. rewrite (HL j a' HJ).
           destruct (nth j vs None); auto. cbn.
           replace (Nat.eqb g (S (g + j))) with false by (symmetry; apply Nat.eqb_neq; lia).
           destruct l as [|b l]; [destruct j; discriminate HJ|].
           destruct a as [t|t]; [|discriminate HO].
           replace c with (@nil (nat * str)); auto. symmetry. apply (proj2 HC). rewrite nocap_shift.
           assert (HN2 : has_groups t = false /\ word_ty t = true).
           { cbn [fields_ok] in HO. apply andb_prop in HO as [HO _]. apply andb_prop in HO as [HO1 HO].
             now apply negb_true_iff in HO. }
           destruct HN2 as [HN2 HN3]. destruct t; try discriminate; reflexivity.
    + destruct HG as (H1 & H2 & H3). exists p, []. cbn [all_words]. change (spaced []) with (@nil ascii).
      rewrite m_fields_none by auto. split; auto. split; auto. intros j a' HJ. cbn [app].
      replace (nth j (None :: vs) None) with (@None val); auto. symmetry.
      destruct j as [|j]; auto. cbn [nth]. clear - H2. revert j. induction H2 as [|x vs -> H2 IH]; intros [|j]; cbn; auto.
Qed.

