(** Lemmas about the MESHTAL reader and writer. *)

From Coq Require Import Ascii String NArith ZArith Bool Arith List Lia.
From Verif Require Import PyStr Regex RegexParse RegexFacts RegexLang PyNum PyNumFacts Types TypesSpec TypesFacts TypesFacts2 TypesFacts3 TypesFacts4 SubFacts CardsFacts CardsFacts2 CardsFacts7 GeometryFacts3 PtracSpec PtracFacts PtracFacts2 PtracFacts3 PtracFacts4 PtracFacts5 Meshtal MeshtalSpec.
Import ListNotations.
Open Scope char_scope.

(** ** Running cells *)

Lemma notin_notnl s : ~ In nl s <-> allc notnl s.
Proof.
  unfold allc. rewrite Forall_forall. split; intros H.
  - intros x I. unfold notnl, ceqb. destruct (Ascii.eqb_spec x nl); auto. subst. contradiction.
  - intros I. apply H in I. discriminate.
Qed.

Lemma m_run {A} w u t p cp (k : st -> option A) : length u = w -> allc notnl u ->
  m (run w) (mkst p (u ++ t) cp) k = k (mkst (rev u ++ p) t cp).
Proof.
  intros HL HN. apply m_pre; [reflexivity|reflexivity|now apply accc_run|].
  intros u' t' c HW E. apply W_run in HW as (HL' & _). symmetry. apply (app_inj_len u t u' t'); congruence.
Qed.
Lemma m_cell {A} i w u t p cp (k : st -> option A) : length u = w -> allc notnl u ->
  m (cell i w) (mkst p (u ++ t) cp) k = k (mkst (rev u ++ p) t ((i, u) :: cp)).
Proof.
  intros HL HN. unfold cell. cbn [m]. change (m (run w) (mkst p (u ++ t) cp) (fun s' => k (addcap i (mkst p (u ++ t) cp) s')) = k (mkst (rev u ++ p) t ((i, u) :: cp))).
  rewrite m_run by auto. unfold addcap. cbn [pre rest caps]. now rewrite firstn_consumed.
Qed.

Definition lend (t : str) : Prop := t = [] \/ exists t', t = nl :: t'.
Lemma short_field w u v t t' : length u = w -> allc notnl u -> allc notnl v -> length v < w -> lend t -> v ++ t = u ++ t' -> False.
Proof.
  intros HL NU NV HS HT E.
  assert (H : forall (v u : str), allc notnl u -> length v < length u -> v ++ t = u ++ t' -> False).
  { clear - HT. induction v as [|x v IH]; intros u NU HS E.
    - destruct u as [|y u]; [cbn in HS; lia|]. destruct HT as [->|[t1 ->]]; [discriminate|].
      cbn in E. injection E as <- _. inversion NU; subst. discriminate.
    - destruct u as [|y u]; [cbn in HS; lia|]. cbn in E, HS. injection E as <- E. inversion NU; subst. apply (IH u); auto; lia. }
  apply (H v u); auto. lia.
Qed.
Lemma m_cell_short {A} i w v t p cp (k : st -> option A) : allc notnl v -> length v < w -> lend t ->
  m (cell i w) (mkst p (v ++ t) cp) k = None.
Proof.
  intros NV HS HT. apply m_none. intros s' HM.
  apply (M_W (cell i w) eq_refl) in HM as (u & c & HW & E & _). apply W_cell in HW as (HL & NU & _). cbn [rest] in E.
  exfalso. exact (short_field w u v t (rest s') HL NU NV HS HT E).
Qed.

Lemma m_opt {A} r s (k : st -> option A) : m (opt r) s k = orelse (m r s k) (k s).
Proof.
  unfold opt. cbn [m need]. cbn [loopg maxleft Nat.sub czero].
  rewrite (m_ext A r s _ k); [unfold orelse; now destruct (m r s k)|].
  intros s1. destruct (progress s s1); [|reflexivity]. destruct (length (rest s)); reflexivity.
Qed.

(** ** Lines *)

Definition r_tail : re := RCat (cell 6 12) (RCat (cell 7 12) (opt (RSet cs_nl))).
Definition r_tally : re :=
  RCat (RSet (cs_chr 32)) (RCat (RSet (cs_chr 32)) (RCat (opt (cell 1 9)) (RCat (opt (cell 2 11)) (RCat (opt (cell 3 9))
    (RCat (opt (cell 4 10)) (RCat (opt (cell 5 10)) r_tail)))))).
Lemma re_tally_eq : re_tally = whole r_tally.
Proof. vm_compute. reflexivity. Qed.
Lemma re_tally_inner : compile true (slice 2 2 pat_tally) = r_tally.
Proof. vm_compute. reflexivity. Qed.

Section Tail.
  Context {A : Type} (r : re) (k : st -> option A).
  Definition rt : re := RCat (cell 6 12) (RCat (cell 7 12) r).
  Lemma tail_hit a b t p cp : length a = 12 -> length b = 12 -> allc notnl a -> allc notnl b ->
    m rt (mkst p (a ++ b ++ t) cp) k = m r (mkst (rev b ++ rev a ++ p) t ((7, b) :: (6, a) :: cp)) k.
  Proof. intros LA LB NA NB. unfold rt. cbn [m]. fold (@m A). rewrite m_cell by auto. now rewrite m_cell by auto. Qed.
  Lemma tail_short v t p cp : length v < 24 -> allc notnl v -> lend t -> m rt (mkst p (v ++ t) cp) k = None.
  Proof.
    intros HL NV HT. unfold rt. cbn [m]. destruct (Nat.lt_ge_cases (length v) 12) as [H|H]; [now apply m_cell_short|].
    rewrite <- (firstn_skipn 12 v) in *. apply allc_app in NV as [N1 N2]. rewrite app_length in HL.
    assert (L1 : length (firstn 12 v) = 12) by (rewrite firstn_length; rewrite firstn_skipn in H; lia).
    rewrite <- app_assoc. rewrite m_cell by auto. apply m_cell_short; auto. lia.
  Qed.

  (** An optional column that would leave too little for the rest is not taken. *)
  Lemma opt_leave i w q v t p cp : length v < w + 24 -> allc notnl v -> lend t ->
    (forall v' p' cp', length v' < 24 -> allc notnl v' -> m q (mkst p' (v' ++ t) cp') k = None) ->
    m (RCat (opt (cell i w)) q) (mkst p (v ++ t) cp) k = m q (mkst p (v ++ t) cp) k.
  Proof.
    intros HL NV HT HQ. cbn [m]. fold (@m A). change (m (opt (cell i w)) (mkst p (v ++ t) cp) (fun s' => m q s' k) = m q (mkst p (v ++ t) cp) k).
    rewrite m_opt. destruct (Nat.lt_ge_cases (length v) w) as [H|H].
    - rewrite m_cell_short by auto. reflexivity.
    - rewrite <- (firstn_skipn w v) at 1. rewrite <- (firstn_skipn w v) in HL, NV. apply allc_app in NV as [N1 N2].
      assert (L1 : length (firstn w v) = w) by (rewrite firstn_length; lia).
      rewrite app_length in HL. rewrite <- app_assoc, m_cell by auto. rewrite HQ; [reflexivity|lia|auto].
  Qed.
  Lemma opt_take i w q u t p cp x : length u = w -> allc notnl u ->
    m q (mkst (rev u ++ p) t ((i, u) :: cp)) k = Some x ->
    m (RCat (opt (cell i w)) q) (mkst p (u ++ t) cp) k = Some x.
  Proof.
    intros HL NU H. cbn [m]. fold (@m A). change (m (opt (cell i w)) (mkst p (u ++ t) cp) (fun s' => m q s' k) = Some x).
    rewrite m_opt, m_cell by auto. rewrite H. reflexivity.
  Qed.
  Definition rt5 : re := RCat (opt (cell 5 10)) rt.
  Definition rt4 : re := RCat (opt (cell 4 10)) rt5.
  Lemma rt5_short v t p cp : length v < 24 -> allc notnl v -> lend t -> m rt5 (mkst p (v ++ t) cp) k = None.
  Proof.
    intros HL NV HT. unfold rt5. rewrite opt_leave; auto; [now apply tail_short|lia|]. intros. now apply tail_short.
  Qed.
  Lemma rt5_last v t p cp : length v = 24 -> allc notnl v -> lend t -> m rt5 (mkst p (v ++ t) cp) k = m rt (mkst p (v ++ t) cp) k.
  Proof. intros HL NV HT. unfold rt5. apply opt_leave; auto; [lia|]. intros. now apply tail_short. Qed.
  Lemma rt4_last v t p cp : length v = 24 -> allc notnl v -> lend t -> m rt4 (mkst p (v ++ t) cp) k = m rt (mkst p (v ++ t) cp) k.
  Proof.
    intros HL NV HT. unfold rt4. rewrite opt_leave; auto; [now apply rt5_last|lia|]. intros. now apply rt5_short.
  Qed.

  Definition rrow : re :=
    RCat (RSet (cs_chr 32)) (RCat (RSet (cs_chr 32)) (RCat (opt (cell 1 9)) (RCat (opt (cell 2 11)) (RCat (opt (cell 3 9)) rt4)))).
  (** Coordinates of 49, 39 and 29 characters. *)
  Definition cols (l : list str) (a b : str) (cp : capl) : capl :=
    (7, b) :: (6, a) :: rev (combine (seq 1 (length l)) l) ++ cp.
  Definition widths : list nat := [9; 11; 9; 10; 10].
  Definition is_cols (l : list str) : Prop :=
    3 <= length l <= 5 /\ map (@length ascii) l = firstn (length l) widths /\ Forall (allc notnl) l.
  Lemma row_run l a b t p cp x : is_cols l -> length a = 12 -> length b = 12 -> allc notnl a -> allc notnl b -> lend t ->
    m r (mkst (rev (L "  " ++ concat l ++ a ++ b) ++ p) t (cols l a b cp)) k = Some x ->
    m rrow (mkst p (L "  " ++ concat l ++ a ++ b ++ t) cp) k = Some x.
  Proof.
    intros (HN & HW & HA) LA LB NA NB HT HK.
    assert (N24 : allc notnl (a ++ b)) by (apply allc_app; auto).
    assert (L24 : length (a ++ b) = 24) by (rewrite app_length; lia).
    destruct l as [|c1 [|c2 [|c3 l]]]; cbn [length] in HN; try lia.
    inversion HA as [|? ? A1 HA1]; subst. inversion HA1 as [|? ? A2 HA2]; subst. inversion HA2 as [|? ? A3 HA3]; subst. clear HA HA1 HA2.
    cbn [map length firstn widths] in HW. injection HW as W1 W2 W3 HW.
    assert (E : m rt4 (mkst (rev c3 ++ rev c2 ++ rev c1 ++ [sp; sp] ++ p) (concat l ++ a ++ b ++ t) ((3, c3) :: (2, c2) :: (1, c1) :: cp)) k = Some x).
    { destruct l as [|c4 [|c5 [|c6 l]]]; cbn [length] in HN; try lia; cbn [map length firstn] in HW.
      - cbn [concat app]. rewrite (app_assoc a b t), rt4_last, <- (app_assoc a b t), tail_hit by auto.
        cbn [concat] in HK. rewrite app_nil_r in HK. rewrite !rev_app_distr, <- !app_assoc in HK. exact HK.
      - injection HW as W4. inversion HA3 as [|? ? A4 _]; subst. cbn [concat] in *. rewrite app_nil_r in *. unfold rt4.
        apply opt_take; auto. rewrite (app_assoc a b t), rt5_last, <- (app_assoc a b t), tail_hit by auto.
        rewrite !rev_app_distr, <- !app_assoc in HK. exact HK.
      - injection HW as W4 W5. inversion HA3 as [|? ? A4 HA4]; subst. inversion HA4 as [|? ? A5 _]; subst. cbn [concat] in *. rewrite app_nil_r in *. rewrite <- app_assoc. unfold rt4, rt5.
        apply opt_take; auto. apply opt_take; auto. rewrite tail_hit by auto.
        rewrite !rev_app_distr, <- !app_assoc in HK. exact HK. }
    unfold rrow. cbn [concat]. rewrite <- !app_assoc. cbn [L app list_ascii_of_string]. 
    cbn [m rest]. fold (@m A). cbn [inset]. 
    change (m (RCat (opt (cell 1 9)) (RCat (opt (cell 2 11)) (RCat (opt (cell 3 9)) rt4))) (mkst (sp :: sp :: p) (c1 ++ c2 ++ c3 ++ concat l ++ a ++ b ++ t) cp) k = Some x).
    do 3 (apply opt_take; auto).
  Qed.
End Tail.

Lemma m_opt_nl {A} t p cp (k : st -> option A) :
  m (opt (RSet cs_nl)) (mkst p (nl :: t) cp) k = orelse (k (mkst (nl :: p) t cp)) (k (mkst p (nl :: t) cp)).
Proof. rewrite m_opt. reflexivity. Qed.
Lemma m_opt_nl_end {A} p cp (k : st -> option A) : m (opt (RSet cs_nl)) (mkst p [] cp) k = k (mkst p [] cp).
Proof. rewrite m_opt. reflexivity. Qed.

Definition line_of (l : list str) (a b : str) : str := L "  " ++ concat l ++ a ++ b.
Definition fin (t : str) : Prop := t = [] \/ t = [nl].
Lemma fin_lend t : fin t -> lend t.
Proof. intros [->| ->]; [now left|right; eauto]. Qed.

Lemma tally_match l a b t : is_cols l -> field 12 a -> field 12 b -> fin t ->
  re_match re_tally (line_of l a b ++ t) = Some {| mpre := []; mtext := line_of l a b ++ t; mrest := []; mcaps := cols l a b [] |}.
Proof.
  intros HL [LA NA] [LB NB] HT. rewrite re_tally_eq. unfold re_match, match_at.
  assert (E : m (whole r_tally) (mkst [] (line_of l a b ++ t) []) Some = Some (mkst (rev (line_of l a b ++ t)) [] (cols l a b []))).
  { change (m (rrow (RCat (opt (RSet cs_nl)) REnd)) (mkst [] (line_of l a b ++ t) []) Some = Some (mkst (rev (line_of l a b ++ t)) [] (cols l a b []))).
    unfold line_of. rewrite <- !app_assoc. apply row_run; auto; [now apply fin_lend|].
    match goal with |- m _ (mkst ?p t ?cp) _ = _ => change (m (opt (RSet cs_nl)) (mkst p t cp) (fun s => m REnd s Some) = Some (mkst (rev (L "  " ++ concat l ++ a ++ b ++ t)) [] cp)) end.
    destruct HT as [->| ->].
    - rewrite m_opt_nl_end. cbn [m rest]. rewrite !app_nil_r. reflexivity.
    - rewrite m_opt_nl. cbn [m rest orelse]. f_equal. f_equal. rewrite !app_nil_r. rewrite !rev_app_distr. cbn [rev app]. now rewrite <- !app_assoc. }
  rewrite E. cbn [rest caps length]. rewrite Nat.sub_0_r, firstn_all. reflexivity.
Qed.

Definition cols_value (l : list str) (a b : str) : tally :=
  {| t_energy := nth_error l 0; t_time := nth_error l 1; t_x := nth_error l 2; t_y := nth_error l 3; t_z := nth_error l 4;
     t_result := a; t_error := b |}.
Theorem tally_read l a b t : is_cols l -> field 12 a -> field 12 b -> fin t ->
  tally_from_mcnp (line_of l a b ++ t) = Ok (cols_value l a b).
Proof.
  intros HL FA FB HT. unfold tally_from_mcnp. rewrite tally_match by auto.
  destruct HL as (HN & HW & HA).
  assert (T : forall c : str, length c <> 0 -> truthy (Some c) = Some c) by (intros [|? ?] H; [now elim H|reflexivity]).
  unfold grp, group, cols. cbn [mcaps].
  destruct l as [|c1 [|c2 [|c3 [|c4 [|c5 [|c6 l]]]]]]; cbn [length] in HN; try lia;
    cbn [map length firstn widths] in HW; cbn [length seq combine rev app lookup Nat.eqb cols_value];
    injection HW; intros; rewrite !T by lia; reflexivity.
Qed.
Theorem tally_write l a b : length l <= 5 -> tally_to_mcnp (cols_value l a b) = line_of l a b.
Proof.
  intros H. destruct l as [|c1 [|c2 [|c3 [|c4 [|c5 [|c6 l]]]]]]; cbn [length] in H; try lia;
    unfold tally_to_mcnp, line_of, cols_value; cbn [t_energy t_time t_x t_y t_z t_result t_error nth_error opt_text concat app];
    rewrite ?app_nil_r, <- ?app_assoc; reflexivity.
Qed.

Lemma tally_at l a b t p : is_cols l -> field 12 a -> field 12 b ->
  match_at r_tally p (line_of l a b ++ nl :: t) = Some {| mpre := p; mtext := line_of l a b ++ [nl]; mrest := t; mcaps := cols l a b [] |}.
Proof.
  intros HL [LA NA] [LB NB]. unfold match_at.
  assert (E : m r_tally (mkst p (line_of l a b ++ nl :: t) []) Some = Some (mkst (rev (line_of l a b ++ [nl]) ++ p) t (cols l a b []))).
  { change (m (rrow (opt (RSet cs_nl))) (mkst p (line_of l a b ++ nl :: t) []) Some = Some (mkst (rev (line_of l a b ++ [nl]) ++ p) t (cols l a b []))).
    unfold line_of. rewrite <- !app_assoc. apply row_run; auto; [right; eauto|].
    rewrite m_opt_nl. cbn [orelse]. f_equal. f_equal. rewrite !rev_app_distr. cbn [rev app]. now rewrite <- !app_assoc. }
  rewrite E. cbn [rest caps]. do 2 f_equal.
  change (line_of l a b ++ nl :: t) with (line_of l a b ++ [nl] ++ t). rewrite app_assoc. apply firstn_consumed.
Qed.
Lemma tally_at_end l a b p : is_cols l -> field 12 a -> field 12 b ->
  match_at r_tally p (line_of l a b) = Some {| mpre := p; mtext := line_of l a b; mrest := []; mcaps := cols l a b [] |}.
Proof.
  intros HL [LA NA] [LB NB]. unfold match_at.
  assert (E : m r_tally (mkst p (line_of l a b) []) Some = Some (mkst (rev (line_of l a b) ++ p) [] (cols l a b []))).
  { change (m (rrow (opt (RSet cs_nl))) (mkst p (line_of l a b) []) Some = Some (mkst (rev (line_of l a b) ++ p) [] (cols l a b []))).
    unfold line_of. rewrite <- (app_nil_r b) at 1. apply row_run; auto. now left. }
  rewrite E. cbn [rest caps length]. rewrite Nat.sub_0_r, firstn_all. reflexivity.
Qed.

(** Any accepted line. *)
Theorem tally_rewrite s t : tally_from_mcnp s = Ok t -> s = tally_to_mcnp t \/ s = tally_to_mcnp t ++ [nl].
Proof.
  unfold tally_from_mcnp. rewrite re_tally_eq. destruct (re_match (whole r_tally) s) as [o|] eqn:E; [|discriminate].
  intros [= <-]. destruct (match_whole_inv r_tally s o eq_refl E) as [HT HW].
  clear HT E. destruct o as [op ot orr oc]. cbn [mtext mcaps] in *. unfold r_tally, r_tail in HW.
  destruct HW as (u1 & v1 & c1 & d1 & (x1 & -> & I1 & ->) & HW & -> & ->).
  destruct HW as (u2 & v2 & c2 & d2 & (x2 & -> & I2 & ->) & HW & -> & ->).
  destruct HW as (u3 & v3 & c3 & d3 & H3 & HW & -> & ->). apply W_opt_cell in H3 as (o3 & F3 & -> & ->).
  destruct HW as (u4 & v4 & c4 & d4 & H4 & HW & -> & ->). apply W_opt_cell in H4 as (o4 & F4 & -> & ->).
  destruct HW as (u5 & v5 & c5 & d5 & H5 & HW & -> & ->). apply W_opt_cell in H5 as (o5 & F5 & -> & ->).
  destruct HW as (u6 & v6 & c6 & d6 & H6 & HW & -> & ->). apply W_opt_cell in H6 as (o6 & F6 & -> & ->).
  destruct HW as (u7 & v7 & c7 & d7 & H7 & HW & -> & ->). apply W_opt_cell in H7 as (o7 & F7 & -> & ->).
  destruct HW as (u8 & v8 & c8 & d8 & H8 & HW & -> & ->). apply W_cell in H8 as (L8 & _ & ->).
  destruct HW as (u9 & v9 & c9 & d9 & H9 & HW & -> & ->). apply W_cell in H9 as (L9 & _ & ->).
  assert (D9 : d9 = [] /\ (v9 = [] \/ v9 = [nl])).
  { apply W_opt in HW as [[-> ->]|HW]; [auto|]. apply W_set_nl in HW as [-> ->]. auto. }
  destruct D9 as [-> HV].
  change 32%N with (code sp) in I1, I2. rewrite inset_chr_ceqb in I1, I2. apply ceqb_eq in I1, I2.
  assert (T : forall (w : nat) (c : str), w <> 0 -> field w c -> truthy (Some c) = Some c)
    by (intros w [|? ?] H [H1 _]; [cbn in H1; lia|reflexivity]).
  unfold grp, group. cbn [mcaps].
  assert (EQ : tally_to_mcnp {| t_result := u8; t_error := u9; t_x := o5; t_y := o6; t_z := o7; t_energy := o3; t_time := o4 |} =
    x1 :: x2 :: otext o3 ++ otext o4 ++ otext o5 ++ otext o6 ++ otext o7 ++ u8 ++ u9).
  { cbn in I1, I2. subst x1 x2. reflexivity. }
  match goal with |- _ = tally_to_mcnp ?a \/ _ => replace a with {| t_result := u8; t_error := u9; t_x := o5; t_y := o6; t_z := o7; t_energy := o3; t_time := o4 |} end.
  - rewrite EQ. destruct HV as [->| ->]; [left|right]; cbn [app]; rewrite ?app_nil_r, <- ?app_assoc; reflexivity.
  - clear EQ I1 I2 HV. destruct o3, o4, o5, o6, o7; cbn [ocap app lookup Nat.eqb opt_text ofield] in *;
      repeat match goal with H : field ?w ?c |- context [truthy (Some ?c)] => rewrite (T w c (ltac:(discriminate)) H) end; reflexivity.
Qed.
