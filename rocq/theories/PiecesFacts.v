(** Patterns with a layout. *)

From Coq Require Import Ascii String NArith ZArith Bool Arith List Lia.
From Verif Require Import PyStr Regex RegexParse RegexFacts RegexDer RegexLang PyNum Types CardText Cards Tables Numbered.
From Verif Require Import CardsFacts7 PiecesSpec.
Import ListNotations.

(** Group numbers: all of them, and the outermost. *)
Fixpoint nums (r : re) : list nat :=
  match r with RCat a b | RAlt a b => nums a ++ nums b | RRep _ _ _ a => nums a | RGrp n a => n :: nums a | _ => [] end.
Fixpoint outer (r : re) : list nat :=
  match r with RCat a b | RAlt a b => outer a ++ outer b | RRep _ _ _ a => outer a | RGrp n _ => [n] | _ => [] end.
(** Each group with the outermost group it is in. *)
Fixpoint nest (r : re) : list (nat * nat) :=
  match r with RCat a b | RAlt a b => nest a ++ nest b | RRep _ _ _ a => nest a | RGrp n a => map (fun j => (j, n)) (n :: nums a) | _ => [] end.
Fixpoint ends (r : re) : bool := match r with RCat _ b => ends b | REnd => true | _ => false end.

Lemma ends_M r : ends r = true -> forall s s', M r s s' -> rest s' = [].
Proof.
  induction r; cbn [ends M]; try discriminate; intros H s s' HM.
  - destruct HM as (s1 & _ & HM). eauto.
  - destruct HM as (E & ->). exact E.
Qed.

Lemma inside_left x s t : inside x s -> inside x (s ++ t).
Proof. intros (u & v & ->). exists u, (v ++ t). now rewrite <- !app_assoc. Qed.
Lemma inside_right x s t : inside x t -> inside x (s ++ t).
Proof. intros (u & v & ->). exists (s ++ u), v. now rewrite <- !app_assoc. Qed.

(** Captures are numbered by the groups and lie inside what was read. *)
Definition caps_in (r : re) (u : str) (c : list (nat * str)) : Prop := Forall (fun x => In (fst x) (nums r) /\ inside (snd x) u) c.
Definition read_by (r : re) (s s' : st) : Prop := exists u c, rest s = u ++ rest s' /\ caps s' = c ++ caps s /\ caps_in r u c.
Lemma read_trans r s s1 s2 : read_by r s s1 -> read_by r s1 s2 -> read_by r s s2.
Proof.
  intros (u & c & E1 & E2 & F) (v & d & E3 & E4 & G). exists (u ++ v), (d ++ c). rewrite E1, E3, E4, E2, !app_assoc.
  split; [reflexivity|]. split; [reflexivity|]. apply Forall_app. split; [eapply Forall_impl; [|exact G]|eapply Forall_impl; [|exact F]]; cbn beta.
  - intros x [A B]. split; [exact A|]. now apply inside_right.
  - intros x [A B]. split; [exact A|]. now apply inside_left.
Qed.
Lemma read_refl r s : read_by r s s.
Proof. exists [], []. split; [reflexivity|]. split; [reflexivity|constructor]. Qed.
Lemma read_more r q s s' : incl (nums r) (nums q) -> read_by r s s' -> read_by q s s'.
Proof. intros I (u & c & E1 & E2 & F). exists u, c. split; [exact E1|]. split; [exact E2|]. eapply Forall_impl; [|exact F]. intros x [A B]. auto. Qed.
Lemma M_read r : forall s s', M r s s' -> read_by r s s'.
Proof.
  induction r; cbn [M]; intros s s' H.
  - subst. apply read_refl.
  - destruct H as (x & t & E & _ & ->). exists [x], []. cbn [rest caps]. split; [exact E|]. split; [reflexivity|constructor].
  - destruct H as (s1 & H1 & H2). apply (read_trans _ _ s1).
    + apply (read_more r1); [apply incl_appl, incl_refl|auto].
    + apply (read_more r2); [apply incl_appr, incl_refl|auto].
  - destruct H as [H|H]; [apply (read_more r1); [apply incl_appl, incl_refl|auto]|apply (read_more r2); [apply incl_appr, incl_refl|auto]].
  - apply (read_more r); [apply incl_refl|]. revert H. generalize (maxleft mn mx). intros b. revert s. induction mn as [|n IH]; cbn [needR]; intros s H.
    + induction H as [b s|b s s1 Z HM P|b s s1 s2 Z HM P HL IHL]; [apply read_refl|auto|]. apply (read_trans _ _ s1); auto.
    + destruct H as (s1 & HM & H). apply (read_trans _ _ s1); auto.
  - destruct H as (s1 & HM & ->). apply IHr in HM as (u & c & E1 & E2 & F). exists u, ((n, u) :: c). cbn [addcap rest caps].
    rewrite E1 at 1. split; [reflexivity|]. split; [rewrite E1, E2, firstn_consumed; reflexivity|]. constructor.
    + cbn [fst snd nums]. split; [now left|]. exists [], []. now rewrite app_nil_r.
    + eapply Forall_impl; [|exact F]. intros x [A B]. split; [now right|exact B].
  - destruct H as (_ & ->). apply read_refl.
  - destruct H as (_ & ->). apply read_refl.
  - destruct H as (_ & ->). apply read_refl.
Qed.

Lemma lookup_app_left n c d : ~ In n (map fst c) -> lookup n (c ++ d) = lookup n d.
Proof.
  induction c as [|[i t] c IH]; cbn [app lookup map fst]; [reflexivity|]. intros H. destruct (Nat.eqb_spec i n) as [->|]; [exfalso; apply H; now left|].
  apply IH. intros X. apply H. now right.
Qed.
Lemma lookup_app_right n c d : ~ In n (map fst d) -> lookup n (c ++ d) = lookup n c.
Proof.
  induction c as [|[i t] c IH]; cbn [app lookup]; intros H.
  - induction d as [|[i t] d IH]; [reflexivity|]. cbn [lookup]. cbn [map fst] in H. destruct (Nat.eqb_spec i n) as [->|]; [exfalso; apply H; now left|].
    apply IH. intros X. apply H. now right.
  - destruct (Nat.eqb_spec i n); [reflexivity|auto].
Qed.

Lemma outer_nums r : incl (outer r) (nums r).
Proof.
  induction r; cbn [outer nums]; try apply incl_refl; try (apply incl_app; [apply incl_appl|apply incl_appr]; assumption); try assumption.
  intros x [<-|[]]. now left.
Qed.

Lemma letter_lower cs c x : letter_of cs = Some c -> inset cs x = true -> lower x = c.
Proof.
  unfold letter_of, letters. replace all_letters with (map ascii_of_nat (seq 0 256)) by (vm_compute; reflexivity). intros H HX. assert (HI : In x (filter (inset cs) (map ascii_of_nat (seq 0 256)))).
  { apply filter_In. split; [|exact HX]. apply in_map_iff. exists (nat_of_ascii x). split; [apply ascii_nat_embedding|]. apply in_seq.
    pose proof (nat_ascii_bounded x). lia. }
  destruct (filter (inset cs) (map ascii_of_nat (seq 0 256))) as [|d l]; [discriminate|].
  destruct (forallb _ l) eqn:F; [|discriminate]. injection H as <-. destruct HI as [->|HI]; [reflexivity|].
  rewrite forallb_forall in F. apply F in HI. symmetry. now apply Ascii.eqb_eq.
Qed.

(** The pieces are what the outermost groups hold; the other captures made with a piece lie inside it. *)
Definition holds (c : list (nat * str)) (n : nat) (g : option str) : Prop := lookup n c = g.
Definition laid_by (r : re) (l : layout) (s s' : st) : Prop := exists u c gs,
  rest s = u ++ rest s' /\ caps s' = c ++ caps s /\ Forall (fun x => In (fst x) (nums r)) c /\ follows l u gs /\ length gs = places l /\
  Forall2 (holds c) (outer r) gs /\
  Forall (fun x => exists n g, In (fst x, n) (nest r) /\ In n (nums r) /\ lookup n c = Some g /\ inside (snd x) g) c.

Lemma keys_out (r : re) (c : list (nat * str)) n : Forall (fun x => In (fst x) (nums r)) c -> ~ In n (nums r) -> ~ In n (map fst c).
Proof. intros F HN HI. apply in_map_iff in HI as (x & <- & HX). rewrite Forall_forall in F. auto. Qed.

Lemma follows_length l s gs : follows l s gs -> length gs = places l.
Proof. induction 1; cbn [places length]; rewrite ?app_length, ?repeat_length; auto. Qed.

Lemma layout_outer r : forall l, layout_of r = Some l -> length (outer r) = places l.
Proof.
  induction r; cbn [layout_of outer]; intros l H; try (injection H as <-; reflexivity); try discriminate.
  - destruct (letter_of cs); [injection H as <-; reflexivity|discriminate].
  - destruct (layout_of r1) as [x|]; [|discriminate]. destruct (layout_of r2) as [y|]; [|discriminate]. injection H as <-. cbn [places]. rewrite app_length. auto.
  - destruct mn; [|discriminate]. destruct mx as [[|[|]]|]; try discriminate. destruct (layout_of r) as [x|]; [|discriminate]. injection H as <-. cbn [places]. auto.
Qed.

Lemma M_laid r : forall l, layout_of r = Some l -> NoDup (nums r) -> forall s s', M r s s' -> laid_by r l s s'.
Proof.
  induction r; cbn [layout_of nums]; intros l HL HN s s' HM.
  - injection HL as <-. cbn [M] in HM. subst. exists [], [], []. repeat split; constructor.
  - cbn [M] in HM. destruct HM as (x & t & E & I & ->). destruct (letter_of cs) as [c|] eqn:EL; [|discriminate]. injection HL as <-.
    exists [x], [], []. cbn [rest caps]. repeat split; try constructor; [exact E|]. exact (letter_lower cs c x EL I).
  - destruct (layout_of r1) as [x|] eqn:E1; [|discriminate]. destruct (layout_of r2) as [y|] eqn:E2; [|discriminate]. injection HL as <-.
    cbn [M] in HM. destruct HM as (s1 & H1 & H2).
    assert (N1 : NoDup (nums r1)) by (revert HN; generalize (nums r1); induction l; cbn [app]; intros X; constructor; inversion_clear X; [intros I; apply H; apply in_or_app; now left|auto]).
    assert (N2 : NoDup (nums r2)) by (revert HN; generalize (nums r1); induction l; cbn [app]; intros X; [exact X|inversion_clear X; auto]).
    assert (ND : forall n, In n (nums r1) -> ~ In n (nums r2)).
    { intros n A B. apply in_split in A as (p & q & E). rewrite E in HN. rewrite <- app_assoc in HN. cbn [app] in HN. apply NoDup_remove_2 in HN.
      apply HN. apply in_or_app. right. apply in_or_app. now right. }
    destruct (IHr1 x eq_refl N1 _ _ H1) as (u & c & gs & A1 & A2 & A3 & A4 & A5 & A6 & A7).
    destruct (IHr2 y eq_refl N2 _ _ H2) as (v & d & hs & B1 & B2 & B3 & B4 & B5 & B6 & B7).
    exists (u ++ v), (d ++ c), (gs ++ hs). rewrite A1, B1, B2, A2, !app_assoc. split; [reflexivity|]. split; [reflexivity|]. split.
    + apply Forall_app. split; [eapply Forall_impl; [|exact B3]|eapply Forall_impl; [|exact A3]]; cbn beta; intros z HZ; apply in_or_app; [now right|now left].
    + split; [constructor; assumption|]. split; [cbn [places]; rewrite app_length; auto|]. cbn [outer]. split; [apply Forall2_app|].
      * pose proof (outer_nums r1) as I. clear A5 A4. induction A6 as [|n g ns gs' HG _ IH]; [constructor|]. constructor.
        -- unfold holds in *. rewrite lookup_app_left; [exact HG|]. apply (keys_out r2); [exact B3|]. apply ND, I. now left.
        -- apply IH. intros z HZ. apply I. now right.
      * pose proof (outer_nums r2) as I. clear B5 B4. induction B6 as [|n g ns gs' HG _ IH]; [constructor|]. constructor.
        -- unfold holds in *. rewrite lookup_app_right; [exact HG|]. apply (keys_out r1); [exact A3|]. intros X. apply (ND n X), I. now left.
        -- apply IH. intros z HZ. apply I. now right.
      * apply Forall_app. split.
        -- eapply Forall_impl; [|exact B7]. intros z (n & g & C1 & C2 & C3 & C4). exists n, g. cbn [nest nums]. split; [apply in_or_app; now right|].
           split; [apply in_or_app; now right|]. split; [|exact C4]. rewrite lookup_app_right; [exact C3|]. apply (keys_out r1); [exact A3|]. intros X. exact (ND n X C2).
        -- eapply Forall_impl; [|exact A7]. intros z (n & g & C1 & C2 & C3 & C4). exists n, g. cbn [nest nums]. split; [apply in_or_app; now left|].
           split; [apply in_or_app; now left|]. split; [|exact C4]. rewrite lookup_app_left; [exact C3|]. apply (keys_out r2); [exact B3|]. apply ND. exact C2.
  - discriminate.
  - destruct mn; [|discriminate]. destruct mx as [[|[|]]|]; try discriminate. destruct (layout_of r) as [x|] eqn:E; [|discriminate]. injection HL as <-.
    cbn [M needR maxleft] in HM. assert (HO : M r s s' \/ s' = s).
    { inversion HM as [c t|c t t' Z HM' P|c t t1 t2 Z HM' P HL]; subst; auto. left. cbn in HL. inversion HL as [c t|c t t' Z' HM2 P2|c t t3 t4 Z' HM2 P2 HL2]; subst; [exact HM'|discriminate|discriminate]. }
    destruct HO as [HO| ->].
    + destruct (IHr x eq_refl HN _ _ HO) as (u & c & gs & A1 & A2 & A3 & A4 & A5 & A6 & A7). exists u, c, gs. repeat split; auto. now apply f_present.
    + exists [], [], (repeat None (places x)). split; [reflexivity|]. split; [reflexivity|]. split; [constructor|]. split; [constructor|]. split; [apply repeat_length|].
      cbn [outer]. split; [|constructor]. rewrite <- (layout_outer r x E). induction (outer r); cbn [length repeat]; constructor; auto. reflexivity.
  - injection HL as <-. pose proof (M_read (RGrp n r) s s' HM) as (u & c & E1 & E2 & F). exists u, c, [Some u]. split; [exact E1|]. split; [exact E2|].
    split; [eapply Forall_impl; [|exact F]; intros z [A _]; exact A|]. split; [constructor|]. split; [reflexivity|]. cbn [outer].
    cbn [M] in HM. destruct HM as (s1 & HM & ->). cbn [addcap rest caps] in E1, E2. rewrite E1, firstn_consumed in E2.
    apply M_read in HM as (u' & c' & E3 & E4 & _). rewrite E4 in E2. change ((n, u) :: c' ++ caps s) with (((n, u) :: c') ++ caps s) in E2.
    apply app_inv_tail in E2. subst c.
    assert (EL : lookup n ((n, u) :: c') = Some u) by (cbn [lookup]; now rewrite Nat.eqb_refl). split; [constructor; [exact EL|constructor]|].
    eapply Forall_impl; [|exact F]. intros z [A B]. exists n, u. split; [|split; [now left|split; [exact EL|exact B]]].
    apply (in_map (fun j => (j, n))). exact A.
  - injection HL as <-. cbn [M] in HM. destruct HM as (_ & ->). exists [], [], []. repeat split; constructor.
  - injection HL as <-. cbn [M] in HM. destruct HM as (_ & ->). exists [], [], []. repeat split; constructor.
  - discriminate.
Qed.

(** * Classes *)

Fixpoint risingb (k : nat) (l : list nat) : bool := match l with [] => true | x :: t => if Nat.ltb k x then risingb x t else false end.
Lemma rising_above l : forall k, risingb k l = true -> forall x, In x l -> k < x.
Proof.
  induction l as [|y l IH]; intros k H x HI; [destruct HI|]. cbn [risingb] in H. destruct (Nat.ltb_spec k y) as [LT|]; [|discriminate].
  destruct HI as [<-|HI]; [exact LT|]. specialize (IH y H x HI). lia.
Qed.
Lemma rising_nodup l : forall k, risingb k l = true -> NoDup l.
Proof.
  induction l as [|y l IH]; intros k H; [constructor|]. cbn [risingb] in H. destruct (Nat.ltb k y); [|discriminate]. constructor; [|eauto].
  intros HI. pose proof (rising_above l y H y HI). lia.
Qed.
Definition regb (r : re) : bool := match layout_of r with Some _ => if ends r then risingb 0 (nums r) else false | None => false end.
Definition same (a b : list nat) : bool := if list_eq_dec Nat.eq_dec a b then true else false.

(** A match of such a pattern. *)
Lemma match_laid r t mo : regb r = true -> re_match r t = Some mo -> exists l gs, layout_of r = Some l /\ follows l t gs /\
  Forall2 (holds (mcaps mo)) (outer r) gs /\
  Forall (fun x => exists n g, In (fst x, n) (nest r) /\ lookup n (mcaps mo) = Some g /\ inside (snd x) g) (mcaps mo).
Proof.
  unfold regb. destruct (layout_of r) as [l|] eqn:EL; [|discriminate]. destruct (ends r) eqn:EE; [|discriminate]. intros ND HM.
  unfold re_match, match_at in HM. destruct (m r (mkst [] t []) Some) as [s'|] eqn:E; [|discriminate]. injection HM as <-. cbn [mcaps].
  apply m_sound in E as (s1 & HM & [= ->]). pose proof (ends_M r EE _ _ HM) as HR.
  destruct (M_laid r l EL (rising_nodup _ _ ND) _ _ HM) as (u & c & gs & A1 & A2 & _ & A4 & _ & A6 & A7). cbn [rest caps] in *.
  rewrite HR, app_nil_r in A1. rewrite app_nil_r in A2. subst u. rewrite A2. exists l, gs. split; [reflexivity|]. split; [exact A4|]. split; [exact A6|].
  eapply Forall_impl; [|exact A7]. intros x (n & g & B1 & _ & B2). eauto.
Qed.

Definition class_re (c : cls) : re := compile true (c_pat c).
(** Each attribute is read from the group of its number. *)
Definition numbered (c : cls) : bool := same (outer (class_re c)) (seq 1 (length (c_attrs c))).
Definition listed (l : list string) (n : string) : bool := existsb (String.eqb n) l.
(** The last attribute is read from a group inside the one before it. *)
Definition offset (c : cls) : bool :=
  let n := length (c_attrs c) in
  (same (firstn (n - 1) (outer (class_re c))) (seq 1 (n - 1)) && Nat.eqb (length (outer (class_re c))) n && Nat.leb 2 n &&
   forallb (fun x => implb (Nat.eqb (fst x) n) (Nat.eqb (snd x) (n - 1))) (nest (class_re c)))%bool.
Lemma classes_regular : forallb (fun c => if regb (class_re c) then (if listed shifted (c_name c) then offset c else numbered c) else false) classes = true.
Proof. vm_compute. reflexivity. Qed.
Lemma listed_in l n : listed l n = true <-> In n l.
Proof.
  unfold listed. rewrite existsb_exists. split.
  - intros (x & HX & E). apply String.eqb_eq in E. now subst.
  - intros H. exists n. split; [exact H|apply String.eqb_refl].
Qed.
Lemma class_ok c : In c classes -> regb (class_re c) = true /\ (In (c_name c) shifted -> offset c = true) /\ (~ In (c_name c) shifted -> numbered c = true).
Proof.
  intros HI. pose proof classes_regular as H. rewrite forallb_forall in H. specialize (H _ HI). destruct (regb (class_re c)); [|discriminate]. split; [reflexivity|].
  destruct (listed shifted (c_name c)) eqn:E; split; intros HN; auto.
  - exfalso. apply HN. now apply listed_in.
  - exfalso. apply listed_in in HN. congruence.
Qed.
Lemma same_eq a b : same a b = true -> a = b.
Proof. unfold same. destruct (list_eq_dec Nat.eq_dec a b); [auto|discriminate]. Qed.
Lemma holds_map c ns gs : Forall2 (holds c) ns gs -> gs = map (fun n => lookup n c) ns.
Proof. unfold holds. induction 1; cbn [map]; [reflexivity|]. now f_equal. Qed.
Lemma groups_lookup mo n k : 0 < k -> map (fun j => group j mo) (seq k n) = map (fun j => lookup j (mcaps mo)) (seq k n).
Proof. intros H. apply map_ext_in. intros j HJ. apply in_seq in HJ. destruct j; [lia|reflexivity]. Qed.

Section Readers.
  Variable ext : string -> str -> result val.
  Variable fam : string -> list cls.
  Lemma class_read c t mo o : In c classes -> re_match (class_re c) t = Some mo -> read_cls ext fam c mo = Ok o ->
    exists gs, follows (class_layout c) t gs /\ length gs = length (c_attrs c) /\
      (~ In (c_name c) shifted -> from_pieces ext fam c gs o) /\
      (In (c_name c) shifted -> from_wrong_pieces ext fam c gs o).
  Proof.
    intros HI HM HR. destruct (class_ok c HI) as (RB & HS & HN). destruct (match_laid _ _ _ RB HM) as (l & gs & EL & HF & HG & HC).
    unfold read_cls in HR. destruct (read_attrs ext 1 (c_attrs c) mo) as [vs| |] eqn:ER; try discriminate. cbn [bind] in HR.
    apply read_attrs_inv in ER. rewrite groups_lookup in ER by lia. apply holds_map in HG. exists gs.
    assert (EC : class_layout c = l) by (unfold class_layout; fold (class_re c); now rewrite EL). rewrite EC. split; [exact HF|]. set (n := length (c_attrs c)) in *.
    destruct (in_dec string_dec (c_name c) shifted) as [D|D].
    - specialize (HS D). unfold offset in HS. fold n in HS. apply andb_prop in HS as [HS H4]. apply andb_prop in HS as [HS H3]. apply andb_prop in HS as [H1 H2].
      apply same_eq in H1. apply Nat.eqb_eq in H2. apply Nat.leb_le in H3.
      split; [rewrite HG, map_length; exact H2|]. split; [intros X; now destruct X|]. intros _.
      assert (ES : seq 1 n = seq 1 (n - 2) ++ [n - 1; n]).
      { clearbody n. clear - H3. destruct n as [|[|m]]; try lia. replace (S (S m) - 2) with m by lia. replace (S (S m) - 1) with (S m) by lia.
        replace (S (S m)) with (m + 2) at 1 by lia. rewrite seq_app. cbn [seq Nat.add]. reflexivity. }
      assert (EO : exists k, outer (class_re c) = seq 1 (n - 2) ++ [n - 1; k]).
      { rewrite <- (firstn_skipn (n - 1) (outer (class_re c))), H1. pose proof (skipn_length (n - 1) (outer (class_re c))) as SL. rewrite H2 in SL.
        destruct (skipn (n - 1) (outer (class_re c))) as [|k [|]]; cbn [length] in SL; try lia. exists k.
        clearbody n. clear - H3. destruct n as [|[|m]]; try lia. replace (S (S m) - 2) with m by lia. replace (S (S m) - 1) with (S m) by lia.
        replace (S m) with (m + 1) at 1 by lia. rewrite seq_app, <- app_assoc. cbn [seq app Nat.add]. reflexivity. }
      destruct EO as [k EO]. set (f := fun j => lookup j (mcaps mo)) in *. exists (map f (seq 1 (n - 2))), (f (n - 1)), (f k), (f n).
      split; [rewrite HG, EO, map_app; reflexivity|]. split.
      + exists vs. split; [|exact HR]. rewrite ES, map_app in ER. exact ER.
      + intros y HY. unfold f in HY. assert (HIN : In (n, y) (mcaps mo)).
        { clear - HY. induction (mcaps mo) as [|[i t] q IH]; [discriminate|]. cbn [lookup] in HY. destruct (Nat.eqb_spec i n) as [->|]; [left; congruence|right; auto]. }
        rewrite Forall_forall in HC. destruct (HC _ HIN) as (j & g & B1 & B2 & B3). cbn [fst snd] in *. rewrite forallb_forall in H4. specialize (H4 _ B1).
        cbn [fst snd] in H4. rewrite Nat.eqb_refl in H4. cbn [implb] in H4. apply Nat.eqb_eq in H4. subst j. exists g. split; [exact B2|exact B3].
    - specialize (HN D). unfold numbered in HN. fold n in HN. apply same_eq in HN. rewrite HN in HG.
      split; [rewrite HG, map_length; apply seq_length|]. split; [|intros X; now destruct D]. intros _. exists vs. split; [|exact HR]. rewrite HG. exact ER.
  Qed.

  Theorem card_pieces c s o cm : In c classes -> card_from_mcnp ext fam c s = Ok (o, cm) ->
    exists gs, follows (class_layout c) (fst (card_preprocess s)) gs /\ length gs = length (c_attrs c) /\
      (~ In (c_name c) shifted -> from_pieces ext fam c gs o) /\
      (In (c_name c) shifted -> from_wrong_pieces ext fam c gs o).
  Proof.
    intros HI H. unfold card_from_mcnp in H. destruct (card_preprocess s) as [t cs]. cbn [fst].
    destruct (re_match (compile true (c_pat c)) t) as [mo|] eqn:E; [|discriminate].
    destruct (read_cls ext fam c mo) as [p| |] eqn:E2; try discriminate. cbn [bind] in H.
    assert (X : p = o) by congruence. subst p. exact (class_read c t mo o HI E E2).
  Qed.
  Theorem family_pieces cs c s o : (forall d, In d cs -> In d classes) -> family_from_mcnp ext fam cs s = Ok (c, o) ->
    In c cs /\ exists gs, follows (class_layout c) (preprocess s) gs /\ length gs = length (c_attrs c) /\
      (~ In (c_name c) shifted -> from_pieces ext fam c gs o) /\
      (In (c_name c) shifted -> from_wrong_pieces ext fam c gs o).
  Proof.
    intros HI H. unfold family_from_mcnp in H. destruct (first_match cs (preprocess s)) as [[d mo]|] eqn:E; [|discriminate].
    assert (HD : In d cs /\ re_match (class_re d) (preprocess s) = Some mo).
    { clear H HI. revert E. generalize (preprocess s). intros t. induction cs as [|e cs IH]; cbn [first_match]; [discriminate|]. fold (class_re e).
      destruct (re_match (class_re e) t) as [m'|] eqn:EM.
      - destruct (seqb (mtext m') t); [intros [= <- <-]; split; [now left|exact EM]|]. intros X. destruct (IH X). split; [now right|assumption].
      - intros X. destruct (IH X). split; [now right|assumption]. }
    destruct HD as [HD HM]. destruct (read_cls ext fam d mo) as [p| |] eqn:E2; try discriminate. cbn [bind] in H.
    assert (d = c) by congruence. assert (p = o) by congruence. subst d p. split; [exact HD|]. exact (class_read c _ mo o (HI _ HD) HM E2).
  Qed.
End Readers.

(** * Fixed letters *)

Lemma none_firm l s gs : follows l s gs -> firm l = true -> exists g, In (Some g) gs.
Proof.
  induction 1; cbn [firm]; intros HF; try discriminate.
  - exists g. now left.
  - destruct (firm a); [destruct (IHfollows1 eq_refl) as [g HG]|destruct (IHfollows2 HF) as [g HG]]; exists g; apply in_or_app; auto.
Qed.
Theorem pieces_fix l s gs : follows l s gs -> settled l = true -> forall t, follows l t gs -> slower s = slower t.
Proof.
  induction 1 as [|c x E|g|a b s t gs hs H1 IH1 H2 IH2|a|a s gs H IH]; intros HS t' H'.
  - inversion H'. reflexivity.
  - inversion H' as [|? y E'| | | |]; subst. cbn. now f_equal.
  - inversion H'. reflexivity.
  - inversion H' as [| | |? ? s' t'' gs' hs' F1 F2 E1 E2 E3| |]; subst. cbn [settled] in HS. destruct (settled a) eqn:SA; [|discriminate].
    assert (EL : length gs = length gs') by (now rewrite (follows_length _ _ _ H1), (follows_length _ _ _ F1)).
    assert (EG : gs' = gs /\ hs' = hs).
    { clear - E3 EL. revert gs' EL E3. induction gs as [|g gs IH]; intros [|g' gs'] EL E; try discriminate; cbn in *; [auto|].
      injection E as -> E. destruct (IH gs' (eq_add_S _ _ EL) E). subst. auto. }
    destruct EG as [-> ->]. unfold slower. rewrite !map_app. f_equal; [now apply IH1|now apply IH2].
  - inversion H' as [| | | |b E1 E2 E3|b s gs F]; subst; [reflexivity|]. cbn [settled] in HS. destruct (firm a) eqn:SA; [|discriminate].
    destruct (none_firm _ _ _ F SA) as [g HG]. apply repeat_spec in HG. discriminate.
  - cbn [settled] in HS. destruct (firm a) eqn:SA; [|discriminate].
    inversion H' as [| | | |b E1 E2 E3|b s' gs' F]; subst; [|now apply IH].
    destruct (none_firm _ _ _ H SA) as [g HG]. apply repeat_spec in HG. discriminate.
Qed.
Lemma classes_settled : forallb (fun c => settled (class_layout c)) classes = true.
Proof. vm_compute. reflexivity. Qed.
Theorem class_pieces_fix c s t gs : In c classes -> follows (class_layout c) s gs -> follows (class_layout c) t gs -> slower s = slower t.
Proof. intros HI H1 H2. pose proof classes_settled as F. rewrite forallb_forall in F. exact (pieces_fix _ _ _ H1 (F c HI) _ H2). Qed.
