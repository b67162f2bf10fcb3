(** A written geometry splits into its tokens. *)

From Coq Require Import Ascii String NArith ZArith Bool Arith List Lia.
From Verif Require Import PyStr Regex RegexParse RegexFacts RegexLang PyNumFacts Types TypesFacts TypesFacts2 TypesFacts3 TypesFacts4 SubFacts CardTextFacts CardTextFacts2 CardsFacts2 Geometry GeometrySpec GeometryFacts GeometryFacts2.
Import ListNotations.
Open Scope list_scope.

(** * Scanning a text cut into tokens *)
Fixpoint cut (r : re) (ts : list str) : Prop :=
  match ts with
  | [] => True
  | t :: ts' => t <> [] /\ (forall p, exists c, match_at r p (t ++ concat ts') = Some {| mpre := p; mtext := t; mrest := concat ts'; mcaps := c |}) /\ cut r ts'
  end.
Lemma finditer_cut r ts : (forall p, match_at r p [] = None) -> cut r ts -> map mtext (finditer r (concat ts)) = ts.
Proof.
  intros HN HC. unfold finditer.
  enough (G : forall fuel p, length (concat ts) < fuel -> map mtext (finditer_f fuel r p (concat ts)) = ts) by (apply G; lia).
  induction ts as [|t ts IH]; intros fuel p HL; (destruct fuel as [|f]; [cbn in HL; lia|]).
  - cbn [concat finditer_f search]. now rewrite HN.
  - destruct HC as (NT & HM & HC). destruct (HM p) as [c E]. cbn [finditer_f concat] in *.
    assert (ES : search r p (t ++ concat ts) = Some {| mpre := p; mtext := t; mrest := concat ts; mcaps := c |}).
    { destruct (t ++ concat ts); cbn [search]; now rewrite E. }
    rewrite ES. cbn [mtext mrest mpre]. destruct t as [|a t]; [congruence|]. cbn [map mtext]. f_equal.
    apply IH; auto. rewrite app_length in HL. cbn in HL. lia.
Qed.

(** * The token pattern *)
Definition r_sp0 : re := RRep false 0 None (RSet (cs space_ranges)).
Definition r_sp1 : re := RRep false 1 None (RSet (cs space_ranges)).
Definition r_colon : re := RCat r_sp0 (RCat (RSet (cs [(58, 58)]%N)) r_sp0).
Definition r_open : re := RCat (RSet (cs [(40, 40); (43, 43); (35, 35); (45, 45)]%N)) r_sp0.
Definition r_close : re := RCat r_sp0 (RSet (cs [(41, 41)]%N)).
Lemma gtoken_eq : re_gtoken = RAlt r_colon (RAlt r_sp1 (RAlt r_gnum (RAlt r_open r_close))).
Proof. vm_compute. reflexivity. Qed.

Definition stops (P : ascii -> bool) (t : str) : Prop := t = [] \/ exists c t', t = c :: t' /\ P c = false.
Lemma stops_space t : stops is_space t -> t = [] \/ exists c t', t = c :: t' /\ inset (cs space_ranges) c = false.
Proof. intros [H|(c & t' & -> & H)]; [now left|right]. exists c, t'. split; auto. now rewrite inset_space. Qed.

Lemma sp0_stop A p t cp (k : st -> option A) : stops is_space t -> m r_sp0 (mkst p t cp) k = k (mkst p t cp).
Proof.
  intros H. unfold r_sp0. cbn [m need rest]. cbn [loopg maxleft]. destruct H as [->|(c & t' & -> & H)].
  - cbn. reflexivity.
  - cbn [rest length]. cbn [czero]. cbn [rest]. rewrite inset_space, H. cbn. reflexivity.
Qed.
Lemma sp1_stop A p t cp (k : st -> option A) : stops is_space t -> m r_sp1 (mkst p t cp) k = None.
Proof.
  intros H. unfold r_sp1. cbn [m need rest]. destruct H as [->|(c & t' & -> & H)]; [reflexivity|]. now rewrite inset_space, H.
Qed.
Lemma m_set A r c t p cp (k : st -> option A) :
  m (RSet r) (mkst p (c :: t) cp) k = if inset r c then k (mkst (c :: p) t cp) else None.
Proof. reflexivity. Qed.

(** Every kind of token. *)
Lemma tok_colon p t : stops is_space t -> match_at re_gtoken p (L ":" ++ t) = Some {| mpre := p; mtext := L ":"; mrest := t; mcaps := [] |}.
Proof.
  intros H. apply match_at_hit. rewrite gtoken_eq, m_altE. unfold r_colon. cbn [app L list_ascii_of_string]. 
  change (m (RCat r_sp0 (RCat (RSet (cs [(58, 58)]%N)) r_sp0)) (mkst p (":"%char :: t) []) Some) with
    (m r_sp0 (mkst p (":"%char :: t) []) (fun s => m (RSet (cs [(58, 58)]%N)) s (fun s => m r_sp0 s Some))).
  rewrite sp0_stop by (right; exists ":"%char, t; auto). rewrite m_set. cbn iota beta. change (inset (cs [(58, 58)]%N) ":"%char) with true. cbn iota.
  rewrite sp0_stop by auto. reflexivity.
Qed.
Lemma colon_miss A c t p cp (k : st -> option A) : is_space c = false -> c <> ":"%char -> m r_colon (mkst p (c :: t) cp) k = None.
Proof.
  intros H1 H2. unfold r_colon.
  change (m (RCat r_sp0 (RCat (RSet (cs [(58, 58)]%N)) r_sp0)) (mkst p (c :: t) cp) k) with
    (m r_sp0 (mkst p (c :: t) cp) (fun s => m (RSet (cs [(58, 58)]%N)) s (fun s => m r_sp0 s k))).
  rewrite sp0_stop by (right; exists c, t; auto). rewrite m_set.
  change (cs [(58, 58)]%N) with (cs_chr (code ":"%char)). rewrite inset_chr_ceqb. apply ceqb_neq in H2. now rewrite H2.
Qed.
Lemma sp_then A c t p cp (k : st -> option A) : is_space c = false ->
  m r_sp0 (mkst p (sp :: c :: t) cp) k = match k (mkst (sp :: p) (c :: t) cp) with Some x => Some x | None => k (mkst p (sp :: c :: t) cp) end.
Proof.
  intros H. unfold r_sp0. cbn [m need maxleft loopg rest length czero pre caps]. change (inset (cs space_ranges) sp) with true. cbn iota.
  unfold progress at 1. cbn [rest length]. cbn [loopg czero]. rewrite inset_space, H.
  replace (Nat.ltb (S (length t)) (S (S (length t)))) with true by (symmetry; apply Nat.ltb_lt; lia). unfold orelse. cbn iota.
  destruct (k (mkst (sp :: p) (c :: t) cp)); reflexivity.
Qed.
Lemma tok_blank p c t : is_space c = false -> c <> ":"%char ->
  match_at re_gtoken p (L " " ++ c :: t) = Some {| mpre := p; mtext := L " "; mrest := c :: t; mcaps := [] |}.
Proof.
  intros H1 H2. apply match_at_hit. rewrite gtoken_eq, m_altE. cbn [app L list_ascii_of_string]. change " "%char with sp.
  assert (E : m r_colon (mkst p (sp :: c :: t) []) Some = None).
  { unfold r_colon.
    change (m (RCat r_sp0 (RCat (RSet (cs [(58, 58)]%N)) r_sp0)) (mkst p (sp :: c :: t) []) Some) with
      (m r_sp0 (mkst p (sp :: c :: t) []) (fun s => m (RSet (cs [(58, 58)]%N)) s (fun s => m r_sp0 s Some))).
    rewrite sp_then by auto. rewrite !m_set. change (cs [(58, 58)]%N) with (cs_chr (code ":"%char)). rewrite !inset_chr_ceqb. apply ceqb_neq in H2. now rewrite H2. }
  rewrite E, m_altE.
  assert (E2 : m r_sp1 (mkst p ([sp] ++ [] ++ (c :: t)) []) Some = Some (mkst (sp :: p) (c :: t) [])).
  { unfold r_sp1. apply m_plus_run; [discriminate|repeat constructor|right; exists c, t; split; auto; now rewrite inset_space|reflexivity|].
    intros v1 v2 E1 HV. destruct v1; [congruence|discriminate]. }
  cbn [app] in E2. rewrite E2. reflexivity.
Qed.
Lemma tok_open p c t : In c ["("; "+"; "#"; "-"]%char -> stops is_space t ->
  match_at re_gtoken p ([c] ++ t) = Some {| mpre := p; mtext := [c]; mrest := t; mcaps := [] |}.
Proof.
  intros HC H. apply match_at_hit. rewrite gtoken_eq, m_altE. cbn [app].
  assert (HS : is_space c = false) by (destruct HC as [<-|[<-|[<-|[<-|[]]]]]; reflexivity).
  rewrite colon_miss; [|auto|destruct HC as [<-|[<-|[<-|[<-|[]]]]]; discriminate].
  rewrite m_altE, sp1_stop by (right; exists c, t; auto). rewrite m_altE.
  assert (EN : m r_gnum (mkst p (c :: t) []) Some = None).
  { unfold r_gnum, r_dig. cbn [m need rest]. rewrite inset_dig. destruct HC as [<-|[<-|[<-|[<-|[]]]]]; reflexivity. }
  rewrite EN, m_altE. unfold r_open.
  change (m (RCat (RSet (cs [(40, 40); (43, 43); (35, 35); (45, 45)]%N)) r_sp0) (mkst p (c :: t) []) Some) with
    (m (RSet (cs [(40, 40); (43, 43); (35, 35); (45, 45)]%N)) (mkst p (c :: t) []) (fun s => m r_sp0 s Some)).
  rewrite m_set, sp0_stop by auto.
  replace (inset (cs [(40, 40); (43, 43); (35, 35); (45, 45)]%N) c) with true by (destruct HC as [<-|[<-|[<-|[<-|[]]]]]; reflexivity). reflexivity.
Qed.
Lemma tok_close p t : match_at re_gtoken p (L ")" ++ t) = Some {| mpre := p; mtext := L ")"; mrest := t; mcaps := [] |}.
Proof.
  apply match_at_hit. rewrite gtoken_eq, m_altE. cbn [app L list_ascii_of_string].
  rewrite colon_miss by (reflexivity || discriminate). rewrite m_altE, sp1_stop by (right; exists ")"%char, t; auto). rewrite m_altE.
  replace (m r_gnum (mkst p (")"%char :: t) []) Some) with (@None st) by reflexivity. rewrite m_altE.
  replace (m r_open (mkst p (")"%char :: t) []) Some) with (@None st) by reflexivity. unfold r_close.
  change (m (RCat r_sp0 (RSet (cs [(41, 41)]%N))) (mkst p (")"%char :: t) []) Some) with
    (m r_sp0 (mkst p (")"%char :: t) []) (fun s => m (RSet (cs [(41, 41)]%N)) s Some)).
  rewrite sp0_stop by (right; exists ")"%char, t; auto). reflexivity.
Qed.
Definition num_stop (t : str) : Prop := stops (fun c => is_digit c || ceqb c ".")%bool t.
Lemma stops_dig t : stops is_digit t -> t = [] \/ exists c t', t = c :: t' /\ inset cs_dig c = false.
Proof. intros [H|(c & t' & -> & H)]; [now left|right]. exists c, t'. split; auto. now rewrite inset_dig. Qed.
Lemma dig_run A u t p cp (k : st -> option A) x : some_digits u -> stops is_digit t ->
  k (mkst (rev u ++ p) t cp) = Some x -> m r_dig (mkst p (u ++ t) cp) k = Some x.
Proof.
  intros HU HT HK. apply some_digits_allc in HU as [N HU].
  apply (m_plus_run A cs_dig k u [] t p cp x); auto; rewrite ?app_nil_r; auto; [now apply stops_dig|].
  intros v1 v2 E1 HV. destruct v1; [congruence|discriminate].
Qed.
Lemma tok_number p d t : number d -> num_stop t -> match_at re_gtoken p (d ++ t) = Some {| mpre := p; mtext := d; mrest := t; mcaps := [] |}.
Proof.
  intros HD HT. apply match_at_hit. rewrite gtoken_eq, m_altE.
  assert (TD : stops is_digit t).
  { destruct HT as [->|(c & t' & -> & H)]; [now left|right]. exists c, t'. split; auto. now apply orb_false_iff in H. }
  assert (TP : forall A cp q (k : st -> option A), m (RRep false 0 (Some 1) (RCat (RSet (cs [(46, 46)]%N)) r_dig)) (mkst q t cp) k = k (mkst q t cp)).
  { intros A cp q k. destruct HT as [->|(c & t' & -> & H)]; [reflexivity|]. apply orb_false_iff in H as [_ H].
    cbn [m need maxleft rest loopg czero length]. change (cs [(46, 46)]%N) with (cs_chr (code "."%char)). rewrite inset_chr_ceqb, H. reflexivity. }
  destruct (number_head d HD) as (c & w & E & HC).
  assert (CS : is_space c = false).
  { clear - HC. revert HC. 
    pose proof (all_ascii (fun c => implb (is_digit c) (negb (is_space c))) eq_refl c) as H. cbn beta in H. intros HC. rewrite HC in H. cbn in H. now destruct (is_space c). }
  assert (HC1 : m r_colon (mkst p (d ++ t) []) Some = None).
  { rewrite E. cbn [app]. apply colon_miss; auto. intros ->. discriminate. }
  assert (HC2 : m r_sp1 (mkst p (d ++ t) []) Some = None).
  { rewrite E. cbn [app]. apply sp1_stop. right. eauto. }
  rewrite HC1, m_altE, HC2, m_altE. clear HC1 HC2 E.
  enough (EN : m r_gnum (mkst p (d ++ t) []) Some = Some (mkst (rev d ++ p) t [])) by (rewrite EN; reflexivity).
  unfold r_gnum.
  change (m (RCat r_dig (RRep false 0 (Some 1) (RCat (RSet (cs [(46, 46)]%N)) r_dig))) (mkst p (d ++ t) []) Some) with
    (m r_dig (mkst p (d ++ t) []) (fun s => m (RRep false 0 (Some 1) (RCat (RSet (cs [(46, 46)]%N)) r_dig)) s Some)).
  destruct HD as [HD|(a & b & HA & HB & ->)].
  - apply dig_run; auto.
  - rewrite <- app_assoc. cbn [app]. apply dig_run; auto; [right; eexists _, _; split; [reflexivity|reflexivity]|].
    cbn [m need maxleft rest loopg czero length pre caps]. change (inset (cs [(46, 46)]%N) "."%char) with true. cbn iota.
    erewrite dig_run; [|exact HB|exact TD|].
    2:{ match goal with |- (if ?c then _ else _) = _ => destruct c end; reflexivity. }
    unfold orelse. rewrite rev_app_distr. cbn [rev]. rewrite <- !app_assoc. reflexivity.
Qed.
