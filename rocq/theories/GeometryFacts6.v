(** The reader accepts exactly the texts of the grammar. *)

From Coq Require Import Ascii String NArith ZArith Bool Arith List Lia.
From Verif Require Import PyStr Regex RegexParse RegexFacts RegexLang PyNumFacts Types TypesFacts TypesFacts2 TypesFacts3 TypesFacts4 SubFacts CardTextFacts CardTextFacts2 CardsFacts2 Geometry GeometrySpec GeometryFacts GeometryFacts2 GeometryFacts3 GeometryFacts4 GeometryFacts5.
Import ListNotations.
Open Scope list_scope.

Scheme t_prim_i := Induction for t_prim Sort Prop with t_atom_i := Induction for t_atom Sort Prop
  with t_union_i := Induction for t_union Sort Prop with t_inter_i := Induction for t_inter Sort Prop.
Combined Scheme t_ind4 from t_prim_i, t_atom_i, t_union_i, t_inter_i.

(** * Blanks *)
Lemma blanks_allc b : blanks b <-> allc (inset (cs space_ranges)) b.
Proof. unfold blanks, allc. split; intros H; (eapply Forall_impl; [|exact H]); intros c Hc; [rewrite inset_space|rewrite <- inset_space]; exact Hc. Qed.
Lemma sp0_run A b t p cp (k : st -> option A) x : blanks b -> stops is_space t ->
  k (mkst (rev b ++ p) t cp) = Some x -> m r_sp0 (mkst p (b ++ t) cp) k = Some x.
Proof. intros HB HT HK. apply m_star_run; [now apply blanks_allc|now apply stops_space|auto]. Qed.
Lemma sp1_run A b t p cp (k : st -> option A) x : blanks b -> b <> [] -> stops is_space t ->
  k (mkst (rev b ++ p) t cp) = Some x -> m r_sp1 (mkst p (b ++ t) cp) k = Some x.
Proof.
  intros HB N HT HK. apply (m_plus_run A (cs space_ranges) k b [] t p cp x); auto; rewrite ?app_nil_r; auto; [now apply blanks_allc|now apply stops_space|].
  intros v1 v2 E1 HV. destruct v1; [congruence|discriminate].
Qed.
Lemma lstrip_blanks b s : blanks b -> lstrip (b ++ s) = lstrip s.
Proof. induction 1 as [|c b H _ IH]; [reflexivity|]. cbn. now rewrite H. Qed.
Lemma blanks_rev b : blanks b -> blanks (rev b).
Proof. apply Forall_rev. Qed.
Lemma strip_blanks a s b : blanks a -> blanks b -> head_ok s -> last_ok s -> strip (a ++ s ++ b) = s.
Proof.
  intros HA HB (c & t & E & HC & _) (u & d & E' & HD). unfold strip, rstrip. rewrite lstrip_blanks by auto.
  assert (EL : lstrip (s ++ b) = s ++ b) by (rewrite E; cbn; now rewrite HC). rewrite EL, rev_app_distr, lstrip_blanks by now apply blanks_rev.
  rewrite E', rev_app_distr. cbn [rev app]. rewrite lstrip_head by auto. cbn [rev]. now rewrite rev_involutive.
Qed.
Lemma blanks_clean b : blanks b -> clean_token b = [sp].
Proof.
  intros H. unfold clean_token. replace (strip b) with (@nil ascii); [reflexivity|].
  unfold strip, rstrip. rewrite <- (app_nil_r b), lstrip_blanks by auto. reflexivity.
Qed.
Lemma clean_around a c b : blanks a -> blanks b -> is_space c = false -> clean_token (a ++ c :: b) = [c].
Proof.
  intros HA HB HC. unfold clean_token, strip, rstrip. rewrite lstrip_blanks by auto. rewrite lstrip_head by auto. cbn [rev].
  rewrite lstrip_blanks by now apply blanks_rev. rewrite lstrip_head by auto. reflexivity.
Qed.

(** * Shapes of tokens *)
Inductive rawtok : str -> Prop :=
| raw_colon b b' : blanks b -> blanks b' -> rawtok (b ++ ":"%char :: b')
| raw_blank b : blanks b -> b <> [] -> rawtok b
| raw_number d : number d -> rawtok d
| raw_open c b : In c ["("; "+"; "#"; "-"]%char -> blanks b -> rawtok (c :: b)
| raw_close : rawtok (L ")").

Lemma m_text r p s s' : plain r = true -> m r (mkst p s []) Some = Some s' -> exists u c, W r u c /\ s = u ++ rest s'.
Proof.
  intros PL H. apply m_sound in H as (s1 & HM & [= ->]). apply M_W in HM as (u & c & HW & HR & _); auto. exists u, c. auto.
Qed.
Lemma W_sp0 u c : W r_sp0 u c -> blanks u.
Proof. intros H. apply W_rep_set in H as (A & _). now apply blanks_allc. Qed.
Lemma W_one_of r u c : W (RSet r) u c -> exists x, u = [x] /\ inset r x = true.
Proof. intros (x & -> & H & _). eauto. Qed.
Lemma one_inset (l : list (N * N)) (ok : list ascii) : forallb (fun n => implb (inset (cs l) (ascii_of_nat n)) (existsb (Ascii.eqb (ascii_of_nat n)) ok)) (seq 0 256) = true ->
  forall c, inset (cs l) c = true -> In c ok.
Proof.
  intros H c E. pose proof (all_ascii (fun c => implb (inset (cs l) c) (existsb (Ascii.eqb c) ok)) H c) as X. cbn beta in X. rewrite E in X. cbn [implb] in X.
  apply existsb_exists in X as (x & HX & E'). apply Ascii.eqb_eq in E'. now subst.
Qed.
Lemma space_head s : (exists c t, s = c :: t /\ is_space c = true) \/ stops is_space s.
Proof. destruct s as [|c t]; [right; now left|]. destruct (is_space c) eqn:E; [left; eauto|right; right; eauto]. Qed.
Lemma sp1_some p c t cp : is_space c = true -> m r_sp1 (mkst p (c :: t) cp) Some <> None.
Proof.
  intros H. destruct (lstrip_split (c :: t)) as (a & E & HA). assert (NA : a <> []).
  { intros ->. cbn [lstrip app] in E. rewrite H in E. destruct (lstrip_split t) as (a' & E' & _). apply (f_equal (@length ascii)) in E, E'. rewrite app_length in E'. cbn in E. lia. }
  rewrite E. assert (HS : stops is_space (lstrip (c :: t))).
  { clear. generalize (c :: t). intros s. induction s as [|x s IH]; [now left|]. cbn. destruct (is_space x) eqn:E; auto. right. eauto. }
  intros X. erewrite sp1_run in X; eauto. discriminate.
Qed.

Lemma token_shape p s o : match_at re_gtoken p s = Some o -> rawtok (mtext o).
Proof.
  unfold match_at. rewrite gtoken_eq. destruct (m _ (mkst p s []) Some) as [s'|] eqn:E; [|discriminate]. intros [= <-]. cbn [mtext].
  enough (G : exists u, s = u ++ rest s' /\ rawtok u) by (destruct G as (u & -> & G); now rewrite firstn_text).
  rewrite m_altE in E. destruct (m r_colon (mkst p s []) Some) as [x|] eqn:E1; [injection E as ->|].
  { apply m_text in E1 as (u & c & (u1 & u2 & c1 & c2 & H1 & (u3 & u4 & c3 & c4 & H3 & H4 & -> & _) & -> & _) & ->); [|reflexivity].
    eexists. split; [reflexivity|]. apply W_sp0 in H1, H4. apply W_one_of in H3 as (y & -> & H3).
    apply (one_inset [(58, 58)]%N [":"%char]) in H3; [|vm_compute; reflexivity]. destruct H3 as [<-|[]]. now constructor. }
  rewrite m_altE in E. destruct (m r_sp1 (mkst p s []) Some) as [x|] eqn:E2; [injection E as ->|].
  { apply m_text in E2 as (u & c & H & ->); [|reflexivity]. exists u. split; [reflexivity|]. apply W_rep_set in H as (A & B & _).
    apply raw_blank; [now apply blanks_allc|]. destruct u; [cbn in B; lia|discriminate]. }
  rewrite m_altE in E. destruct (m r_gnum (mkst p s []) Some) as [x|] eqn:E3; [injection E as ->|].
  { apply m_text in E3 as (u & c & H & ->); [|reflexivity]. exists u. split; [reflexivity|]. apply raw_number. apply number_W. exists ((1, u) :: c). exists c. auto. }
  rewrite m_altE in E. destruct (m r_open (mkst p s []) Some) as [x|] eqn:E4; [injection E as ->|].
  { apply m_text in E4 as (u & c & (u1 & u2 & c1 & c2 & H1 & H2 & -> & _) & ->); [|reflexivity]. eexists. split; [reflexivity|].
    apply W_one_of in H1 as (y & -> & H1). apply (one_inset [(40, 40); (43, 43); (35, 35); (45, 45)]%N ["("; "+"; "#"; "-"]%char) in H1; [|vm_compute; reflexivity].
    apply raw_open; auto. now apply W_sp0 in H2. }
  apply m_text in E as (u & c & (u1 & u2 & c1 & c2 & H1 & H2 & -> & _) & ES); [|reflexivity]. eexists. split; [exact ES|].
  apply W_sp0 in H1. apply W_one_of in H2 as (y & -> & H2). apply (one_inset [(41, 41)]%N [")"%char]) in H2; [|vm_compute; reflexivity]. destruct H2 as [<-|[]].
  destruct u1 as [|x u1]; [apply raw_close|]. inversion H1; subst. now apply sp1_some in E2.
Qed.
Lemma raw_shapes_f fuel p t : Forall rawtok (map mtext (finditer_f fuel re_gtoken p t)).
Proof.
  revert p t. induction fuel as [|f IH]; intros p t; cbn [finditer_f]; [constructor|].
  destruct (search re_gtoken p t) as [o|] eqn:E; [|constructor]. apply search_at in E as (p' & s' & E). apply token_shape in E.
  destruct (mtext o) as [|c u] eqn:ET; [destruct (mrest o)|]; cbn [map]; constructor; rewrite ?ET; auto.
Qed.
Lemma raw_shapes s : Forall rawtok (raw_tokens s).
Proof. apply raw_shapes_f. Qed.

(** What a cleaned token was. *)
Lemma clean_raw t : rawtok t ->
  (exists b b', blanks b /\ blanks b' /\ t = b ++ ":"%char :: b' /\ clean_token t = L ":") \/
  (blanks t /\ t <> [] /\ clean_token t = [sp]) \/
  (number t /\ clean_token t = t) \/
  (exists c b, In c ["("; "+"; "#"; "-"]%char /\ blanks b /\ t = c :: b /\ clean_token t = [c]) \/
  (t = L ")" /\ clean_token t = L ")").
Proof.
  intros [b b' H1 H2|b H N|d H|c b HC H|].
  - left. exists b, b'. repeat split; auto. now apply clean_around.
  - right. left. repeat split; auto. now apply blanks_clean.
  - do 2 right. left. split; auto. now apply number_clean.
  - do 3 right. left. exists c, b. repeat split; auto. apply (clean_around [] c b); auto; [constructor|]. destruct HC as [<-|[<-|[<-|[<-|[]]]]]; reflexivity.
  - do 4 right. auto.
Qed.
Lemma number_single c : number [c] -> is_digit c = true.
Proof. intros H. apply number_head in H as (x & t & [= <- _] & H). auto. Qed.
Lemma raw_is_number t d : rawtok t -> clean_token t = d -> number d -> t = d.
Proof.
  intros H E HD. apply clean_raw in H as [(b & b' & _ & _ & _ & E')|[(_ & _ & E')|[(_ & E')|[(c & b & HC & _ & _ & E')|(_ & E')]]]]; try congruence.
  - rewrite E' in E. subst d. apply number_single in HD. discriminate.
  - rewrite E' in E. subst d. apply number_single in HD. discriminate.
  - rewrite E' in E. subst d. apply number_single in HD. destruct HC as [<-|[<-|[<-|[<-|[]]]]]; discriminate.
  - rewrite E' in E. subst d. apply number_single in HD. discriminate.
Qed.
Lemma not_number c : is_digit c = false -> ~ number [c].
Proof. intros H HN. apply number_single in HN. congruence. Qed.
Lemma raw_is_open t c : rawtok t -> clean_token t = [c] -> In c ["("; "+"; "#"; "-"]%char -> exists b, blanks b /\ t = c :: b.
Proof.
  intros H E HC. assert (ND : is_digit c = false) by (destruct HC as [<-|[<-|[<-|[<-|[]]]]]; reflexivity).
  apply clean_raw in H as [(b & b' & _ & _ & _ & E')|[(_ & _ & E')|[(HN & E')|[(c' & b & _ & HB & -> & E')|(_ & E')]]]]; rewrite E' in E.
  - injection E as <-. destruct HC as [?|[?|[?|[?|[]]]]]; discriminate.
  - injection E as <-. destruct HC as [?|[?|[?|[?|[]]]]]; discriminate.
  - subst t. now apply not_number in HN.
  - injection E as <-. eauto.
  - injection E as <-. destruct HC as [?|[?|[?|[?|[]]]]]; discriminate.
Qed.
Lemma raw_is_close t : rawtok t -> clean_token t = L ")" -> t = L ")".
Proof.
  intros H E. apply clean_raw in H as [(b & b' & _ & _ & _ & E')|[(_ & _ & E')|[(HN & E')|[(c' & b & HC & HB & -> & E')|(-> & E')]]]]; auto; rewrite E' in E; try discriminate.
  - subst t. reflexivity.
  - injection E as ->. destruct HC as [?|[?|[?|[?|[]]]]]; discriminate.
Qed.
Lemma raw_is_colon t : rawtok t -> clean_token t = L ":" -> exists b b', blanks b /\ blanks b' /\ t = b ++ ":"%char :: b'.
Proof.
  intros H E. apply clean_raw in H as [(b & b' & HB & HB' & -> & E')|[(_ & _ & E')|[(HN & E')|[(c' & b & HC & HB & -> & E')|(-> & E')]]]]; eauto; rewrite E' in E; try discriminate.
  - subst t. exists [], []. repeat split; constructor.
  - injection E as ->. destruct HC as [?|[?|[?|[?|[]]]]]; discriminate.
Qed.
Lemma raw_is_blank t b : rawtok t -> clean_token t = b -> b = [] \/ b = [sp] -> blanks t /\ t <> [].
Proof.
  intros H E HB. apply clean_raw in H as [(b1 & b' & _ & _ & -> & E')|[(HB1 & HN & E')|[(HN & E')|[(c' & b1 & HC & HB1 & -> & E')|(-> & E')]]]]; auto; rewrite E' in E; exfalso.
  - destruct HB; subst b; discriminate.
  - subst t. apply number_head in HN as (c & u & -> & HD). destruct HB as [?|[= -> ->]]; [discriminate|]. discriminate.
  - destruct HB; subst b; [discriminate|]. injection H as ->. destruct HC as [?|[?|[?|[?|[]]]]]; discriminate.
  - destruct HB; subst b; discriminate.
Qed.

(** * Tokens to texts *)
Lemma map_app_inv (rt : list str) a b : map clean_token rt = a ++ b -> exists r1 r2, rt = r1 ++ r2 /\ map clean_token r1 = a /\ map clean_token r2 = b.
Proof. intros H. apply map_eq_app in H as (r1 & r2 & -> & H1 & H2). eauto. Qed.
Lemma map_cons_inv (rt : list str) a b : map clean_token rt = a :: b -> exists t r, rt = t :: r /\ clean_token t = a /\ map clean_token r = b.
Proof. intros H. destruct rt as [|t r]; [discriminate|]. injection H as H1 H2. eauto. Qed.
Lemma tokens_text :
  (forall ts g, r_prim ts g -> forall rt, map clean_token rt = ts -> Forall rawtok rt -> t_prim (concat rt) g) /\
  (forall ts g, r_atom ts g -> forall rt, map clean_token rt = ts -> Forall rawtok rt -> t_atom (concat rt) g) /\
  (forall ts g, r_union ts g -> forall rt, map clean_token rt = ts -> Forall rawtok rt -> t_union (concat rt) g) /\
  (forall ts g, r_inter ts g -> forall rt, map clean_token rt = ts -> Forall rawtok rt -> t_inter (concat rt) g).
Proof.
  apply geo_ind4.
  - intros d HD rt E F. apply map_cons_inv in E as (t & r & -> & E & E2). destruct r; [|discriminate]. inversion F; subst.
    pose proof (raw_is_number t _ H1 eq_refl HD) as ET. rewrite <- ET in *. cbn. rewrite app_nil_r. now constructor.
  - intros ts g _ IH rt E F. apply map_cons_inv in E as (t & r & -> & E & E2). apply map_app_inv in E2 as (r1 & r2 & -> & E2 & E3).
    apply map_cons_inv in E3 as (t' & r' & -> & E3 & E4). destruct r'; [|discriminate]. inversion F as [|? ? F1 F2]; subst. apply Forall_app in F2 as [F2 F3]. inversion F3; subst.
    apply raw_is_open in E as (b & HB & ->); [|auto|now left]. apply raw_is_close in E3 as ->; auto.
    cbn [concat app]. rewrite concat_app. cbn [concat]. rewrite app_nil_r. apply t_paren; auto.
  - intros ts g _ IH rt E F. apply t_plain. eauto.
  - intros op ts g HO _ IH rt E F. apply map_cons_inv in E as (t & r & -> & E & E2). inversion F; subst. apply op_ok in HO as HO'.
    apply raw_is_open in E as (b & HB & ->); [|auto|tauto]. cbn [concat app]. apply t_unary; auto.
  - intros ts g _ IH rt E F. apply t_single. eauto.
  - intros ts1 g1 ts2 g2 _ IH1 _ IH2 rt E F. apply map_app_inv in E as (r1 & r2 & -> & E1 & E2). apply map_cons_inv in E2 as (t & r & -> & E2 & E3).
    apply Forall_app in F as [F1 F2]. inversion F2; subst. apply raw_is_colon in E2 as (b & b' & HB & HB' & ->); auto. rewrite concat_app. cbn [concat].
    rewrite <- app_assoc. cbn [app]. apply t_colon; auto.
  - intros ts g _ IH rt E F. apply t_alone. eauto.
  - intros ts1 g1 b ts2 g2 _ IH1 HB _ IH2 rt E F. apply map_app_inv in E as (r1 & r2 & -> & E1 & E2). apply map_cons_inv in E2 as (t & r & -> & E2 & E3).
    apply Forall_app in F as [F1 F2]. inversion F2 as [|? ? F3 F4]; subst x l. destruct (raw_is_blank t b F3 E2 HB) as [HT HN].
    rewrite concat_app. cbn [concat]. apply t_blank; auto.
  - intros ts1 g1 ts2 g2 _ IH1 _ IH2 rt E F. apply map_app_inv in E as (r1 & r2 & -> & E1 & E2).
    apply Forall_app in F as [F1 F2]. pose proof (IH2 r2 E2 F2) as R2. apply map_cons_inv in E2 as (t & r & -> & E2 & E3). inversion F2; subst.
    apply raw_is_open in E2 as (b & HB & ->); [|auto|now left]. rewrite concat_app. cbn [concat app] in *. apply t_open; auto.
Qed.

(** * Texts to tokens *)
Lemma tok_colon' p b b' t : blanks b -> blanks b' -> stops is_space t ->
  match_at re_gtoken p ((b ++ ":"%char :: b') ++ t) = Some {| mpre := p; mtext := b ++ ":"%char :: b'; mrest := t; mcaps := [] |}.
Proof.
  intros HB HB' HT. apply match_at_hit. rewrite gtoken_eq, m_altE. unfold r_colon. rewrite <- app_assoc. cbn [app].
  change (m (RCat r_sp0 (RCat (RSet (cs [(58, 58)]%N)) r_sp0)) (mkst p (b ++ ":"%char :: b' ++ t) []) Some) with
    (m r_sp0 (mkst p (b ++ ":"%char :: b' ++ t) []) (fun s => m (RSet (cs [(58, 58)]%N)) s (fun s => m r_sp0 s Some))).
  erewrite sp0_run; [reflexivity|auto|right; eexists _, _; split; reflexivity|]. rewrite m_set. change (inset (cs [(58, 58)]%N) ":"%char) with true. cbn iota.
  erewrite sp0_run; [reflexivity|auto|auto|]. rewrite rev_app_distr. cbn [rev]. rewrite <- !app_assoc. reflexivity.
Qed.
Lemma first_char b c t b1 t' : blanks b -> is_space c = false -> blanks b1 -> b ++ c :: t = b1 ++ ":"%char :: t' -> c = ":"%char.
Proof.
  intros HB HC. revert b1. induction HB as [|x b HX HB IH]; intros b1 HB1 E.
  - destruct HB1 as [|y b1 HY _]; cbn in E; [congruence|]. injection E as -> _. congruence.
  - destruct HB1 as [|y b1 HY HB1]; cbn in E; [injection E as -> _; discriminate|]. injection E as _ E. eauto.
Qed.
Lemma tok_blank' p b c t : blanks b -> b <> [] -> is_space c = false -> c <> ":"%char ->
  match_at re_gtoken p (b ++ c :: t) = Some {| mpre := p; mtext := b; mrest := c :: t; mcaps := [] |}.
Proof.
  intros HB N HC NC. apply match_at_hit. rewrite gtoken_eq, m_altE.
  assert (E : m r_colon (mkst p (b ++ c :: t) []) Some = None).
  { destruct (m r_colon (mkst p (b ++ c :: t) []) Some) as [x|] eqn:E1; auto. exfalso.
    apply m_text in E1 as (u & k & (u1 & u2 & c1 & c2 & H1 & (u3 & u4 & c3 & c4 & H3 & H4 & -> & _) & -> & _) & E1); [|reflexivity].
    apply W_sp0 in H1. apply W_one_of in H3 as (y & -> & H3). apply (one_inset [(58, 58)]%N [":"%char]) in H3; [|vm_compute; reflexivity]. destruct H3 as [<-|[]].
    rewrite <- app_assoc in E1. cbn [app] in E1. apply first_char in E1; auto. }
  rewrite E, m_altE. erewrite sp1_run; [reflexivity|auto|auto|right; eauto|reflexivity].
Qed.
Lemma tok_open' p c b t : In c ["("; "+"; "#"; "-"]%char -> blanks b -> stops is_space t ->
  match_at re_gtoken p ((c :: b) ++ t) = Some {| mpre := p; mtext := c :: b; mrest := t; mcaps := [] |}.
Proof.
  intros HC HB H. apply match_at_hit. rewrite gtoken_eq, m_altE. cbn [app].
  assert (HS : is_space c = false) by (destruct HC as [<-|[<-|[<-|[<-|[]]]]]; reflexivity).
  rewrite colon_miss; [|auto|destruct HC as [<-|[<-|[<-|[<-|[]]]]]; discriminate].
  rewrite m_altE, sp1_stop by (right; eauto). rewrite m_altE.
  assert (EN : m r_gnum (mkst p (c :: b ++ t) []) Some = None).
  { unfold r_gnum, r_dig. cbn [m need rest]. rewrite inset_dig. destruct HC as [<-|[<-|[<-|[<-|[]]]]]; reflexivity. }
  rewrite EN, m_altE. unfold r_open.
  change (m (RCat (RSet (cs [(40, 40); (43, 43); (35, 35); (45, 45)]%N)) r_sp0) (mkst p (c :: b ++ t) []) Some) with
    (m (RSet (cs [(40, 40); (43, 43); (35, 35); (45, 45)]%N)) (mkst p (c :: b ++ t) []) (fun s => m r_sp0 s Some)).
  rewrite m_set. replace (inset (cs [(40, 40); (43, 43); (35, 35); (45, 45)]%N) c) with true by (destruct HC as [<-|[<-|[<-|[<-|[]]]]]; reflexivity).
  erewrite sp0_run; [reflexivity|auto|auto|]. cbn [rev]. rewrite <- app_assoc. reflexivity.
Qed.

Definition goodr (rest : str) : Prop := rest = [] \/ exists c t, rest = c :: t /\ (is_space c = true \/ In c [":"; ")"; "("]%char).
Lemma goodr_stop rest : goodr rest -> num_stop rest.
Proof.
  intros [->|(c & t & -> & H)]; [now left|right]. exists c, t. split; auto. destruct H as [H|[<-|[<-|[<-|[]]]]]; try reflexivity.
  pose proof (all_ascii (fun c => implb (is_space c) (negb (is_digit c || ceqb c "."))) eq_refl c) as X. cbn beta in X. rewrite H in X. cbn [implb] in X. now destruct (_ || _).
Qed.
Lemma goodr_blanks b c t : blanks b -> In c [":"; ")"; "("]%char -> goodr (b ++ c :: t).
Proof. intros [|x b' HX _] HC; right; cbn; eauto. Qed.
Lemma goodr_run b t : blanks b -> b <> [] -> goodr (b ++ t).
Proof. intros [|x b' HX _] N; [now destruct N|]. right. cbn. eauto. Qed.

Lemma text_ends :
  (forall s g, t_prim s g -> head_ok s /\ last_ok s) /\ (forall s g, t_atom s g -> head_ok s /\ last_ok s) /\
  (forall s g, t_union s g -> head_ok s /\ last_ok s) /\ (forall s g, t_inter s g -> head_ok s /\ last_ok s).
Proof.
  apply (t_ind4 (fun s g _ => head_ok s /\ last_ok s) (fun s g _ => head_ok s /\ last_ok s) (fun s g _ => head_ok s /\ last_ok s) (fun s g _ => head_ok s /\ last_ok s)); auto.
  - intros. now apply number_ends.
  - intros b s g HB _ [H1 H2]. split; [eexists _, _; repeat split; discriminate|]. apply (last_ok_app ["("%char]). do 2 apply last_ok_app. exists [], ")"%char. auto.
  - intros op b s g HO HB _ [H1 H2]. apply op_ok in HO as (A & B & _). split; [exists op, (b ++ s); auto|]. apply (last_ok_app [op]). now apply last_ok_app.
  - intros s1 g1 b b' s2 g2 _ [H1 _] _ _ _ [_ H2]. split; [now apply head_ok_app|]. do 2 apply last_ok_app. apply (last_ok_app (":"%char :: b')). exact H2.
  - intros s1 g1 b s2 g2 _ [H1 _] _ _ _ [_ H2]. split; [now apply head_ok_app|]. now do 2 apply last_ok_app.
  - intros s1 g1 s2 g2 _ [H1 _] _ [_ H2]. split; [now apply head_ok_app|]. now apply last_ok_app.
Qed.

Definition cuts (R : list str -> geo -> Prop) (s : str) (g : geo) : Prop :=
  exists rt, concat rt = s /\ R (map clean_token rt) g /\ forall rest, goodr rest -> cutr re_gtoken rt rest.
Lemma text_tokens :
  (forall s g, t_prim s g -> cuts r_prim s g) /\ (forall s g, t_atom s g -> cuts r_atom s g) /\
  (forall s g, t_union s g -> cuts r_union s g) /\ (forall s g, t_inter s g -> cuts r_inter s g).
Proof.
  destruct text_ends as (EP & EA & EU & EI).
  apply (t_ind4 (fun s g _ => cuts r_prim s g) (fun s g _ => cuts r_atom s g) (fun s g _ => cuts r_union s g) (fun s g _ => cuts r_inter s g)).
  - intros d HD. exists [d]. split; [apply app_nil_r|]. split; [cbn; rewrite number_clean by auto; now constructor|].
    intros rest HR. cbn [cutr concat app]. split; [apply number_head in HD as (c & t & -> & _); discriminate|]. split; auto.
    intros p. exists []. apply tok_number; auto. now apply goodr_stop.
  - intros b s g HB HS (rt & EC & R & HC). exists (("("%char :: b) :: rt ++ [L ")"]). split; [|split].
    + cbn [concat app]. rewrite concat_app, EC. cbn [concat]. now rewrite app_nil_r.
    + cbn [map]. rewrite map_app. change ("("%char :: b) with ([] ++ "("%char :: b). rewrite clean_around; [|constructor|auto|reflexivity]. constructor. exact R.
    + intros rest HR. cbn [cutr]. split; [discriminate|]. split.
      * intros p. exists []. rewrite concat_app, EC, <- app_assoc. apply tok_open'; [now left|auto|]. apply head_stops. now apply (EI s g).
      * apply cutr_app; [apply HC; cbn; right; eexists _, _; split; [reflexivity|cbn; auto]|]. cbn [cutr]. split; [discriminate|]. split; auto. intros p. exists []. apply tok_close.
  - intros s g _ (rt & EC & R & HC). exists rt. split; auto. split; auto. now constructor.
  - intros op b s g HO HB HS (rt & EC & R & HC). exists ((op :: b) :: rt). split; [cbn; now rewrite EC|]. apply op_ok in HO as HO'. destruct HO' as (SO & _ & HO'). split.
    + cbn [map]. change (op :: b) with ([] ++ op :: b). rewrite clean_around by (auto; constructor). now apply atom_unary.
    + intros rest HR. cbn [cutr]. split; [discriminate|]. split; auto. intros p. exists []. rewrite EC. apply tok_open'; auto. apply head_stops. now apply (EP s g).
  - intros s g _ (rt & EC & R & HC). exists rt. split; auto. split; auto. now constructor.
  - intros s1 g1 b b' s2 g2 _ (rt1 & EC1 & R1 & HC1) HB HB' HS2 (rt2 & EC2 & R2 & HC2). exists (rt1 ++ (b ++ ":"%char :: b') :: rt2). split; [|split].
    + rewrite concat_app. cbn [concat]. rewrite EC1, EC2, <- app_assoc. reflexivity.
    + rewrite map_app. cbn [map]. rewrite clean_around by auto. now apply union_more.
    + intros rest HR. apply cutr_app.
      * apply HC1. cbn [concat]. rewrite <- !app_assoc. apply goodr_blanks; cbn; auto.
      * cbn [cutr]. split; [now destruct b|]. split; auto. intros p. exists []. rewrite EC2. apply tok_colon'; auto. apply head_stops. now apply (EA s2 g2).
  - intros s g _ (rt & EC & R & HC). exists rt. split; auto. split; auto. now constructor.
  - intros s1 g1 b s2 g2 _ (rt1 & EC1 & R1 & HC1) HB NB HS2 (rt2 & EC2 & R2 & HC2). exists (rt1 ++ b :: rt2). split; [|split].
    + rewrite concat_app. cbn [concat]. now rewrite EC1, EC2.
    + rewrite map_app. cbn [map]. rewrite blanks_clean by auto. apply inter_blank; auto.
    + intros rest HR. apply cutr_app.
      * apply HC1. cbn [concat]. rewrite <- app_assoc. now apply goodr_run.
      * cbn [cutr]. split; auto. split; auto. intros p. exists []. rewrite EC2. destruct (EU s2 g2 HS2) as [(c & u & -> & HC & NC) _]. now apply tok_blank'.
  - intros s1 g1 s2 g2 _ (rt1 & EC1 & R1 & HC1) HS2 (rt2 & EC2 & R2 & HC2).
    destruct rt2 as [|t rt2]; [discriminate|]. exists (rt1 ++ t :: rt2). split; [|split].
    + rewrite concat_app. now rewrite EC1, EC2.
    + rewrite map_app.
      assert (ET : clean_token t = L "(").
      { destruct (HC2 [] (or_introl eq_refl)) as (NT & HM & _). destruct (HM []) as [c HM']. apply token_shape in HM'. cbn [mtext] in HM'.
        cbn [concat] in EC2. destruct t as [|x t]; [now destruct NT|]. injection EC2 as -> _.
        inversion HM' as [b b' HB HB' E|b HB N E|d HD E|c' b HC HB E|E].
        - destruct HB as [|y b HY HB]; [discriminate|]. injection E as -> _. discriminate.
        - subst. inversion HB. discriminate.
        - subst. apply number_head in HD as (y & z & [= <- <-] & HD). discriminate.
        - subst. apply (clean_around [] "("%char t); auto. constructor. }
      cbn [map] in *. rewrite ET in *. apply inter_open; auto.
    + intros rest HR. apply cutr_app; [|now apply HC2]. apply HC1. cbn [concat]. cbn [concat] in EC2. rewrite EC2. right. eexists _, _. split; [reflexivity|cbn; auto].
Qed.

Theorem texts_iff s g : geo_from_mcnp s = Ok g <-> exists a t b, s = a ++ t ++ b /\ blanks a /\ blanks b /\ t_inter t g.
Proof.
  split.
  - intros H. apply from_iff in H as (ts & HT & R). unfold geo_tokens in HT. destruct (seqb _ _) eqn:E; [|discriminate]. injection HT as <-. apply seqb_eq in E.
    destruct (strip_split s) as (a & b & ES & HA & HB). exists a, (strip s), b. repeat split; auto. rewrite <- E.
    destruct tokens_text as (_ & _ & _ & X). eapply X; [exact R|reflexivity|apply raw_shapes].
  - intros (a & t & b & -> & HA & HB & H). destruct text_ends as (_ & _ & _ & EI). destruct (EI t g H) as [H1 H2].
    destruct text_tokens as (_ & _ & _ & X). destruct (X t g H) as (rt & EC & R & HC).
    apply from_iff. exists (map clean_token rt). split; auto. unfold geo_tokens. rewrite strip_blanks by auto.
    assert (ER : raw_tokens t = rt).
    { unfold raw_tokens. rewrite <- EC. apply finditer_cut; [reflexivity|]. apply cutr_cut. apply HC. now left. }
    rewrite ER, EC. replace (seqb t t) with true by (symmetry; now apply seqb_eq). reflexivity.
Qed.
