(** The lattice reader accepts exactly its grammar. *)

From Coq Require Import Ascii String NArith ZArith Bool Arith List Lia.
From Verif Require Import PyStr Regex RegexParse RegexFacts RegexLang PyNumFacts Types TypesFacts SubFacts CardsFacts2 Geometry GeometrySpec GeometryFacts Lattice LatticeSpec.
Import ListNotations.
Open Scope list_scope.

Scheme item_ind' := Induction for g_item Sort Prop with chain_ind' := Induction for g_chain Sort Prop.
Combined Scheme lat_ind2 from item_ind', chain_ind'.

(** * Digits *)
Definition cs_sign : cset := cs [(43, 43); (45, 45)]%N.
Definition r_ldig : re := RCat (RRep false 0 (Some 1) (RSet cs_sign)) (RRep true 1 None (RSet cs_dig)).
Lemma ldigit_eq : re_ldigit = whole (RGrp 1 r_ldig).
Proof. vm_compute. reflexivity. Qed.
Lemma inset_sign c : inset cs_sign c = true <-> In c ["+"; "-"]%char.
Proof.
  split.
  - pose proof (all_ascii (fun c => implb (inset cs_sign c) (existsb (Ascii.eqb c) ["+"; "-"]%char)) eq_refl c) as H. cbn beta in H.
    intros E. rewrite E in H. cbn [implb] in H. apply existsb_exists in H as (x & HX & E'). apply Ascii.eqb_eq in E'. now subst.
  - intros [<-|[<-|[]]]; reflexivity.
Qed.
Lemma ldigit_match d : match re_match re_ldigit d with Some o => mtext o = d /\ signed d | None => ~ signed d end.
Proof.
  rewrite ldigit_eq. destruct (re_match (whole (RGrp 1 r_ldig)) d) as [o|] eqn:E.
  - apply match_whole_inv in E as [HT HW]; [|reflexivity]. split; auto.
    destruct HW as (c' & (u1 & u2 & c1 & c2 & H1 & H2 & -> & _) & _).
    apply W_rep_set in H2 as (A & B & _). assert (D : some_digits u2).
    { apply some_digits_allc. split; auto. destruct u2; [cbn in B; lia|discriminate]. }
    apply W_rep_set in H1 as (A1 & _ & B1 & _). cbn in B1. destruct u1 as [|x [|]]; [now left|right|cbn in B1; lia].
    exists x, u2. repeat split; auto; try apply D. inversion A1; subst. now apply inset_sign.
  - intros HS. enough (HA : exists c, accc (RGrp 1 r_ldig) d c).
    { destruct HA as (c' & HA). unfold re_match, match_at in E.
      destruct (m (whole (RGrp 1 r_ldig)) (mkst [] d []) Some) eqn:EM; [discriminate|].
      rewrite m_none in EM. specialize (HA [] [] []). rewrite app_nil_r in HA.
      specialize (EM (mkst (rev d ++ []) [] (c' ++ []))). discriminate EM.
      unfold whole. cbn [M]. exists (mkst [] d []). split; [auto|]. apply M_snoc_end. split; [exact HA|reflexivity]. }
    destruct HS as [D|(c & d' & D & -> & HC)]; eexists; apply accc_grp, acc_accc; apply some_digits_allc in D as [N D].
    + apply (acc_cat _ _ [] d); [apply acc_opt_none|now apply acc_plus_set].
    + apply (acc_cat _ _ [c] d'); [apply acc_opt_some; [|discriminate]; apply acc_set; now apply inset_sign|now apply acc_plus_set].
Qed.
Lemma digit_read d rest : signed d -> l_digit (d :: rest) = Some (Ok (LDigit d, rest)).
Proof.
  intros H. unfold l_digit. pose proof (ldigit_match d) as E. destruct (re_match re_ldigit d); [|tauto]. destruct E as [-> _]. reflexivity.
Qed.
Lemma digit_inv ts l ts' : l_digit ts = Some (Ok (l, ts')) -> exists d, ts = d :: ts' /\ l = LDigit d /\ signed d.
Proof.
  unfold l_digit. destruct ts as [|t ts]; [discriminate|]. pose proof (ldigit_match t) as E. destruct (re_match re_ldigit t); [|discriminate].
  destruct E as [-> E]. intros [= <- <-]. eauto.
Qed.
Lemma signed_head d : signed d -> exists c t, d = c :: t /\ (is_digit c = true \/ In c ["+"; "-"]%char).
Proof.
  intros [[N H]|(c & t & _ & -> & H)]; [|eauto]. destruct d; [now destruct N|]. inversion H; eauto.
Qed.
Lemma signed_not d c : signed d -> is_digit c = false -> ~ In c ["+"; "-"]%char -> tok_is c d = false.
Proof. intros H HC HN. apply tok_is_neq. intros ->. apply signed_head in H as (x & t & E & H). injection E as <- _. destruct H; [congruence|contradiction]. Qed.
Ltac not_sign := cbn; intros [?|[?|[]]]; discriminate.

(** * Places *)
Lemma lbind_ok x k g ts : lbind x k = Some (Ok (g, ts)) -> exists g' ts', x = Some (Ok (g', ts')) /\ k g' ts' = Some (Ok (g, ts)).
Proof. destruct x as [[[g' ts']| |]|]; cbn; intros H; try discriminate. eauto. Qed.
Lemma index_read lo hi rest : signed lo -> signed hi -> l_index (lo :: L ":" :: hi :: rest) = Some (Ok (LIndex (LDigit lo) (LDigit hi), rest)).
Proof. intros H1 H2. unfold l_index. rewrite digit_read by auto. cbn [lbind]. change (tok_is ":" (L ":")) with true. cbn iota. now rewrite digit_read. Qed.
Lemma index_inv ts l ts' : l_index ts = Some (Ok (l, ts')) ->
  exists lo hi, ts = lo :: L ":" :: hi :: ts' /\ l = LIndex (LDigit lo) (LDigit hi) /\ signed lo /\ signed hi.
Proof.
  unfold l_index. intros H. apply lbind_ok in H as (g & t & H1 & H). apply digit_inv in H1 as (lo & -> & -> & H1).
  destruct t as [|t ts]; [discriminate|]. destruct (tok_is ":" t) eqn:E; [|discriminate]. apply tok_is_eq in E as ->.
  apply lbind_ok in H as (g & t' & H2 & H). apply digit_inv in H2 as (hi & -> & -> & H2). injection H as <- <-. exists lo, hi. auto.
Qed.
Definition l_place (b : bool) (ts : list str) : lparsed := if b then l_index ts else l_digit ts.
Lemma place_inv b ts l ts' : l_place b ts = Some (Ok (l, ts')) -> exists u, ts = u ++ ts' /\ g_place u l /\ is_index l = b.
Proof.
  destruct b; cbn [l_place]; intros H.
  - apply index_inv in H as (lo & hi & -> & -> & H1 & H2). exists [lo; L ":"; hi]. repeat split. apply (place_range [lo] _ [hi]); now constructor.
  - apply digit_inv in H as (d & -> & -> & H). exists [d]. repeat split. now do 2 constructor.
Qed.
Lemma place_read u l rest : g_place u l -> l_place (is_index l) (u ++ rest) = Some (Ok (l, rest)).
Proof.
  intros H. inversion H as [ts l' H1|ts1 lo ts2 hi H1 H2]; subst.
  - inversion H1; subst. cbn. now apply digit_read.
  - inversion H1; inversion H2; subst. cbn. now apply index_read.
Qed.
Lemma place_shape u l : g_place u l -> (is_index l = false /\ exists d, u = [d] /\ signed d) \/ (is_index l = true /\ exists a b, u = [a; L ":"; b] /\ signed a /\ signed b).
Proof.
  intros H. inversion H as [ts l' H1|ts1 lo ts2 hi H1 H2]; subst.
  - inversion H1; subst. left. eauto.
  - inversion H1; inversion H2; subst. right. split; auto. exists d, d0. auto.
Qed.

Lemma range_eq ts : l_range ts =
  lbind (l_digit ts) (fun cell ts =>
  match ts with
  | t :: ts' =>
      if tok_is "[" t then
        lbind (l_place (colon_near ts) ts') (fun i ts =>
        lbind (l_place (colon_near ts) ts) (fun j ts =>
        lbind (l_place (colon_near ts) ts) (fun k ts =>
        match ts with
        | t :: ts' => if tok_is "]" t then Some (Ok (LRange cell i j k, ts')) else Some (Py SyntaxErr)
        | [] => Some (Py SyntaxErr)
        end)))
      else Some (Py AssertionError)
  | [] => Some (Py AssertionError)
  end).
Proof. reflexivity. Qed.

Definition no_colon (ts : list str) : Prop := tok_is ":" (nth 0 ts []) = false.
Lemma signed_colon d : signed d -> tok_is ":" d = false.
Proof. intros H. apply signed_not; auto. not_sign. Qed.
Lemma place_head u l rest : g_place u l -> tok_is ":" (nth 0 (u ++ rest) []) = false.
Proof. intros H. apply place_shape in H as [[_ (d & -> & H)]|[_ (a & b & -> & H & _)]]; cbn; now apply signed_colon. Qed.

Lemma range_read tc c ti i tj j tk k rest : g_digit tc c -> g_place ti i -> g_place tj j -> g_place tk k ->
  (is_index k = true -> is_index j = true) -> no_colon rest ->
  l_range ((tc ++ L "[" :: ti ++ tj ++ tk ++ [L "]"]) ++ rest) = Some (Ok (LRange c i j k, rest)).
Proof.
  intros HC HI HJ HK HX HR. inversion HC as [d HD]; subst. rewrite range_eq. cbn [app]. rewrite digit_read by auto. cbn [lbind].
  change (tok_is "[" (L "[")) with true. cbn iota. rewrite <- !app_assoc. cbn [app].
  assert (E1 : colon_near (L "[" :: ti ++ tj ++ tk ++ L "]" :: rest) = is_index i).
  { pose proof (place_head tj j (tk ++ L "]" :: rest) HJ) as P. unfold colon_near.
    apply place_shape in HI as [[-> (d1 & -> & H1)]|[-> (a & b & -> & H1 & _)]].
    - cbn [app nth]. rewrite signed_colon by auto. cbn [orb]. exact P.
    - cbn [app nth]. change (tok_is ":" (L ":")) with true. now rewrite orb_true_r. }
  rewrite E1, place_read by auto. cbn [lbind].
  assert (E2 : colon_near (tj ++ tk ++ L "]" :: rest) = is_index j).
  { pose proof (place_head tk k (L "]" :: rest) HK) as P. unfold colon_near.
    apply place_shape in HJ as [[EJ (d1 & -> & H1)]|[EJ (a & b & -> & H1 & _)]]; rewrite EJ.
    - cbn [app nth] in *. rewrite P. cbn [orb]. destruct (is_index k) eqn:EK; [specialize (HX eq_refl); congruence|].
      apply place_shape in HK as [[_ (d2 & -> & H2)]|[EK' _]]; [reflexivity|congruence].
    - reflexivity. }
  rewrite E2, place_read by auto. cbn [lbind].
  assert (E3 : colon_near (tk ++ L "]" :: rest) = is_index k).
  { unfold colon_near. apply place_shape in HK as [[-> (d1 & -> & H1)]|[-> (a & b & -> & H1 & _)]].
    - cbn [app nth]. change (tok_is ":" (L "]")) with false. exact HR.
    - reflexivity. }
  rewrite E3, place_read by auto. reflexivity.
Qed.
Lemma range_inv ts l ts' : l_range ts = Some (Ok (l, ts')) -> exists u, ts = u ++ ts' /\ g_item u l.
Proof.
  rewrite range_eq. intros H. apply lbind_ok in H as (c & t & H1 & H). apply digit_inv in H1 as (d & -> & -> & HD).
  destruct t as [|t ts]; [discriminate|]. destruct (tok_is "[" t) eqn:E; [|discriminate]. apply tok_is_eq in E as ->.
  apply lbind_ok in H as (i & t1 & HI & H). apply place_inv in HI as (ui & -> & HI & _).
  apply lbind_ok in H as (j & t2 & HJ & H). apply place_inv in HJ as (uj & -> & HJ & EJ).
  apply lbind_ok in H as (k & t3 & HK & H). apply place_inv in HK as (uk & -> & HK & EK).
  destruct t3 as [|t t3]; [discriminate|]. destruct (tok_is "]" t) eqn:E; [|discriminate]. apply tok_is_eq in E as ->. injection H as <- <-.
  exists ([d] ++ L "[" :: ui ++ uj ++ uk ++ [L "]"]). split; [cbn; now rewrite <- !app_assoc|].
  apply item_range; auto; [now constructor|]. intros KX.
  apply place_shape in HK as [[? _]|[_ (a & b & -> & _)]]; [congruence|].
  apply place_shape in HJ as [[EJ' (e & -> & _)]|[? _]]; [|auto]. rewrite EJ. unfold colon_near. cbn [app nth].
  change (tok_is ":" (L ":")) with true. now rewrite orb_true_r.
Qed.

(** * Unfolding *)
Lemma emb_eq f ts : l_emb (S f) ts = match ts with [] => Some (Py SyntaxErr) | _ => lbind (l_item f ts) (fun left ts => l_emb_loop f left ts) end.
Proof. reflexivity. Qed.
Lemma loop_eq f left ts : l_emb_loop (S f) left ts =
  match ts with
  | t :: ts' => if tok_is "<" t then lbind (l_item f ts') (fun right ts => l_emb_loop f (LEmb left right) ts) else Some (Ok (left, ts))
  | [] => Some (Ok (left, ts))
  end.
Proof. reflexivity. Qed.
Lemma item_eq f ts : l_item (S f) ts =
  if tok_is "(" (nth 0 ts []) then l_paren f ts else if tok_is "[" (nth 1 ts []) then l_range ts else l_digit ts.
Proof. reflexivity. Qed.
Lemma lparen_eq f ts : l_paren (S f) ts =
  match ts with
  | [] => Some (Py IndexError)
  | _ :: ts' =>
      lbind (l_emb f ts') (fun g ts =>
      match ts with
      | t :: ts'' => if tok_is ")" t then Some (Ok (LParen g, ts'')) else Some (Py AssertionError)
      | [] => Some (Py IndexError)
      end)
  end.
Proof. reflexivity. Qed.
Lemma top_eq f left ts : l_top (S f) left ts =
  match ts with [] => Some (Ok (left, [])) | _ => lbind (l_emb f ts) (fun right ts => l_top f (LEmb left right) ts) end.
Proof. reflexivity. Qed.

(** * The grammar is read *)
Definition lgives (p : nat -> lparsed) (r : result (lat * list str)) : Prop := exists f, forall k, f <= k -> p k = Some r.
(** What may follow an item: nothing that would continue it. *)
Definition follow (ts : list str) : Prop := tok_is ":" (nth 0 ts []) = false /\ tok_is "[" (nth 0 ts []) = false.
Definition stops_chain (ts : list str) : Prop := follow ts /\ tok_is "<" (nth 0 ts []) = false.

Lemma item_head : (forall ts l, g_item ts l -> exists t ts', ts = t :: ts' /\ (signed t \/ t = L "(")) /\
  (forall ts l, g_chain ts l -> exists t ts', ts = t :: ts' /\ (signed t \/ t = L "(")).
Proof.
  apply lat_ind2.
  - intros ts l H. inversion H; subst. eauto.
  - intros tc c ti i tj j tk k H _ _ _ _. inversion H; subst. cbn. eauto.
  - intros. eexists _, _. split; [reflexivity|]. now right.
  - auto.
  - intros ts1 l1 ts2 l2 _ (t & ts' & -> & H) _ _. cbn. eauto.
Qed.
Lemma head_stop t ts : signed t \/ t = L "(" -> stops_chain (t :: ts).
Proof.
  unfold stops_chain, follow. cbn [nth]. intros [H | ->]; [|repeat split].
  repeat split; apply signed_not; auto; not_sign.
Qed.

Lemma lat_read :
  (forall ts l, g_item ts l -> forall rest, follow rest -> lgives (fun k => l_item k (ts ++ rest)) (Ok (l, rest))) /\
  (forall ts l, g_chain ts l -> forall rest r, follow rest -> lgives (fun k => l_emb_loop k l rest) r -> lgives (fun k => l_emb k (ts ++ rest)) r).
Proof.
  assert (NP : forall d, signed d -> tok_is "(" d = false) by (intros d H; apply signed_not; auto; not_sign).
  apply lat_ind2.
  - intros ts l H rest [_ HF]. inversion H as [d HD]; subst. exists 1. intros k HK. destruct k; [lia|]. rewrite item_eq. cbn [app nth].
    rewrite NP by auto. destruct rest as [|t rest]; cbn [nth] in *; [change (tok_is "[" []) with false|rewrite HF]; now apply digit_read.
  - intros tc c ti i tj j tk k HC HI HJ HK HX rest [HF _]. exists 1. intros n HN. destruct n; [lia|]. rewrite item_eq.
    assert (E : exists d, signed d /\ tc = [d]) by (inversion HC; eauto). destruct E as (d & HD & ->).
    rewrite (range_read [d] c ti i tj j tk k rest) by auto. cbn [app nth]. rewrite NP by auto. reflexivity.
  - intros ts l _ IH rest HF. destruct (IH (L ")" :: rest) (Ok (l, L ")" :: rest))) as [f H]; [now split|exists 1; intros k HK; destruct k; [lia|reflexivity]|].
    exists (S (S f)). intros k HK. destruct k as [|[|k]]; try lia. rewrite item_eq. cbn [app nth]. change (tok_is "(" (L "(")) with true. cbn iota.
    rewrite lparen_eq, <- app_assoc. cbn [app]. rewrite H by lia. reflexivity.
  - intros ts l HI IH rest r HF [f H]. destruct (IH rest HF) as [f' H']. exists (S (f + f')). intros k HK. destruct k; [lia|]. rewrite emb_eq.
    destruct (proj1 item_head ts l HI) as (t & ts' & -> & _). cbn [app] in *. rewrite H' by lia. cbn [lbind]. apply H. lia.
  - intros ts1 l1 ts2 l2 HC IH1 HI IH2 rest r HF [f H]. rewrite <- app_assoc. apply IH1; [now split|].
    destruct (IH2 rest HF) as [f' H']. exists (S (f + f')). intros k HK. destruct k; [lia|]. rewrite loop_eq. cbn [app].
    change (tok_is "<" (L "<")) with true. cbn iota. rewrite H' by lia. cbn [lbind]. apply H. lia.
Qed.
Lemma chain_read ts l rest : g_chain ts l -> stops_chain rest -> lgives (fun k => l_emb k (ts ++ rest)) (Ok (l, rest)).
Proof.
  intros H [HF HL]. apply (proj2 lat_read _ _ H); auto. exists 1. intros k HK. destruct k; [lia|]. rewrite loop_eq. destruct rest; auto. cbn [nth] in HL. now rewrite HL.
Qed.
Definition l_all (k : nat) (ts : list str) : lparsed := lbind (l_emb k ts) (fun left ts => l_top k left ts).
Lemma bins_read ts l : g_bins ts l -> forall rest r, stops_chain rest -> lgives (fun k => l_top k l rest) r -> lgives (fun k => l_all k (ts ++ rest)) r.
Proof.
  induction 1 as [ts l H|ts1 l1 ts2 l2 H1 IH H2]; intros rest r HS [f HR].
  - destruct (chain_read ts l rest H HS) as [f' H']. exists (f + f'). intros k HK. unfold l_all. rewrite H' by lia. apply HR. lia.
  - rewrite <- app_assoc. destruct (proj2 item_head _ _ H2) as (t & ts' & E & HT). apply IH; [rewrite E; now apply head_stop|].
    destruct (chain_read ts2 l2 rest H2 HS) as [f' H']. exists (S (f + f')). intros k HK. destruct k; [lia|].
    rewrite top_eq. rewrite H' by lia. rewrite E. cbn [app lbind]. apply HR. lia.
Qed.

(** * What is read is in the grammar *)
Lemma lat_inv f :
  (forall ts l ts', l_emb f ts = Some (Ok (l, ts')) -> exists u, ts = u ++ ts' /\ g_chain u l) /\
  (forall l0 ts l ts', l_emb_loop f l0 ts = Some (Ok (l, ts')) -> exists u, ts = u ++ ts' /\ forall u0, g_chain u0 l0 -> g_chain (u0 ++ u) l) /\
  (forall ts l ts', l_item f ts = Some (Ok (l, ts')) -> exists u, ts = u ++ ts' /\ g_item u l) /\
  (forall ts l ts', l_paren f ts = Some (Ok (l, ts')) -> tok_is "(" (nth 0 ts []) = true -> exists u, ts = u ++ ts' /\ g_item u l).
Proof.
  induction f as [|f (A & B & C & D)]; [repeat split; intros; discriminate|]. split; [|split; [|split]].
  - intros ts l ts' H. rewrite emb_eq in H. destruct ts as [|t ts]; [discriminate|]. apply lbind_ok in H as (l1 & t1 & H1 & H2).
    apply C in H1 as (u1 & E1 & R1). apply B in H2 as (u2 & -> & R2). exists (u1 ++ u2). rewrite E1, app_assoc. split; auto. apply R2. now constructor.
  - intros l0 ts l ts' H. rewrite loop_eq in H. destruct ts as [|t ts].
    { injection H as <- <-. exists []. split; auto. intros. now rewrite app_nil_r. }
    destruct (tok_is "<" t) eqn:E; [|injection H as <- <-; exists []; split; auto; intros; now rewrite app_nil_r].
    apply tok_is_eq in E as ->. apply lbind_ok in H as (l1 & t1 & H1 & H2). apply C in H1 as (u1 & -> & R1). apply B in H2 as (u2 & -> & R2).
    exists (L "<" :: u1 ++ u2). split; [cbn; now rewrite <- app_assoc|]. intros u0 R0.
    replace (u0 ++ L "<" :: u1 ++ u2) with ((u0 ++ L "<" :: u1) ++ u2) by (rewrite <- app_assoc; reflexivity). apply R2. now apply chain_more.
  - intros ts l ts' H. rewrite item_eq in H. destruct (tok_is "(" (nth 0 ts [])) eqn:EP; [now apply D in H|].
    destruct (tok_is "[" (nth 1 ts [])); [now apply range_inv in H|]. apply digit_inv in H as (d & -> & -> & H). exists [d]. split; auto. now do 2 constructor.
  - intros ts l ts' H HP. rewrite lparen_eq in H. destruct ts as [|t ts]; [discriminate|]. cbn [nth] in HP. apply tok_is_eq in HP as ->.
    apply lbind_ok in H as (g1 & t1 & H1 & H2). destruct t1 as [|t2 t1]; [discriminate|]. destruct (tok_is ")" t2) eqn:EC; [|discriminate].
    injection H2 as <- <-. apply tok_is_eq in EC as ->. apply A in H1 as (u & -> & R). exists (L "(" :: u ++ [L ")"]).
    split; [cbn; now rewrite <- app_assoc|now constructor].
Qed.
Lemma top_inv f : forall l0 ts l ts', l_top f l0 ts = Some (Ok (l, ts')) -> ts' = [] /\ forall u0, g_bins u0 l0 -> g_bins (u0 ++ ts) l.
Proof.
  induction f as [|f IH]; [discriminate|]. intros l0 ts l ts' H. rewrite top_eq in H. destruct ts as [|t ts].
  { injection H as <- <-. split; auto. intros. now rewrite app_nil_r. }
  apply lbind_ok in H as (l1 & t1 & H1 & H2). apply lat_inv in H1 as (u1 & E1 & R1). apply IH in H2 as [-> R2]. split; auto.
  intros u0 R0. rewrite E1, app_assoc. apply R2. now constructor.
Qed.
Lemma all_inv k ts l ts' : l_all k ts = Some (Ok (l, ts')) -> g_bins ts l.
Proof.
  intros H. apply lbind_ok in H as (l1 & t1 & H1 & H2). apply lat_inv in H1 as (u1 & -> & R1). apply top_inv in H2 as [_ R2]. apply R2. now constructor.
Qed.

(** * Fuel *)
Lemma lbind_mono x x' k k' r : (forall y, x = Some y -> x' = Some y) ->
  (forall g ts r, k g ts = Some r -> k' g ts = Some r) -> lbind x k = Some r -> lbind x' k' = Some r.
Proof. intros HX HK. destruct x as [y|]; [|discriminate]. rewrite (HX y eq_refl). destruct y as [[g ts]| |]; cbn; auto. Qed.
Definition lmono (f1 f2 : list str -> lparsed) : Prop := forall ts r, f1 ts = Some r -> f2 ts = Some r.
Lemma lmono_step f : lmono (l_emb f) (l_emb (S f)) /\ (forall l, lmono (l_emb_loop f l) (l_emb_loop (S f) l)) /\
  lmono (l_item f) (l_item (S f)) /\ lmono (l_paren f) (l_paren (S f)).
Proof.
  induction f as [|f (A & B & C & D)]; [repeat split; intros ? **; discriminate|]. split; [|split; [|split]].
  - intros ts r. rewrite (emb_eq f), (emb_eq (S f)). destruct ts; auto. apply lbind_mono; [intros y; apply C|intros; now apply B].
  - intros l ts r. rewrite (loop_eq f), (loop_eq (S f)). destruct ts as [|t ts]; auto. destruct (tok_is "<" t); auto.
    apply lbind_mono; [intros y; apply C|intros; now apply B].
  - intros ts r. rewrite (item_eq f), (item_eq (S f)). destruct (tok_is "(" _); [apply D|auto].
  - intros ts r. rewrite (lparen_eq f), (lparen_eq (S f)). destruct ts; auto. apply lbind_mono; [intros y; apply A|auto].
Qed.
Lemma top_mono f : forall l, lmono (l_top f l) (l_top (S f) l).
Proof.
  induction f as [|f IH]; [intros l ts r; discriminate|]. intros l ts r. rewrite (top_eq f), (top_eq (S f)). destruct ts; auto.
  apply lbind_mono; [intros y; apply (proj1 (lmono_step f))|intros; now apply IH].
Qed.
Lemma all_mono f : lmono (l_all f) (l_all (S f)).
Proof. intros ts r. apply lbind_mono; [intros y; apply (proj1 (lmono_step f))|intros; now apply top_mono]. Qed.

Definition lraises (r : lparsed) : Prop :=
  match r with None => False | Some (Ok _) => True | Some (Lib _) => False | Some (Py e) => In e [AssertionError; IndexError; SyntaxErr] end.
Lemma lbind_raises x k : lraises x -> (forall g ts, x = Some (Ok (g, ts)) -> lraises (k g ts)) -> lraises (lbind x k).
Proof. destruct x as [[[g ts]| |]|]; cbn; auto. Qed.
Lemma ldigit_raises ts : lraises (l_digit ts).
Proof. unfold l_digit. destruct ts as [|t ts]; [cbn; auto|]. destruct (re_match re_ldigit t); cbn; auto. Qed.
Lemma place_raises b ts : lraises (l_place b ts).
Proof.
  destruct b; cbn [l_place]; [|apply ldigit_raises]. unfold l_index. apply lbind_raises; [apply ldigit_raises|]. intros g t _.
  destruct t as [|t ts']; [cbn; auto|]. destruct (tok_is ":" t); [|cbn; auto]. apply lbind_raises; [apply ldigit_raises|]. intros; exact I.
Qed.
Lemma range_raises ts : lraises (l_range ts).
Proof.
  rewrite range_eq. apply lbind_raises; [apply ldigit_raises|]. intros g t _. destruct t as [|t ts']; [cbn; auto|].
  destruct (tok_is "[" t); [|cbn; auto]. apply lbind_raises; [apply place_raises|]. intros i t1 _.
  apply lbind_raises; [apply place_raises|]. intros j t2 _. apply lbind_raises; [apply place_raises|]. intros k t3 _.
  destruct t3 as [|t3 t4]; [cbn; auto|]. destruct (tok_is "]" t3); cbn; auto.
Qed.
Lemma item_len ts l : g_item ts l -> 1 <= length ts.
Proof. intros H. destruct (proj1 item_head _ _ H) as (t & ts' & -> & _). cbn. lia. Qed.
Lemma chain_len ts l : g_chain ts l -> 1 <= length ts.
Proof. intros H. destruct (proj2 item_head _ _ H) as (t & ts' & -> & _). cbn. lia. Qed.
Lemma lat_fuel f :
  (forall ts, 8 * length ts + 3 <= f -> lraises (l_emb f ts)) /\
  (forall l ts, 8 * length ts + 1 <= f -> lraises (l_emb_loop f l ts)) /\
  (forall ts, 8 * length ts + 2 <= f -> lraises (l_item f ts)) /\
  (forall ts, 8 * length ts + 1 <= f -> lraises (l_paren f ts)).
Proof.
  induction f as [|f (A & B & C & D)]; [repeat split; intros; lia|]. destruct (lat_inv f) as (RA & RB & RC & RD). split; [|split; [|split]].
  - intros ts H. rewrite emb_eq. destruct ts as [|t ts]; [cbn; auto|]. apply lbind_raises; [apply C; lia|]. intros g t1 H1. apply B.
    apply RC in H1 as (u & E1 & R). apply item_len in R. apply (f_equal (@length str)) in E1. rewrite app_length in E1. cbn in *. lia.
  - intros l ts H. rewrite loop_eq. destruct ts as [|t ts]; [exact I|]. cbn [length] in H. destruct (tok_is "<" t); [|exact I].
    apply lbind_raises; [apply C; lia|]. intros g t1 H1. apply B. apply RC in H1 as (u & -> & R). apply item_len in R. rewrite app_length in H. lia.
  - intros ts H. rewrite item_eq. destruct (tok_is "(" _); [apply D; lia|]. destruct (tok_is "[" _); [apply range_raises|apply ldigit_raises].
  - intros ts H. rewrite lparen_eq. destruct ts as [|t ts]; [cbn; auto|]. cbn [length] in H. apply lbind_raises; [apply A; lia|].
    intros g t1 _. destruct t1 as [|t2 t1]; [cbn; auto|]. destruct (tok_is ")" t2); cbn; auto.
Qed.
Lemma top_fuel f : forall l ts, 8 * length ts + 4 <= f -> lraises (l_top f l ts).
Proof.
  induction f as [|f IH]; [lia|]. intros l ts H. rewrite top_eq. destruct ts as [|t ts]; [exact I|].
  apply lbind_raises; [apply lat_fuel; lia|]. intros g t1 H1. apply IH. apply lat_inv in H1 as (u & E1 & R). apply chain_len in R.
  apply (f_equal (@length str)) in E1. rewrite app_length in E1. cbn in *. lia.
Qed.
Lemma all_fuel ts : lraises (l_all (lfuel ts) ts).
Proof.
  unfold l_all, lfuel. apply lbind_raises; [apply lat_fuel; lia|]. intros g t1 H1. apply top_fuel. apply lat_inv in H1 as (u & -> & R). rewrite app_length. lia.
Qed.
Lemma all_iff ts l : (exists ts', l_all (lfuel ts) ts = Some (Ok (l, ts'))) <-> g_bins ts l.
Proof.
  split; [intros [ts' H]; now apply all_inv in H|]. intros H.
  destruct (bins_read ts l H [] (Ok (l, []))) as [f HF]; [repeat split|exists 1; intros k HK; destruct k; [lia|reflexivity]|].
  rewrite app_nil_r in HF. pose proof (all_fuel ts) as R. destruct (l_all (lfuel ts) ts) as [r|] eqn:E; [|destruct R].
  assert (U : forall k, l_all (k + lfuel ts) ts = Some r) by (induction k; [exact E|now apply all_mono]).
  specialize (HF (f + lfuel ts) ltac:(lia)). rewrite U in HF. injection HF as ->. eauto.
Qed.
Lemma lat_from_iff s l : lat_from_mcnp s = Ok l <-> exists ts, lat_tokens s = Some ts /\ g_bins ts l.
Proof.
  unfold lat_from_mcnp. split.
  - intros H. destruct (lat_tokens s) as [ts|]; [|discriminate]. exists ts. split; auto. apply all_iff. fold (l_all (lfuel ts) ts) in H.
    destruct (l_all (lfuel ts) ts) as [[[g' t']|e|e]|]; try discriminate; [injection H as ->; eauto|destruct e; discriminate].
  - intros (ts & -> & R). apply all_iff in R as [ts' R]. fold (l_all (lfuel ts) ts). now rewrite R.
Qed.
Lemma lat_from_raises s : match lat_from_mcnp s with
  | Ok _ => True | Lib e => e = TypesError | Py e => e = AssertionError \/ e = IndexError end.
Proof.
  unfold lat_from_mcnp. destruct (lat_tokens s) as [ts|]; [|reflexivity]. pose proof (all_fuel ts) as H. fold (l_all (lfuel ts) ts).
  destruct (l_all _ ts) as [[[g' t']|e|e]|]; cbn in H; auto; try tauto. destruct H as [<-|[<-|[<-|[]]]]; auto.
Qed.
