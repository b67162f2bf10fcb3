(** The recursive-descent reader accepts exactly the grammar. *)

From Coq Require Import Ascii String NArith ZArith Bool Arith List Lia.
From Verif Require Import PyStr Regex RegexParse RegexFacts RegexLang PyNumFacts Types TypesFacts SubFacts CardsFacts2 Geometry GeometrySpec.
Import ListNotations.
Open Scope list_scope.

Scheme prim_ind' := Induction for r_prim Sort Prop
with atom_ind' := Induction for r_atom Sort Prop
with union_ind' := Induction for r_union Sort Prop
with inter_ind' := Induction for r_inter Sort Prop.
Combined Scheme geo_ind4 from prim_ind', atom_ind', union_ind', inter_ind'.

(** * Digits *)
Definition r_gnum : re := RCat r_dig (RRep false 0 (Some 1) (RCat (RSet (cs [(46, 46)]%N)) r_dig)).
Lemma gdigit_eq : re_gdigit = RCat RBeg (RCat (RGrp 1 r_gnum) REnd).
Proof. vm_compute. reflexivity. Qed.
Lemma some_digits_allc s : some_digits s <-> s <> [] /\ allc (inset cs_dig) s.
Proof.
  unfold some_digits, allc. split; intros [A B]; split; auto; (eapply Forall_impl; [|exact B]); intros c H; [rewrite inset_dig|rewrite <- inset_dig]; exact H.
Qed.
Lemma W_dig u c : W r_dig u c <-> some_digits u /\ c = [].
Proof.
  rewrite some_digits_allc. split.
  - intros H. apply W_rep_set in H as (A & B & _ & ->). repeat split; auto. destruct u; [cbn in B; lia|discriminate].
  - intros [[A B] ->]. exists (map (fun c => ([c], [])) u). split; [|split; [|split; [exact I|split]]].
    + apply Forall_map. eapply Forall_impl; [|exact B]. intros a Ha. exists a. auto.
    + rewrite map_length. destruct u; [now destruct A|cbn; lia].
    + rewrite map_map. cbn. clear. induction u as [|a u IH]; [reflexivity|]. cbn. now rewrite <- IH.
    + rewrite map_map. cbn. clear. induction u as [|a u IH]; [reflexivity|]. cbn. rewrite concat_app, <- IH. reflexivity.
Qed.

Lemma number_W d : number d <-> exists c, W (RGrp 1 r_gnum) d c.
Proof.
  split.
  - intros [H|(a & b & HA & HB & ->)]; eexists; cbn [W]; eexists; (split; [|reflexivity]).
    + exists d, [], [], []. rewrite app_nil_r. repeat split; [now apply W_dig|]. exists []. cbn. repeat split; auto; lia.
    + exists a, ("."%char :: b), [], []. repeat split; [now apply W_dig|]. exists [("."%char :: b, [])]. cbn [map fst snd concat rev app length].
      rewrite app_nil_r. repeat split; auto. constructor; auto. cbn [fst snd].
      exists ["."%char], b, [], []. repeat split; auto; [|now apply W_dig]. exists "."%char. auto.
  - intros (c & c' & (u1 & u2 & c1 & c2 & H1 & H2 & -> & _) & _). apply W_dig in H1 as [H1 _].
    apply W_opt in H2 as [[-> _]|H2]; [rewrite app_nil_r; now left|right].
    destruct H2 as (v1 & v2 & d1 & d2 & (x & -> & HX & _) & H3 & -> & _). apply W_dig in H3 as [H3 _].
    exists u1, v2. repeat split; auto; try apply H1; try apply H3. cbn [app]. f_equal. f_equal.
    rewrite <- (ascii_N_embedding x). unfold inset in HX. cbn in HX. unfold code in HX.
    destruct (46 <=? N_of_ascii x)%N eqn:E1; [|discriminate]. destruct (N_of_ascii x <=? 46)%N eqn:E2; [|discriminate].
    apply N.leb_le in E1, E2. now replace (N_of_ascii x) with 46%N by lia.
Qed.
Lemma digit_match d : (re_match re_gdigit d <> None) <-> number d.
Proof.
  rewrite number_W, gdigit_eq. change (RCat RBeg (RCat (RGrp 1 r_gnum) REnd)) with (whole (RGrp 1 r_gnum)). split.
  - destruct (re_match (whole (RGrp 1 r_gnum)) d) as [o|] eqn:E; [|congruence]. intros _.
    apply match_whole_inv in E as [_ E]; [|reflexivity]. eauto.
  - intros (c & H) E. destruct (number_W d) as [_ HN]. assert (N : number d) by (apply HN; eauto).
    enough (HA : exists c, accc (RGrp 1 r_gnum) d c).
    { destruct HA as (c' & HA). unfold re_match, match_at in E. 
      destruct (m (whole (RGrp 1 r_gnum)) (mkst [] d []) Some) eqn:EM; [discriminate|].
      rewrite m_none in EM. specialize (HA [] [] []). rewrite app_nil_r in HA.
      specialize (EM (mkst (rev d ++ []) [] (c' ++ []))). discriminate EM.
      unfold whole. cbn [M]. exists (mkst [] d []). split; [auto|]. apply M_snoc_end. split; [exact HA|reflexivity]. }
    destruct N as [N|(a & b & HA & HB & ->)].
    + eexists. apply accc_grp. apply acc_accc. apply (acc_cat r_dig _ d []) || (rewrite <- (app_nil_r d); apply acc_cat; [|apply acc_opt_none]).
      apply acc_plus_set; apply some_digits_allc in N; tauto.
    + eexists. apply accc_grp. apply acc_accc. apply acc_cat; [apply acc_plus_set; apply some_digits_allc in HA; tauto|].
      apply acc_opt_some; [|discriminate]. apply (acc_cat _ _ ["."%char] b); [now apply acc_set|].
      apply acc_plus_set; apply some_digits_allc in HB; tauto.
Qed.

(** * Unfolding *)
Lemma inter_eq f ts : p_inter (S f) ts = pbind (p_union f ts) (fun left ts => p_inter_loop f left ts).
Proof. reflexivity. Qed.
Lemma inter_loop_eq f left ts : p_inter_loop (S f) left ts =
  match ts with
  | t :: ts' =>
      if (seqb t [] || tok_is " " t || tok_is "(" t)%bool then
        pbind (if tok_is "(" t then p_union f ts else p_union f ts')
          (fun right ts => p_inter_loop f (GInter left right) ts)
      else Some (Ok (left, ts))
  | [] => Some (Ok (left, ts))
  end.
Proof. reflexivity. Qed.
Lemma union_eq f ts : p_union (S f) ts =
  match ts with [] => Some (Py SyntaxErr) | _ => pbind (p_atom f ts) (fun left ts => p_union_loop f left ts) end.
Proof. reflexivity. Qed.
Lemma union_loop_eq f left ts : p_union_loop (S f) left ts =
  match ts with
  | t :: ts' =>
      if tok_is ":" t then
        match ts' with
        | [] => Some (Py IndexError)
        | _ => pbind (p_atom f ts') (fun right ts => p_union_loop f (GUnion left right) ts)
        end
      else Some (Ok (left, ts))
  | [] => Some (Ok (left, ts))
  end.
Proof. reflexivity. Qed.
Lemma atom_eq f ts : p_atom (S f) ts =
  match ts with
  | [] => Some (Py IndexError)
  | t :: _ => if tok_op t then p_unary f ts else if tok_is "(" t then p_paren f ts else p_digit ts
  end.
Proof. reflexivity. Qed.
Lemma unary_eq f ts : p_unary (S f) ts =
  match ts with
  | (op :: _) :: ts' =>
      pbind (match ts' with t :: _ => if tok_is "(" t then p_paren f ts' else p_digit ts' | [] => p_digit ts' end)
        (fun g ts => Some (Ok (GUnary op g, ts)))
  | _ => Some (Py AssertionError)
  end.
Proof. reflexivity. Qed.
Lemma paren_eq f ts : p_paren (S f) ts =
  match ts with
  | [] => Some (Py IndexError)
  | _ :: ts' =>
      pbind (p_inter f ts') (fun g ts =>
      match ts with
      | t :: ts'' => if tok_is ")" t then Some (Ok (GParen g, ts'')) else Some (Py SyntaxErr)
      | [] => Some (Py SyntaxErr)
      end)
  end.
Proof. reflexivity. Qed.

(** * More fuel does not change an answer *)
Lemma pbind_mono x x' k k' r : (forall y, x = Some y -> x' = Some y) ->
  (forall g ts r, k g ts = Some r -> k' g ts = Some r) -> pbind x k = Some r -> pbind x' k' = Some r.
Proof.
  intros HX HK. destruct x as [y|]; [|discriminate]. rewrite (HX y eq_refl). destruct y as [[g ts]| |]; cbn; auto.
Qed.
Definition mono1 (f1 f2 : list str -> parsed) : Prop := forall ts r, f1 ts = Some r -> f2 ts = Some r.
Lemma mono_step f :
  mono1 (p_inter f) (p_inter (S f)) /\ (forall l, mono1 (p_inter_loop f l) (p_inter_loop (S f) l)) /\
  mono1 (p_union f) (p_union (S f)) /\ (forall l, mono1 (p_union_loop f l) (p_union_loop (S f) l)) /\
  mono1 (p_atom f) (p_atom (S f)) /\ mono1 (p_unary f) (p_unary (S f)) /\ mono1 (p_paren f) (p_paren (S f)).
Proof.
  induction f as [|f (A & B & C & D & E & F & G)]; [repeat split; intros ? **; discriminate|].
  split; [|split; [|split; [|split; [|split; [|split]]]]].
  - intros ts r. rewrite (inter_eq f), (inter_eq (S f)). apply pbind_mono; [intros y; apply C|intros; now apply B].
  - intros l ts r. rewrite (inter_loop_eq f), (inter_loop_eq (S f)). destruct ts as [|t ts]; auto.
    destruct (_ || _)%bool; auto. apply pbind_mono; [|intros; now apply B]. intros y. destruct (tok_is "(" t); apply C.
  - intros ts r. rewrite (union_eq f), (union_eq (S f)). destruct ts; auto. apply pbind_mono; [intros y; apply E|intros; now apply D].
  - intros l ts r. rewrite (union_loop_eq f), (union_loop_eq (S f)). destruct ts as [|t [|t' ts]]; auto; destruct (tok_is ":" t); auto.
    apply pbind_mono; [intros y; apply E|intros; now apply D].
  - intros ts r. rewrite (atom_eq f), (atom_eq (S f)). destruct ts; auto. destruct (tok_op _); [apply F|]. destruct (tok_is _ _); [apply G|auto].
  - intros ts r. rewrite (unary_eq f), (unary_eq (S f)). destruct ts as [|[|op u] ts]; auto.
    apply pbind_mono; auto. intros y. destruct ts; auto. destruct (tok_is _ _); [apply G|auto].
  - intros ts r. rewrite (paren_eq f), (paren_eq (S f)). destruct ts; auto. apply pbind_mono; [intros y; apply A|auto].
Qed.

(** * Answers without fuel *)
Definition gives (p : nat -> parsed) (r : result (geo * list str)) : Prop := exists f, forall k, f <= k -> p k = Some r.
Lemma up (p : nat -> parsed) f r : (forall k r, p k = Some r -> p (S k) = Some r) -> p f = Some r -> gives p r.
Proof. intros HM H. exists f. intros k. induction 1; auto. Qed.
Lemma gives_inter f ts r : p_inter f ts = Some r -> gives (fun k => p_inter k ts) r.
Proof. apply (up (fun k => p_inter k ts)). intros k x. apply (proj1 (mono_step k)). Qed.

Lemma gives_det p r r' : gives p r -> gives p r' -> r = r'.
Proof. intros [f H] [f' H']. specialize (H (f + f')). specialize (H' (f + f')). rewrite H in H' by lia. injection H'; auto. lia. Qed.

(** * The grammar is read *)
Lemma tok_is_eq c t : tok_is c t = true <-> t = [c].
Proof. unfold tok_is. apply seqb_eq. Qed.
Lemma tok_is_neq c t : tok_is c t = false <-> t <> [c].
Proof. destruct (tok_is c t) eqn:E; [apply tok_is_eq in E; split; congruence|]. split; auto. intros _ H. apply tok_is_eq in H. congruence. Qed.

Definition not_colon (ts : list str) : Prop := match ts with t :: _ => t <> L ":" | [] => True end.

Lemma number_head d : number d -> exists c t, d = c :: t /\ is_digit c = true.
Proof.
  intros [[N H]|(a & b & [N H] & _ & ->)].
  - destruct d; [now destruct N|]. inversion H; eauto.
  - destruct a; [now destruct N|]. inversion H; subst. cbn. eauto.
Qed.
Lemma number_op d : number d -> tok_op d = false /\ tok_is "(" d = false.
Proof.
  intros H. apply number_head in H as (c & t & -> & H). unfold tok_op.
  assert (forall x, is_digit x = false -> tok_is x (c :: t) = false).
  { intros x Hx. apply tok_is_neq. intros [= -> ->]. congruence. }
  now rewrite !H0 by reflexivity.
Qed.
Lemma op_tok op : In op ["+"; "-"; "#"]%char -> tok_op [op] = true.
Proof. intros [<-|[<-|[<-|[]]]]; reflexivity. Qed.

Lemma grammar_read :
  (forall ts g, r_prim ts g -> (exists t ts', ts = t :: ts' /\ t <> L ":" /\ tok_op t = false) /\
     forall rest, gives (fun k => if tok_is "(" (hd [] ts) then p_paren k (ts ++ rest) else p_digit (ts ++ rest)) (Ok (g, rest))) /\
  (forall ts g, r_atom ts g -> (exists t ts', ts = t :: ts') /\ forall rest, gives (fun k => p_atom k (ts ++ rest)) (Ok (g, rest))) /\
  (forall ts g, r_union ts g -> (exists t ts', ts = t :: ts') /\ forall rest r, gives (fun k => p_union_loop k g rest) r -> gives (fun k => p_union k (ts ++ rest)) r) /\
  (forall ts g, r_inter ts g -> forall rest r, not_colon rest -> gives (fun k => p_inter_loop k g rest) r -> gives (fun k => p_inter k (ts ++ rest)) r).
Proof.
  apply geo_ind4.
  - intros d HD. destruct (number_op d HD) as [HO HP]. split.
    + exists d, []. repeat split; auto. apply number_head in HD as (c & t & -> & H). intros [= -> ->]. discriminate.
    + intros rest. exists 0. intros k _. cbn [hd app]. rewrite HP. cbn [p_digit].
      destruct (re_match re_gdigit d) eqn:E; [reflexivity|]. apply digit_match in HD. congruence.
  - intros ts g _ IH. split; [eexists _, _; repeat split; discriminate|]. intros rest.
    destruct (IH (L ")" :: rest) (Ok (g, L ")" :: rest))) as [f H]; [discriminate|exists 1; intros k HK; destruct k; [lia|reflexivity]|].
    exists (S f). intros k HK. destruct k as [|k]; [lia|]. cbn [hd app]. change (tok_is "(" (L "(")) with true. cbn iota.
    rewrite paren_eq, <- app_assoc. cbn [app]. rewrite H by lia. reflexivity.
  - intros ts g _ ((t & ts' & -> & HC & HO) & IH). split; [eauto|]. intros rest. destruct (IH rest) as [f H].
    exists (S f). intros k HK. destruct k as [|k]; [lia|]. rewrite atom_eq. specialize (H k ltac:(lia)). cbn [hd app] in *. rewrite HO.
    destruct (tok_is "(" t); exact H.
  - intros op ts g HO _ ((t & ts' & -> & HC & HO') & IH). split; [eauto|]. intros rest. destruct (IH rest) as [f H].
    exists (S (S f)). intros k HK. destruct k as [|[|k]]; try lia. rewrite atom_eq. cbn [app]. rewrite (op_tok op HO), unary_eq.
    specialize (H k ltac:(lia)). cbn [hd app] in *. destruct (tok_is "(" t); rewrite H; reflexivity.
  - intros ts g _ ((t & ts' & ->) & IH). split; [eauto|]. intros rest r [f H]. destruct (IH rest) as [f' H'].
    exists (S (f + f')). intros k HK. destruct k as [|k]; [lia|]. rewrite union_eq. cbn [app]. cbn [app] in H'. rewrite H' by lia. cbn [pbind]. apply H. lia.
  - intros ts1 g1 ts2 g2 _ ((t & ts' & ->) & IH1) _ ((t2 & ts2' & ->) & IH2). split; [cbn; eauto|]. intros rest r [f H].
    rewrite <- app_assoc. apply IH1. destruct (IH2 rest) as [f' H']. exists (S (f + f')). intros k HK. destruct k as [|k]; [lia|].
    rewrite union_loop_eq. cbn [app]. change (tok_is ":" (L ":")) with true. cbn iota. cbn [app] in H'. rewrite H' by lia. cbn [pbind]. apply H. lia.
  - intros ts g _ (_ & IH) rest r HN [f H]. destruct (IH rest (Ok (g, rest))) as [f' H'].
    { exists 1. intros k HK. destruct k; [lia|]. rewrite union_loop_eq. destruct rest as [|t rest]; auto. cbn in HN. apply tok_is_neq in HN. now rewrite HN. }
    exists (S (f + f')). intros k HK. destruct k; [lia|]. rewrite inter_eq, H' by lia. apply H. lia.
  - intros ts1 g1 b ts2 g2 _ IH1 HB _ (_ & IH2) rest r HN [f H]. rewrite <- app_assoc. apply IH1; [destruct HB; subst; discriminate|].
    destruct (IH2 rest (Ok (g2, rest))) as [f' H'].
    { exists 1. intros k HK. destruct k; [lia|]. rewrite union_loop_eq. destruct rest as [|t rest]; auto. cbn in HN. apply tok_is_neq in HN. now rewrite HN. }
    exists (S (f + f')). intros k HK. destruct k; [lia|]. rewrite inter_loop_eq. cbn [app].
    replace (seqb b [] || tok_is " " b || tok_is "(" b)%bool with true by (destruct HB; subst; reflexivity).
    replace (tok_is "(" b) with false by (destruct HB; subst; reflexivity). rewrite H' by lia. apply H. lia.
  - intros ts1 g1 ts2 g2 _ IH1 _ (_ & IH2) rest r HN [f H]. rewrite <- app_assoc. apply IH1; [discriminate|].
    destruct (IH2 rest (Ok (g2, rest))) as [f' H'].
    { exists 1. intros k HK. destruct k; [lia|]. rewrite union_loop_eq. destruct rest as [|t rest]; auto. cbn in HN. apply tok_is_neq in HN. now rewrite HN. }
    exists (S (f + f')). intros k HK. destruct k; [lia|]. rewrite inter_loop_eq. cbn [app].
    change (seqb (L "(") [] || tok_is " " (L "(") || tok_is "(" (L "("))%bool with true. change (tok_is "(" (L "(")) with true. cbn iota.
    cbn [app] in H'. rewrite H' by lia. apply H. lia.
Qed.

(** * What is read is in the grammar *)
Lemma pbind_ok x k g ts : pbind x k = Some (Ok (g, ts)) -> exists g' ts', x = Some (Ok (g', ts')) /\ k g' ts' = Some (Ok (g, ts)).
Proof. destruct x as [[[g' ts']| |]|]; cbn; intros H; try discriminate. eauto. Qed.
Lemma digit_ok ts g ts' : p_digit ts = Some (Ok (g, ts')) -> exists u, ts = u ++ ts' /\ r_prim u g.
Proof.
  unfold p_digit. destruct ts as [|t ts]; [discriminate|]. destruct (re_match re_gdigit t) eqn:E; [|discriminate].
  intros [= <- <-]. exists [t]. split; [reflexivity|]. constructor. apply digit_match. congruence.
Qed.
Lemma tok_op_in op u : tok_op (op :: u) = true -> u = [] /\ In op ["+"; "-"; "#"]%char.
Proof. unfold tok_op. intros H. apply orb_prop in H as [H|H]; [apply orb_prop in H as [H|H]|]; apply tok_is_eq in H; injection H as -> ->; cbn; auto. Qed.

Lemma read_grammar f :
  (forall ts g ts', p_inter f ts = Some (Ok (g, ts')) -> exists u, ts = u ++ ts' /\ r_inter u g) /\
  (forall l ts g ts', p_inter_loop f l ts = Some (Ok (g, ts')) -> exists u, ts = u ++ ts' /\ forall u0, r_inter u0 l -> r_inter (u0 ++ u) g) /\
  (forall ts g ts', p_union f ts = Some (Ok (g, ts')) -> exists u, ts = u ++ ts' /\ r_union u g) /\
  (forall l ts g ts', p_union_loop f l ts = Some (Ok (g, ts')) -> exists u, ts = u ++ ts' /\ forall u0, r_union u0 l -> r_union (u0 ++ u) g) /\
  (forall ts g ts', p_atom f ts = Some (Ok (g, ts')) -> exists u, ts = u ++ ts' /\ r_atom u g) /\
  (forall ts g ts', p_unary f ts = Some (Ok (g, ts')) -> tok_op (hd [] ts) = true -> exists u, ts = u ++ ts' /\ r_atom u g) /\
  (forall ts g ts', p_paren f ts = Some (Ok (g, ts')) -> tok_is "(" (hd [] ts) = true -> exists u, ts = u ++ ts' /\ r_prim u g).
Proof.
  induction f as [|f (A & B & C & D & E & F & G)]; [repeat split; intros; discriminate|].
  split; [|split; [|split; [|split; [|split; [|split]]]]].
  - intros ts g ts' H. rewrite inter_eq in H. apply pbind_ok in H as (g1 & t1 & H1 & H2).
    apply C in H1 as (u1 & -> & R1). apply B in H2 as (u2 & -> & R2). exists (u1 ++ u2). rewrite app_assoc. split; auto. apply R2. now constructor.
  - intros l ts g ts' H. rewrite inter_loop_eq in H. destruct ts as [|t ts].
    { injection H as <- <-. exists []. split; auto. intros. now rewrite app_nil_r. }
    destruct (tok_is "(" t) eqn:EP.
    + rewrite orb_true_r in H. apply pbind_ok in H as (g1 & t1 & H1 & H2). apply tok_is_eq in EP as ->.
      apply C in H1 as (u1 & E1 & R1). apply B in H2 as (u2 & -> & R2). exists (u1 ++ u2). rewrite E1, <- app_assoc. split; auto.
      intros u0 R0. rewrite app_assoc. apply R2. destruct u1 as [|x u1].
      * exfalso. clear - R1. assert (X : forall ts g, r_union ts g -> ts <> []).
        { intros ts g H. destruct grammar_read as (_ & _ & GU & _). apply GU in H as ((t & ts' & ->) & _). discriminate. }
        now apply X in R1.
      * injection E1 as <- _. now apply inter_open.
    + rewrite orb_false_r in H. destruct (seqb t [] || tok_is " " t)%bool eqn:EB.
      * apply pbind_ok in H as (g1 & t1 & H1 & H2). apply C in H1 as (u1 & -> & R1). apply B in H2 as (u2 & -> & R2).
        exists (t :: u1 ++ u2). cbn [app]. rewrite <- app_assoc. split; auto. intros u0 R0.
        replace (u0 ++ t :: u1 ++ u2) with ((u0 ++ t :: u1) ++ u2) by (rewrite <- app_assoc; reflexivity). apply R2. apply inter_blank; auto.
        apply orb_prop in EB as [EB|EB]; [left; now apply seqb_eq|right; now apply tok_is_eq].
      * injection H as <- <-. exists []. split; auto. intros. now rewrite app_nil_r.
  - intros ts g ts' H. rewrite union_eq in H. destruct ts as [|t ts]; [discriminate|]. apply pbind_ok in H as (g1 & t1 & H1 & H2).
    apply E in H1 as (u1 & E1 & R1). apply D in H2 as (u2 & -> & R2). exists (u1 ++ u2). rewrite E1, app_assoc. split; auto. apply R2. now constructor.
  - intros l ts g ts' H. rewrite union_loop_eq in H. destruct ts as [|t ts].
    { injection H as <- <-. exists []. split; auto. intros. now rewrite app_nil_r. }
    destruct (tok_is ":" t) eqn:EC; [|injection H as <- <-; exists []; split; auto; intros; now rewrite app_nil_r].
    destruct ts as [|t2 ts]; [discriminate|]. apply pbind_ok in H as (g1 & t1 & H1 & H2). apply tok_is_eq in EC as ->.
    apply E in H1 as (u1 & E1 & R1). apply D in H2 as (u2 & -> & R2). exists (L ":" :: u1 ++ u2). split; [cbn; now rewrite E1, <- app_assoc|].
    intros u0 R0. replace (u0 ++ L ":" :: u1 ++ u2) with ((u0 ++ L ":" :: u1) ++ u2) by (rewrite <- app_assoc; reflexivity). apply R2. now apply union_more.
  - intros ts g ts' H. rewrite atom_eq in H. destruct ts as [|t ts]; [discriminate|]. destruct (tok_op t) eqn:EO; [now apply F in H|].
    destruct (tok_is "(" t) eqn:EP; [apply G in H; auto|apply digit_ok in H]; destruct H as (u & E1 & R); exists u; (split; [exact E1|now constructor]).
  - intros ts g ts' H HO. rewrite unary_eq in H. destruct ts as [|[|op u] ts]; try discriminate. cbn [hd] in HO. apply tok_op_in in HO as [-> HO].
    apply pbind_ok in H as (g1 & t1 & H1 & H2). injection H2 as <- <-.
    assert (HP : exists u, ts = u ++ t1 /\ r_prim u g1).
    { destruct ts as [|t ts]; [discriminate|]. destruct (tok_is "(" t) eqn:EP; [now apply G in H1|now apply digit_ok in H1]. }
    destruct HP as (u & -> & R). exists ([op] :: u). split; [reflexivity|now apply atom_unary].
  - intros ts g ts' H HP. rewrite paren_eq in H. destruct ts as [|t ts]; [discriminate|]. cbn [hd] in HP. apply tok_is_eq in HP as ->.
    apply pbind_ok in H as (g1 & t1 & H1 & H2). destruct t1 as [|t2 t1]; [discriminate|]. destruct (tok_is ")" t2) eqn:EC; [|discriminate].
    injection H2 as <- <-. apply tok_is_eq in EC as ->. apply A in H1 as (u & -> & R). exists (L "(" :: u ++ [L ")"]).
    split; [cbn; now rewrite <- app_assoc|now constructor].
Qed.
