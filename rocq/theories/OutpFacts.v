(** Facts about the OUTP tables that hold only strings: the text they write against
    the text they read. *)

From Coq Require Import Ascii String NArith Bool Arith List Lia.
From Verif Require Import PyStr Regex RegexParse RegexFacts RegexLang OutpTables Outp.
Import ListNotations.
Open Scope list_scope.
Open Scope nat_scope.

(** * The spine of a pattern *)

Inductive node := NC (c : ascii) | NG (i : nat) (r : re) | NX (r : re).
Definition single (cs : cset) : option ascii :=
  match cneg cs, cranges cs with
  | false, [(a, b)] => if (a =? b)%N && (a <? 256)%N then Some (ascii_of_N a) else None
  | _, _ => None
  end.
Fixpoint nodes (r : re) : list node :=
  match r with
  | REps => []
  | RCat a b => nodes a ++ nodes b
  | RSet cs => match single cs with Some c => [NC c] | None => [NX r] end
  | RRep _ n (Some k) (RSet cs) =>
      match single cs with Some c => if n =? k then repeat (NC c) n else [NX r] | None => [NX r] end
  | RGrp i a => [NG i a]
  | _ => [NX r]
  end.
Definition node_W (n : node) (t : str) (cp : capl) : Prop :=
  match n with
  | NC c => t = [c] /\ cp = []
  | NG i r => exists c', W r t c' /\ cp = (i, t) :: c'
  | NX r => W r t cp
  end.

Lemma single_inset cs c x : single cs = Some c -> inset cs x = true -> x = c.
Proof.
  unfold single, inset. destruct (cneg cs); [discriminate|]. destruct (cranges cs) as [|[a b] [|]]; try discriminate.
  destruct ((a =? b)%N && (a <? 256)%N) eqn:E; [|discriminate]. apply andb_prop in E as [E1 E2].
  apply N.eqb_eq in E1. subst b. intros [= <-]. rewrite xorb_false_l. unfold in_ranges. cbn [existsb fst snd]. rewrite orb_false_r.
  intros H. rewrite !andb_true_iff, !N.leb_le in H.
  replace a with (code x) by lia. unfold code. now rewrite ascii_N_embedding.
Qed.
Lemma nodes_W r : forall u c, W r u c -> exists l : list (node * str * capl),
  map (fun x => fst (fst x)) l = nodes r /\ u = concat (map (fun x => snd (fst x)) l) /\
  c = concat (rev (map snd l)) /\ Forall (fun x => node_W (fst (fst x)) (snd (fst x)) (snd x)) l.
Proof.
  assert (ONE : forall nd u c, node_W nd u c -> exists l : list (node * str * capl),
    map (fun x => fst (fst x)) l = [nd] /\ u = concat (map (fun x => snd (fst x)) l) /\
    c = concat (rev (map snd l)) /\ Forall (fun x => node_W (fst (fst x)) (snd (fst x)) (snd x)) l).
  { intros nd u c H. exists [(nd, u, c)]. cbn [map fst snd concat rev app]. rewrite !app_nil_r. repeat split. repeat constructor. exact H. }
  induction r as [|cs|a IHa b IHb|a IHa b IHb|lz n k a IHa|i a IHa| | |]; intros u c H; cbn [nodes].
  - destruct H as [-> ->]. exists []. repeat split. constructor.
  - destruct (single cs) as [x|] eqn:E.
    + destruct H as (y & -> & I & ->). apply ONE. rewrite (single_inset _ _ _ E I). split; reflexivity.
    + apply ONE. exact H.
  - destruct H as (u1 & u2 & c1 & c2 & H1 & H2 & -> & ->).
    destruct (IHa _ _ H1) as (l1 & N1 & -> & -> & F1). destruct (IHb _ _ H2) as (l2 & N2 & -> & -> & F2).
    exists (l1 ++ l2). rewrite !map_app, N1, N2, rev_app_distr, !concat_app. repeat split. now apply Forall_app.
  - apply ONE. exact H.
  - destruct k as [k|]; [|apply ONE; exact H]. destruct a as [|cs| | | | | | |]; try (apply ONE; exact H).
    destruct (single cs) as [x|] eqn:E; [|apply ONE; exact H]. destruct (n =? k) eqn:K; [|apply ONE; exact H].
    apply Nat.eqb_eq in K. subst k. apply W_rep_set in H as (A & Hn & Hx & ->). rewrite Nat.max_id in Hx.
    assert (Ln : length u = n) by lia. clear Hn Hx IHa. subst n.
    exists (map (fun y => (NC x, [y], [])) u). rewrite !map_map. cbn [fst snd]. split; [|split; [|split]].
    + clear A. induction u as [|y u IH]; [reflexivity|]. cbn [map length repeat]. now rewrite IH.
    + clear A. induction u as [|y u IH]; [reflexivity|]. cbn [map concat app]. now rewrite <- IH.
    + clear A. induction u as [|y u IH]; [reflexivity|]. cbn [map rev]. rewrite concat_app, <- IH. reflexivity.
    + induction A as [|y u I A IH]; [constructor|]. cbn [map]. constructor; [|exact IH].
      cbn [fst snd node_W]. rewrite (single_inset _ _ _ E I). split; reflexivity.
  - apply ONE. exact H.
  - apply ONE. exact H.
  - apply ONE. exact H.
  - apply ONE. exact H.
Qed.

(** Captures are read off the groups, if nothing else captures. *)
Definition inner_nocap (n : node) : bool := match n with NC _ => true | NG _ r | NX r => nocap r end.
Fixpoint ids (l : list node) : list nat := match l with [] => [] | NG i _ :: t => i :: ids t | _ :: t => ids t end.
Fixpoint nodupb (l : list nat) : bool := match l with [] => true | a :: t => negb (existsb (Nat.eqb a) t) && nodupb t end.

Lemma lookup_app n a b : lookup n (a ++ b) = match lookup n a with Some x => Some x | None => lookup n b end.
Proof. induction a as [|[i t] a IH]; [reflexivity|]. cbn [app lookup]. destruct (i =? n); auto. Qed.
Lemma groups_lookup (l : list (node * str * capl)) :
  Forall (fun x => node_W (fst (fst x)) (snd (fst x)) (snd x)) l ->
  forallb inner_nocap (map (fun x => fst (fst x)) l) = true ->
  nodupb (ids (map (fun x => fst (fst x)) l)) = true ->
  (forall i, ~ In i (ids (map (fun x => fst (fst x)) l)) -> lookup i (concat (rev (map snd l))) = None) /\
  forall i r t cp, In (NG i r, t, cp) l -> lookup i (concat (rev (map snd l))) = Some t.
Proof.
  induction l as [|[[nd u] c] l IH]; intros F NC ND; [split; [reflexivity | intros ? ? ? ? []]|].
  cbn [map fst snd] in NC, ND. cbn [forallb] in NC. apply andb_prop in NC as [N1 N2]. inversion F as [|? ? FW F']; subst. cbn [fst snd] in FW.
  assert (ND' : nodupb (ids (map (fun x => fst (fst x)) l)) = true).
  { destruct nd; cbn [ids nodupb] in ND; auto. now apply andb_prop in ND as [_ ND]. }
  destruct (IH F' N2 ND') as [I1 I2]. cbn [map rev fst snd]. rewrite concat_app. cbn [concat]. rewrite app_nil_r.
  split.
  - intros i NI. rewrite lookup_app. rewrite I1.
    + destruct nd as [x|j r|r]; cbn [node_W inner_nocap] in *.
      * destruct FW as [_ ->]. reflexivity.
      * destruct FW as (c' & HW & ->). apply (W_nocap _ N1) in HW. subst c'. cbn [lookup].
        destruct (j =? i) eqn:E; [|reflexivity]. apply Nat.eqb_eq in E. subst j. exfalso. apply NI. now left.
      * apply (W_nocap _ N1) in FW. subst c. reflexivity.
    + intros X. apply NI. destruct nd; cbn [ids]; auto. now right.
  - intros i r t cp [E|I].
    + injection E as -> -> ->. cbn [ids nodupb] in ND. apply andb_prop in ND as [ND _]. rewrite lookup_app, I1.
      * cbn [node_W inner_nocap] in *. destruct FW as (c' & _ & ->). cbn [lookup]. now rewrite Nat.eqb_refl.
      * intros X. assert (Y : existsb (Nat.eqb i) (ids (map (fun x => fst (fst x)) l)) = true).
        { apply existsb_exists. exists i. split; [exact X | apply Nat.eqb_refl]. }
        rewrite Y in ND. discriminate.
    + rewrite lookup_app, (I2 _ _ _ _ I). reflexivity.
Qed.

(** * The text written *)

(** The text as characters and groups; a group of a known length that is filled up
    to a greater width is followed by blanks. *)
Inductive wnode := WC (c : ascii) | WG (i : nat).
Definition flen (r : re) : option nat :=
  match r with RRep _ n (Some k) (RSet _) => if n =? k then Some n else None | _ => None end.
Fixpoint glen (l : list node) (i : nat) : option nat :=
  match l with
  | [] => None
  | NG j r :: t => if j =? i then flen r else glen t i
  | _ :: t => glen t i
  end.
Definition expand1 (l : list node) (gs : list nat) (p : piece) : option (list wnode) :=
  match p with
  | T s => Some (map WC s)
  | NL => Some [WC nl]
  | F f w =>
      match nth_error gs f with
      | None => None
      | Some i => match w with
                  | O => Some [WG i]
                  | _ => match glen l i with
                         | Some k => Some (WG i :: repeat (WC sp) (w - k))
                         | None => None
                         end
                  end
      end
  end.
Fixpoint expand (l : list node) (gs : list nat) (ps : list piece) : option (list wnode) :=
  match ps with
  | [] => Some []
  | p :: t => match expand1 l gs p, expand l gs t with Some a, Some b => Some (a ++ b) | _, _ => None end
  end.
(** The first character and the last [cut] ones, taken off. *)
Fixpoint drop_last (cut : nat) (l : list wnode) : option (list wnode) :=
  match cut with
  | O => Some l
  | S n => match rev l with WC _ :: t => drop_last n (rev t) | _ => None end
  end.
Definition trim (cut : nat) (l : list wnode) : option (list wnode) :=
  match l with WC _ :: t => drop_last cut t | _ => None end.

(** Node for node against the pattern; [hints] says how much of the text stands where
    the pattern captures nothing. *)
Fixpoint pair_up (hints : list nat) (l : list node) (w : list wnode) : option (list (node * list wnode)) :=
  match l with
  | [] => match w with [] => Some [] | _ => None end
  | NC c :: l' =>
      match w with
      | WC d :: w' => if Ascii.eqb c d then match pair_up hints l' w' with Some r => Some ((NC c, [WC d]) :: r) | None => None end else None
      | _ => None
      end
  | NG i r :: l' =>
      match w with
      | WG j :: w' => if i =? j then match pair_up hints l' w' with Some x => Some ((NG i r, [WG j]) :: x) | None => None end else None
      | _ => None
      end
  | NX r :: l' =>
      match hints with
      | [] => None
      | k :: hints' => match pair_up hints' l' (skipn k w) with Some x => Some ((NX r, firstn k w) :: x) | None => None end
      end
  end.
Fixpoint strip_end (r : re) : re :=
  match r with RCat a REnd => a | RCat a b => RCat a (strip_end b) | r => r end.
Definition body (t : table) : re := match compile false (t_pat t) with RCat RBeg r => strip_end r | _ => REps end.
Definition plan (hints : list nat) (t : table) : option (list (node * list wnode)) :=
  let l := nodes (body t) in
  if plain (body t) && forallb inner_nocap l && nodupb (ids l) && forallb (fun i => existsb (Nat.eqb i) (ids l) && negb (i =? 0)) (t_groups t) then
    match expand l (t_groups t) (t_out t) with
    | Some w => match trim (t_cut t) w with Some w' => pair_up hints l w' | None => None end
    | None => None
    end
  else None.

Definition emit1 (g : nat -> str) (w : wnode) : str := match w with WC c => [c] | WG i => g i end.
Definition emit (g : nat -> str) (l : list wnode) : str := concat (map (emit1 g) l).

Lemma emit_app g a b : emit g (a ++ b) = emit g a ++ emit g b.
Proof. unfold emit. now rewrite map_app, concat_app. Qed.
Lemma emit_chars g s : emit g (map WC s) = s.
Proof. unfold emit. induction s as [|c s IH]; [reflexivity|]. cbn [map concat emit1 app]. now rewrite IH. Qed.
Lemma emit_repeat g n c : emit g (repeat (WC c) n) = repeat c n.
Proof. unfold emit. induction n as [|n IH]; [reflexivity|]. cbn [repeat map concat emit1 app]. now rewrite IH. Qed.

Lemma srepeat_sp n : srepeat n [sp] = repeat sp n.
Proof. induction n as [|n IH]; [reflexivity|]. cbn [srepeat repeat app]. now rewrite IH. Qed.

Lemma expand_text l gs ps (g : nat -> str) (v : list str) w :
  (forall f i, nth_error gs f = Some i -> nth f v ([] : str) = g i) ->
  (forall i k, glen l i = Some k -> length (g i) = k) ->
  expand l gs ps = Some w -> concat (map (piece_text v) ps) = emit g w.
Proof.
  intros V G. revert w. induction ps as [|p t IH]; intros w E; [injection E as <-; reflexivity|]. cbn [expand] in E.
  destruct (expand1 l gs p) as [a|] eqn:E1; [|discriminate]. destruct (expand l gs t) as [b|]; [|discriminate]. injection E as <-.
  cbn [map concat]. rewrite (IH b eq_refl), emit_app. f_equal. clear IH. destruct p as [s| |f k]; cbn [expand1 piece_text] in *.
  - injection E1 as <-. now rewrite emit_chars.
  - injection E1 as <-. reflexivity.
  - destruct (nth_error gs f) as [i|] eqn:N; [|discriminate]. rewrite (V _ _ N). unfold ljust. destruct k as [|k].
    + injection E1 as <-. cbn [Nat.sub srepeat]. rewrite app_nil_r. unfold emit. cbn [map concat emit1]. now rewrite app_nil_r.
    + destruct (glen l i) as [j|] eqn:J; [|discriminate]. injection E1 as <-. rewrite (G _ _ J), srepeat_sp.
      match goal with |- _ = emit g (WG i :: ?q) => change (emit g (WG i :: q)) with (g i ++ emit g q) end.
      now rewrite emit_repeat.
Qed.

Lemma drop_last_text g cut : forall l w, drop_last cut l = Some w -> firstn (length (emit g l) - cut) (emit g l) = emit g w.
Proof.
  induction cut as [|n IH]; intros l w E; cbn [drop_last] in E.
  - injection E as <-. rewrite Nat.sub_0_r. apply firstn_all.
  - destruct (rev l) as [|[c|] t] eqn:R; try discriminate. specialize (IH _ _ E). rewrite <- IH.
    assert (X : l = rev t ++ [WC c]) by (rewrite <- (rev_involutive l), R; reflexivity).
    rewrite X, emit_app. change (emit g [WC c]) with [c]. rewrite app_length. cbn [length].
    replace (length (emit g (rev t)) + 1 - S n) with (length (emit g (rev t)) - n) by lia.
    rewrite firstn_app. replace (length (emit g (rev t)) - n - length (emit g (rev t))) with 0 by lia.
    cbn [firstn]. now rewrite app_nil_r.
Qed.
Lemma trim_text g cut l w : trim cut l = Some w -> slice 1 cut (emit g l) = emit g w.
Proof.
  destruct l as [|[c|] t]; try discriminate. cbn [trim]. intros E. unfold slice.
  change (skipn 1 (emit g (WC c :: t))) with (emit g t). now apply drop_last_text.
Qed.

Lemma pair_up_fst hints : forall l w r, pair_up hints l w = Some r -> map fst r = l /\ concat (map snd r) = w.
Proof.
  intros l. revert hints. induction l as [|[c|i r0|r0] l IH]; intros hints w r E; cbn [pair_up] in E.
  - destruct w; [|discriminate]. injection E as <-. split; reflexivity.
  - destruct w as [|[d|] w]; try discriminate. destruct (Ascii.eqb c d); [|discriminate].
    destruct (pair_up hints l w) as [x|] eqn:P; [|discriminate]. injection E as <-. apply IH in P as [<- <-]. split; reflexivity.
  - destruct w as [|[|j] w]; try discriminate. destruct (i =? j); [|discriminate].
    destruct (pair_up hints l w) as [x|] eqn:P; [|discriminate]. injection E as <-. apply IH in P as [<- <-]. split; reflexivity.
  - destruct hints as [|k hints]; [discriminate|]. destruct (pair_up hints l (skipn k w)) as [x|] eqn:P; [|discriminate].
    injection E as <-. apply IH in P as [<- P]. cbn [map fst snd concat]. rewrite P, firstn_skipn. split; reflexivity.
Qed.
Lemma pair_up_same hints g : forall l w r, pair_up hints l w = Some r ->
  Forall (fun x => match fst x with NC c => emit g (snd x) = [c] | NG i _ => emit g (snd x) = g i | NX _ => True end) r.
Proof.
  intros l. revert hints. induction l as [|[c|i r0|r0] l IH]; intros hints w r E; cbn [pair_up] in E.
  - destruct w; [|discriminate]. injection E as <-. constructor.
  - destruct w as [|[d|] w]; try discriminate. destruct (Ascii.eqb c d) eqn:Q; [|discriminate].
    destruct (pair_up hints l w) as [x|] eqn:P; [|discriminate]. injection E as <-. apply Ascii.eqb_eq in Q. subst d.
    constructor; [reflexivity | eapply IH; eassumption].
  - destruct w as [|[|j] w]; try discriminate. destruct (i =? j) eqn:Q; [|discriminate].
    destruct (pair_up hints l w) as [x|] eqn:P; [|discriminate]. injection E as <-. apply Nat.eqb_eq in Q. subst j.
    constructor; [|eapply IH; eassumption]. cbn [fst snd]. unfold emit. cbn [map concat emit1]. now rewrite app_nil_r.
  - destruct hints as [|k hints]; [discriminate|]. destruct (pair_up hints l (skipn k w)) as [x|] eqn:P; [|discriminate].
    injection E as <-. constructor; [exact I | eapply IH; eassumption].
Qed.

(** * Reading and writing *)

Lemma glen_ok (l : list (node * str * capl)) :
  Forall (fun x => node_W (fst (fst x)) (snd (fst x)) (snd x)) l ->
  forall i k, glen (map (fun x => fst (fst x)) l) i = Some k -> exists r t cp, In (NG i r, t, cp) l /\ length t = k.
Proof.
  induction l as [|[[nd u] c] l IH]; intros F i k G; [discriminate|]. inversion F as [|? ? FW F']; subst. cbn [fst snd] in FW.
  cbn [map fst snd glen] in G. destruct nd as [x|j r|r].
  - destruct (IH F' _ _ G) as (r & t & cp & I & E). exists r, t, cp. split; [now right | exact E].
  - destruct (j =? i) eqn:E.
    + apply Nat.eqb_eq in E. subst j. exists r, u, c. split; [now left|]. destruct FW as (c' & HW & _).
      unfold flen in G. destruct r as [| | | |lz n [m0|] [|cs| | | | | | |]| | | |]; try discriminate.
      destruct (n =? m0) eqn:E; [|discriminate]. injection G as <-. apply Nat.eqb_eq in E. subst m0.
      apply W_rep_set in HW as (_ & A & B & _). rewrite Nat.max_id in B. lia.
    + destruct (IH F' _ _ G) as (r' & t & cp & I & E'). exists r', t, cp. split; [now right | exact E'].
  - destruct (IH F' _ _ G) as (r' & t & cp & I & E). exists r', t, cp. split; [now right | exact E].
Qed.
Lemma in_ids l i : existsb (Nat.eqb i) (ids (map (fun x : node * str * capl => fst (fst x)) l)) = true ->
  exists r t cp, In (NG i r, t, cp) l.
Proof.
  induction l as [|[[nd u] c] l IH]; cbn [map fst snd ids]; intros E; [discriminate|].
  assert (G : existsb (Nat.eqb i) (ids (map (fun x : node * str * capl => fst (fst x)) l)) = true ->
              exists r t cp, In (NG i r, t, cp) ((nd, u, c) :: l)).
  { intros X. destruct (IH X) as (r & t & cp & I). exists r, t, cp. now right. }
  destruct nd as [x|j r|r]; auto. cbn [existsb] in E. apply orb_prop in E as [E|E]; auto.
  apply Nat.eqb_eq in E. subst j. exists r, u, c. now left.
Qed.

Lemma mapM_groups (gs : list nat) (o : mobj) v :
  mapM (fun i => match group i o with Some x => Ok x | None => Lib TypesError end) gs = Ok v ->
  forall f i, nth_error gs f = Some i -> nth f v ([] : str) = match group i o with Some x => x | None => [] end.
Proof.
  revert v. induction gs as [|a gs IH]; intros v E f i N; [destruct f; discriminate|]. cbn [mapM] in E.
  destruct (group a o) as [x|] eqn:G; [|discriminate]. cbn [bind] in E.
  destruct (mapM _ gs) as [ys|e|e] eqn:M; try discriminate. injection E as <-. destruct f as [|f]; cbn [nth_error nth] in *.
  - injection N as <-. now rewrite G.
  - now apply (IH ys).
Qed.
Lemma mapM_groups_ok (gs : list nat) (o : mobj) :
  (forall i, In i gs -> group i o <> None) ->
  exists v, mapM (fun i => match group i o with Some x => Ok x | None => Lib TypesError end) gs = Ok v.
Proof.
  induction gs as [|a gs IH]; intros H; [exists []; reflexivity|]. cbn [mapM].
  destruct (group a o) eqn:G; [|exfalso; apply (H a); [now left | exact G]]. cbn [bind].
  destruct IH as (v & ->); [intros; apply H; now right|]. eexists. reflexivity.
Qed.

(** Node by node, the text read and the text written. *)
Inductive alike (g : nat -> str) : list (node * list wnode) -> str -> str -> Prop :=
| alike_nil : alike g [] [] []
| alike_same n w l t s o : (forall r, n <> NX r) -> emit g w = t -> alike g l s o -> alike g ((n, w) :: l) (t ++ s) (t ++ o)
| alike_free r w l t s o : (exists c, W r t c) -> alike g l s o -> alike g ((NX r, w) :: l) (t ++ s) (emit g w ++ o).

Theorem table_alike hints t pl s v : compile false (t_pat t) = whole (body t) -> plan hints t = Some pl ->
  table_from_mcnp t s = Ok v -> exists g, alike g pl s (table_to_mcnp t v) /\
    forall f i, nth_error (t_groups t) f = Some i -> nth f v ([] : str) = g i.
Proof.
  intros C P R. unfold table_from_mcnp in R. rewrite C in R.
  unfold plan in P. destruct (plain (body t) && forallb inner_nocap (nodes (body t)) && nodupb (ids (nodes (body t)))
    && forallb (fun i => existsb (Nat.eqb i) (ids (nodes (body t))) && negb (i =? 0)) (t_groups t)) eqn:OK; [|discriminate].
  apply andb_prop in OK as [OK OK4]. apply andb_prop in OK as [OK OK3]. apply andb_prop in OK as [OK1 OK2].
  destruct (expand (nodes (body t)) (t_groups t) (t_out t)) as [w|] eqn:EX; [|discriminate].
  destruct (trim (t_cut t) w) as [w'|] eqn:TR; [|discriminate].
  destruct (re_match (whole (body t)) s) as [o|] eqn:RM; [|discriminate].
  destruct (match_whole_inv _ _ _ OK1 RM) as [MT HW].
  destruct (nodes_W _ _ _ HW) as (l & NL' & Es & Ec & F).
  assert (NCP : forallb inner_nocap (map (fun x => fst (fst x)) l) = true) by (rewrite NL'; exact OK2).
  assert (ND : nodupb (ids (map (fun x => fst (fst x)) l)) = true) by (rewrite NL'; exact OK3).
  destruct (groups_lookup l F NCP ND) as [_ LK]. rewrite <- Ec in LK.
  set (g := fun i => match lookup i (mcaps o) with Some x => x | None => [] end).
  assert (GR : forall i, In i (t_groups t) -> i <> 0 /\ exists r u cp, In (NG i r, u, cp) l).
  { intros i I. rewrite forallb_forall in OK4. apply OK4 in I. apply andb_prop in I as [I1 I2]. rewrite <- NL' in I1.
    split; [apply negb_true_iff, Nat.eqb_neq in I2; exact I2 | now apply in_ids]. }
  exists g.
  assert (V : forall f i, nth_error (t_groups t) f = Some i -> nth f v ([] : str) = g i).
  { intros f i N. rewrite (mapM_groups _ _ _ R _ _ N). destruct (GR i (nth_error_In _ _ N)) as [N0 _].
    unfold g, group. destruct i; [contradiction | reflexivity]. }
  split; [|exact V].
  assert (G : forall i k, glen (nodes (body t)) i = Some k -> length (g i) = k).
  { intros i k E. rewrite <- NL' in E. destruct (glen_ok l F _ _ E) as (r & u & cp & I & <-). apply LK in I. unfold g. now rewrite I. }
  unfold table_to_mcnp. rewrite (expand_text _ _ _ g v w V G EX), (trim_text _ _ _ _ TR).
  destruct (pair_up_fst _ _ _ _ P) as [P1 P2]. pose proof (pair_up_same _ g _ _ _ P) as P3.
  rewrite Es, <- P2. clear P2 Es Ec P EX TR RM HW MT C R OK1 OK2 OK3 OK4 NCP ND. rewrite <- P1 in NL'. clear P1 G V GR.
  revert pl NL' P3. induction l as [|[[nd u] c] l IH]; intros pl E P3.
  - destruct pl; [|discriminate]. constructor.
  - destruct pl as [|[nd' ws] pl]; [discriminate|]. cbn [map fst snd] in E. injection E as <- E.
    inversion F as [|? ? FW F']; subst. inversion P3 as [|? ? PW P3']; subst. cbn [fst snd] in *. cbn [map concat fst snd]. rewrite emit_app.
    assert (REC : alike g pl (concat (map (fun x => snd (fst x)) l)) (emit g (concat (map snd pl)))).
    { apply IH; auto. intros i r t0 cp I. apply (LK i r t0 cp). now right. }
    destruct nd as [x|i r|r].
    + destruct FW as [-> _]. rewrite PW. apply alike_same; [discriminate | exact PW | exact REC].
    + assert (X : g i = u) by (unfold g; rewrite (LK i r u c); [reflexivity | now left]).
      rewrite PW, X. apply alike_same; [discriminate | now rewrite PW | exact REC].
    + apply alike_free; [exists c; exact FW | exact REC].
Qed.

Lemma alike_exact g pl s o : forallb (fun x => match fst x with NX _ => false | _ => true end) pl = true -> alike g pl s o -> s = o.
Proof.
  intros E A. induction A as [|n w l t s o N E0 A IH|r w l t s o X A IH]; [reflexivity| |].
  - f_equal. apply IH. cbn [forallb] in E. now apply andb_prop in E.
  - discriminate.
Qed.
(** Reading fails only with the library's error. *)
Theorem table_lib hints t pl s : compile false (t_pat t) = whole (body t) -> plan hints t = Some pl ->
  table_from_mcnp t s = Lib OutpError \/ exists v, table_from_mcnp t s = Ok v /\ length v = length (t_groups t).
Proof.
  intros C P. unfold table_from_mcnp. rewrite C.
  unfold plan in P. destruct (plain (body t) && forallb inner_nocap (nodes (body t)) && nodupb (ids (nodes (body t)))
    && forallb (fun i => existsb (Nat.eqb i) (ids (nodes (body t))) && negb (i =? 0)) (t_groups t)) eqn:OK; [|discriminate].
  apply andb_prop in OK as [OK OK4]. apply andb_prop in OK as [OK OK3]. apply andb_prop in OK as [OK1 OK2].
  destruct (re_match (whole (body t)) s) as [o|] eqn:RM; [|left; reflexivity]. right.
  destruct (match_whole_inv _ _ _ OK1 RM) as [_ HW]. destruct (nodes_W _ _ _ HW) as (l & NL' & _ & Ec & F).
  destruct (groups_lookup l F) as [_ LK]; [rewrite NL'; exact OK2 | rewrite NL'; exact OK3|]. rewrite <- Ec in LK.
  destruct (mapM_groups_ok (t_groups t) o) as (v & Ev).
  - intros i I. rewrite forallb_forall in OK4. apply OK4 in I. apply andb_prop in I as [I1 I2]. rewrite <- NL' in I1.
    destruct (in_ids _ _ I1) as (r & u & cp & I). apply LK in I. destruct i; [discriminate|]. cbn [group]. rewrite I. discriminate.
  - exists v. split; [exact Ev|]. clear - Ev. revert v Ev. induction (t_groups t) as [|a gs IH]; intros v E; cbn [mapM] in E.
    + injection E as <-. reflexivity.
    + destruct (group a o); [|discriminate]. cbn [bind] in E. destruct (mapM _ gs) as [ys| |]; try discriminate. injection E as <-.
      cbn [length]. now rewrite (IH ys).
Qed.

(** * The tables *)

Lemma compiled t : In t [t_Header; t_Mcnp; t_NeutronActivity; t_PhotonActivity; t_AnalysisTallyFluctuation; t_ProblemSummary; t_StartingMcrun; t_UnnormedTallyDensity] ->
  compile false (t_pat t) = whole (body t).
Proof. cbn [In]. intros H. repeat (destruct H as [<-|H]; [vm_compute; reflexivity|]). destruct H. Qed.
