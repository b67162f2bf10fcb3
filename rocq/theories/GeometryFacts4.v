(** Writing and reading geometries; the operators. *)

From Coq Require Import Ascii String NArith ZArith Bool Arith List Lia.
From Verif Require Import PyStr Regex RegexParse RegexFacts RegexLang PyNumFacts Types TypesFacts TypesFacts2 TypesFacts3 TypesFacts4 SubFacts CardTextFacts CardTextFacts2 CardsFacts2 Geometry GeometrySpec GeometryFacts GeometryFacts2 GeometryFacts3.
Import ListNotations.
Open Scope list_scope.

Fixpoint toks (g : geo) : list str :=
  match g with
  | GInter l r => toks l ++ L " " :: toks r
  | GUnion l r => toks l ++ L ":" :: toks r
  | GUnary op g => [op] :: toks g
  | GParen g => L "(" :: toks g ++ [L ")"]
  | GDigit s => [s]
  end.
Lemma concat_toks g : concat (toks g) = geo_to_mcnp g.
Proof.
  induction g as [l IH1 r IH2|l IH1 r IH2|op g IH|g IH|d]; cbn [toks geo_to_mcnp].
  - rewrite concat_app. cbn [concat]. now rewrite IH1, IH2.
  - rewrite concat_app. cbn [concat]. now rewrite IH1, IH2.
  - cbn [concat]. now rewrite IH.
  - cbn [concat]. rewrite concat_app. cbn [concat]. now rewrite IH, app_nil_r.
  - cbn. apply app_nil_r.
Qed.

Definition head_ok (s : str) : Prop := exists c t, s = c :: t /\ is_space c = false /\ c <> ":"%char.
Definition last_ok (s : str) : Prop := exists t c, s = t ++ [c] /\ is_space c = false.
Lemma head_ok_app a b : head_ok a -> head_ok (a ++ b).
Proof. intros (c & t & -> & H). exists c, (t ++ b). auto. Qed.
Lemma last_ok_app a b : last_ok b -> last_ok (a ++ b).
Proof. intros (t & c & -> & H). exists (a ++ t), c. rewrite app_assoc. auto. Qed.
Lemma digit_space c : is_digit c = true -> is_space c = false.
Proof.
  intros HC. pose proof (all_ascii (fun c => implb (is_digit c) (negb (is_space c))) eq_refl c) as H. cbn beta in H. rewrite HC in H. cbn in H. now destruct (is_space c).
Qed.
Lemma digits_last a : some_digits a -> last_ok a.
Proof.
  intros [N H]. destruct (exists_last N) as (t & c & ->). exists t, c. split; auto.
  apply Forall_app in H as [_ H]. inversion H; subst. now apply digit_space.
Qed.
Lemma number_ends d : number d -> head_ok d /\ last_ok d.
Proof.
  intros H. split.
  - apply number_head in H as (c & t & -> & H). exists c, t. repeat split; [now apply digit_space|]. intros ->. discriminate.
  - destruct H as [H|(a & b & _ & H & ->)]; [now apply digits_last|]. apply last_ok_app. apply (last_ok_app ["."%char]). now apply digits_last.
Qed.
Lemma op_ok op : In op ["+"; "-"; "#"]%char -> is_space op = false /\ op <> ":"%char /\ In op ["("; "+"; "#"; "-"]%char.
Proof. intros [<-|[<-|[<-|[]]]]; repeat split; try discriminate; cbn; auto. Qed.

Definition ends (g : geo) : Prop := head_ok (geo_to_mcnp g) /\ last_ok (geo_to_mcnp g).
Lemma grammar_ends :
  (forall ts g, r_prim ts g -> ends g) /\ (forall ts g, r_atom ts g -> ends g) /\
  (forall ts g, r_union ts g -> ends g) /\ (forall ts g, r_inter ts g -> ends g).
Proof.
  apply geo_ind4; auto.
  - intros. now apply number_ends.
  - intros ts g _ [H1 H2]. split; cbn [geo_to_mcnp].
    + exists "("%char, (geo_to_mcnp g ++ L ")"). repeat split. discriminate.
    + apply (last_ok_app (L "(")). apply last_ok_app. exists [], ")"%char. auto.
  - intros op ts g HO _ [H1 H2]. apply op_ok in HO as (A & B & _). split; cbn [geo_to_mcnp]; [exists op, (geo_to_mcnp g); auto|now apply (last_ok_app [op])].
  - intros ts1 g1 ts2 g2 _ [H1 _] _ [_ H2]. split; cbn [geo_to_mcnp]; [now apply head_ok_app|]. apply last_ok_app. now apply (last_ok_app (L ":")).
  - intros ts1 g1 b ts2 g2 _ [H1 _] _ _ [_ H2]. split; cbn [geo_to_mcnp]; [now apply head_ok_app|]. apply last_ok_app. now apply (last_ok_app [sp]).
  - intros ts1 g1 ts2 g2 _ [H1 _] _ [_ H2]. split; cbn [geo_to_mcnp]; [now apply head_ok_app|]. apply last_ok_app. now apply (last_ok_app [sp]).
Qed.

(** The tokens of the written text belong to the same tree. *)
Lemma grammar_toks :
  (forall ts g, r_prim ts g -> r_prim (toks g) g) /\ (forall ts g, r_atom ts g -> r_atom (toks g) g) /\
  (forall ts g, r_union ts g -> r_union (toks g) g) /\ (forall ts g, r_inter ts g -> r_inter (toks g) g).
Proof.
  apply geo_ind4; cbn [toks]; intros.
  - now constructor.
  - now constructor.
  - now constructor.
  - now apply atom_unary.
  - now constructor.
  - now apply union_more.
  - now constructor.
  - apply inter_blank; auto.
  - apply inter_blank; auto.
Qed.

(** * Cutting the written text *)
Fixpoint cutr (r : re) (ts : list str) (rest : str) : Prop :=
  match ts with
  | [] => True
  | t :: ts' => t <> [] /\ (forall p, exists c, match_at r p (t ++ concat ts' ++ rest) = Some {| mpre := p; mtext := t; mrest := concat ts' ++ rest; mcaps := c |}) /\ cutr r ts' rest
  end.
Lemma cutr_app r a b rest : cutr r a (concat b ++ rest) -> cutr r b rest -> cutr r (a ++ b) rest.
Proof.
  induction a as [|t a IH]; cbn [cutr app]; auto. intros (N & H & HC) HB. split; auto. split; auto. rewrite concat_app, <- app_assoc. exact H.
Qed.
Lemma cutr_cut r ts : cutr r ts [] -> cut r ts.
Proof. induction ts as [|t ts IH]; cbn [cutr cut]; auto. intros (N & H & HC). rewrite app_nil_r in H. auto. Qed.
Definition good (rest : str) : Prop := rest = [] \/ exists c t, rest = c :: t /\ In c [" "; ":"; ")"]%char.
Lemma good_stop rest : good rest -> num_stop rest.
Proof. intros [->|(c & t & -> & H)]; [now left|right]. exists c, t. split; auto. destruct H as [<-|[<-|[<-|[]]]]; reflexivity. Qed.
Lemma good_cons c t : In c [" "; ":"; ")"]%char -> good (c :: t).
Proof. right. eauto. Qed.
Lemma head_stops s t : head_ok s -> stops is_space (s ++ t).
Proof. intros (c & u & -> & H & _). right. exists c, (u ++ t). auto. Qed.

Lemma grammar_cut :
  (forall ts g, r_prim ts g -> forall rest, good rest -> cutr re_gtoken (toks g) rest) /\
  (forall ts g, r_atom ts g -> forall rest, good rest -> cutr re_gtoken (toks g) rest) /\
  (forall ts g, r_union ts g -> forall rest, good rest -> cutr re_gtoken (toks g) rest) /\
  (forall ts g, r_inter ts g -> forall rest, good rest -> cutr re_gtoken (toks g) rest).
Proof.
  destruct grammar_ends as (EP & EA & EU & EI).
  assert (BIN : forall g1 g2 c, In c [" "; ":"]%char -> ends g2 -> (forall rest, good rest -> cutr re_gtoken (toks g1) rest) ->
     (forall rest, good rest -> cutr re_gtoken (toks g2) rest) -> forall rest, good rest -> cutr re_gtoken (toks g1 ++ [c] :: toks g2) rest).
  { intros g1 g2 c HC [(x & u & EX & SX & NX) _] H1 H2 rest HR. apply cutr_app; [apply H1; cbn [concat app]; apply good_cons; cbn in *; tauto|].
    cbn [cutr]. split; [discriminate|]. split; [|now apply H2]. intros p. rewrite concat_toks, EX. exists []. destruct HC as [<-|[<-|[]]].
    - now apply tok_blank.
    - apply tok_colon. right. exists x, (u ++ rest). auto. }
  apply geo_ind4; auto.
  - intros d HD rest HR. cbn [toks cutr concat app]. apply good_stop in HR. split; [apply number_head in HD as (c & t & -> & _); discriminate|]. split; auto.
    intros p. exists []. now apply tok_number.
  - intros ts g R IH rest HR. cbn [toks cutr]. split; [discriminate|]. split.
    + intros p. exists []. rewrite concat_app, concat_toks, <- app_assoc. apply tok_open; [now left|]. apply head_stops. now apply (EI ts).
    + apply cutr_app; [apply IH; apply good_cons; cbn; auto|]. cbn [cutr]. split; [discriminate|]. split; auto. intros p. exists []. apply tok_close.
  - intros op ts g HO R IH rest HR. cbn [toks cutr]. split; [discriminate|]. split; auto. intros p. exists []. rewrite concat_toks.
    apply op_ok in HO as (_ & _ & HO). apply tok_open; auto. apply head_stops. now apply (EP ts).
  - intros ts1 g1 ts2 g2 R1 IH1 R2 IH2. apply BIN; auto; [cbn; auto|]. now apply (EA ts2).
  - intros ts1 g1 b ts2 g2 R1 IH1 HB R2 IH2. apply BIN; auto; [cbn; auto|]. now apply (EU ts2).
  - intros ts1 g1 ts2 g2 R1 IH1 R2 IH2. apply BIN; auto; [cbn; auto|]. now apply (EU (L "(" :: ts2)).
Qed.

Lemma lstrip_head c t : is_space c = false -> lstrip (c :: t) = c :: t.
Proof. intros H. cbn. now rewrite H. Qed.
Lemma strip_ok s : head_ok s -> last_ok s -> strip s = s.
Proof.
  intros (c & t & E & H & _) (u & d & E' & H'). unfold strip, rstrip. rewrite E, lstrip_head, <- E by auto.
  rewrite E', rev_app_distr. cbn [rev app]. rewrite lstrip_head by auto. cbn [rev]. now rewrite rev_involutive.
Qed.
Lemma clean_id t : head_ok t -> last_ok t -> clean_token t = t.
Proof. intros H1 H2. unfold clean_token. rewrite strip_ok by auto. destruct H1 as (c & u & -> & _). reflexivity. Qed.
Lemma number_clean d : number d -> clean_token d = d.
Proof. intros H. apply number_ends in H as [A B]. now apply clean_id. Qed.
Lemma char_clean c : is_space c = false -> c <> ":"%char -> clean_token [c] = [c].
Proof. intros H N. apply clean_id; [exists c, []; auto|exists [], c; auto]. Qed.
Lemma grammar_clean :
  (forall ts g, r_prim ts g -> map clean_token (toks g) = toks g) /\ (forall ts g, r_atom ts g -> map clean_token (toks g) = toks g) /\
  (forall ts g, r_union ts g -> map clean_token (toks g) = toks g) /\ (forall ts g, r_inter ts g -> map clean_token (toks g) = toks g).
Proof.
  apply geo_ind4; auto; cbn [toks map].
  - intros d HD. now rewrite number_clean.
  - intros ts g _ IH. rewrite map_app, IH. reflexivity.
  - intros op ts g HO _ IH. rewrite IH. apply op_ok in HO as (A & B & _). now rewrite char_clean.
  - intros ts1 g1 ts2 g2 _ IH1 _ IH2. rewrite map_app. cbn [map]. now rewrite IH1, IH2.
  - intros ts1 g1 b ts2 g2 _ IH1 _ _ IH2. rewrite map_app. cbn [map]. now rewrite IH1, IH2.
  - intros ts1 g1 ts2 g2 _ IH1 _ IH2. rewrite map_app. cbn [map]. now rewrite IH1, IH2.
Qed.

Lemma written_tokens ts g : r_inter ts g -> geo_tokens (geo_to_mcnp g) = Some (toks g).
Proof.
  intros R. destruct grammar_ends as (_ & _ & _ & EI). destruct (EI ts g R) as [H1 H2].
  unfold geo_tokens. rewrite strip_ok by auto. unfold raw_tokens. rewrite <- concat_toks, finditer_cut.
  - replace (seqb (concat (toks g)) (concat (toks g))) with true by (symmetry; now apply seqb_eq). f_equal.
    destruct grammar_clean as (_ & _ & _ & GC). now apply (GC ts).
  - reflexivity.
  - apply cutr_cut. destruct grammar_cut as (_ & _ & _ & GC). apply (GC ts); auto. now left.
Qed.
Lemma grammar_readable ts g : r_inter ts g -> readable g.
Proof.
  intros R. apply from_iff. exists (toks g). split; [now apply (written_tokens ts)|]. destruct grammar_toks as (_ & _ & _ & GT). now apply (GT ts).
Qed.
Theorem geometry_round_trip s g : geo_from_mcnp s = Ok g -> geo_from_mcnp (geo_to_mcnp g) = Ok g.
Proof. intros H. apply from_iff in H as (ts & _ & R). now apply (grammar_readable ts). Qed.
Lemma readable_grammar g : readable g <-> r_inter (toks g) g.
Proof.
  split; [|apply grammar_readable]. intros H. apply from_iff in H as (ts & _ & R). destruct grammar_toks as (_ & _ & _ & GT). now apply (GT ts).
Qed.
