(** Which class of a union or family reads a text: patterns without a common text. *)

From Coq Require Import Ascii String NArith ZArith Bool Arith Lia List.
From Verif Require Import PyStr Regex RegexParse RegexFacts PyNum Types CardText Cards Tables CardsSpec CardsFacts2 CardsFacts5 Geometry Numbered Problem InpFile InpSpec InpSpec2 RegexDer.
Import ListNotations.
Open Scope char_scope.
Open Scope list_scope.

(** ** The data cards *)

Definition entry_re (e : entry) : re :=
  match e with Known c => compile true (c_pat c) | Remark => compile true (c_pat k_Comment) end.
Definition entry_name (e : entry) : string := match e with Known c => c_name c | Remark => "Comment" end.
Definition entry_whole (e : entry) : bool := ends_z (entry_re e).
Definition steps : nat := Nat.pow 2 14.
Definition memb (n : string) (l : list string) : bool := existsb (String.eqb n) l.

(** Each entry but the excepted ones shares no text with an earlier one. *)
Fixpoint apart (except : list string) (pre l : list entry) : bool :=
  match l with
  | [] => true
  | e :: l' => entry_whole e && (memb (entry_name e) except || forallb (fun d => disj steps (entry_re d) (entry_re e)) pre) && apart except (pre ++ [e]) l'
  end.
Lemma apart_in except l : forall pre e, apart except pre l = true -> In e l -> memb (entry_name e) except = false ->
  exists a b, l = a ++ e :: b /\ forallb (fun d => disj steps (entry_re d) (entry_re e)) (pre ++ a) = true /\ Forall (fun d => entry_whole d = true) (a ++ [e]).
Proof.
  induction l as [|d l IH]; intros pre e HA HI HE; [destruct HI|]. cbn [apart] in HA.
  apply andb_prop in HA as [HA HA3]. apply andb_prop in HA as [HA1 HA2]. destruct HI as [->|HI].
  - rewrite HE in HA2. cbn [orb] in HA2. exists [], l. rewrite app_nil_r. cbn [app]. auto.
  - destruct (IH _ _ HA3 HI HE) as (a & b & -> & H1 & H2). exists (d :: a), b. rewrite <- app_assoc in H1. cbn [app] in *. auto.
Qed.

Section Union.
  Lemma cls_text c s x : ends_z (compile true (c_pat c)) = true -> card_from_mcnp ext fam c s = Ok x -> V (compile true (c_pat c)) (fst (card_preprocess s)).
  Proof.
    intros HW H. unfold card_from_mcnp in H. destruct (card_preprocess s) as [t cs]. cbn [fst].
    destruct (re_match (compile true (c_pat c)) t) as [o|] eqn:E; [|discriminate]. exact (match_V _ _ _ HW E).
  Qed.
  Lemma cls_refuses c r s : ends_z (compile true (c_pat c)) = true -> disj steps (compile true (c_pat c)) r = true -> V r (fst (card_preprocess s)) ->
    card_from_mcnp ext fam c s = Lib InpError.
  Proof.
    intros HW HD HV. unfold card_from_mcnp. destruct (card_preprocess s) as [t cs]. cbn [fst] in HV.
    destruct (re_match (compile true (c_pat c)) t) as [o|] eqn:E; [|reflexivity]. elim (disj_ok _ _ _ _ HD (match_V _ _ _ HW E) HV).
  Qed.
  Lemma bind_ok {A B} (x : result A) (f : A -> result B) y : bind x f = Ok y -> exists a, x = Ok a.
  Proof. destruct x as [a|a|a]; intros H; try discriminate. now exists a. Qed.
  Definition rem (x : obj * list str) : result remarked := Ok (CComment (match attr_of "text" (fst x) with Some (VStr t) => Some t | _ => None end), snd x).
  Lemma re_remark : entry_re Remark = compile true (c_pat k_Comment). Proof. reflexivity. Qed.
  Lemma whole_remark : entry_whole Remark = ends_z (compile true (c_pat k_Comment)). Proof. reflexivity. Qed.
  Lemma read_remark s : read_entry Remark s = bind (card_from_mcnp ext fam k_Comment s) rem. Proof. reflexivity. Qed.
  Lemma entry_text e s x : entry_whole e = true -> read_entry e s = Ok x -> V (entry_re e) (fst (card_preprocess s)).
  Proof.
    intros HW H. destruct e as [c|].
    - apply bind_ok in H as (y & E). exact (cls_text c s y HW E).
    - rewrite re_remark. rewrite whole_remark in HW. rewrite read_remark in H. revert HW H. generalize k_Comment. intros c HW H. apply bind_ok in H as (y & E). exact (cls_text c s y HW E).
  Qed.
  Lemma entry_refuses d r s : entry_whole d = true -> disj steps (entry_re d) r = true -> V r (fst (card_preprocess s)) -> read_entry d s = Lib InpError.
  Proof.
    intros HW HD HV. destruct d as [c|].
    - unfold read_entry. now rewrite (cls_refuses c r s HW HD HV).
    - rewrite re_remark in HD. rewrite whole_remark in HW. rewrite read_remark. revert HD HW. generalize k_Comment. intros c HD HW. now rewrite (cls_refuses c r s HW HD HV).
  Qed.
  Lemma first_of_skip (a b : list (str -> result remarked)) s : Forall (fun r => exists e, r s = Lib e) a -> first_of (a ++ b) s = first_of b s.
  Proof. induction 1 as [|r a (e & H) HA IH]; [reflexivity|]. cbn [app first_of]. now rewrite H. Qed.

  Lemma union_reads except l e s x : apart except [] l = true -> In e l -> memb (entry_name e) except = false ->
    read_entry e s = Ok x -> first_of (map read_entry l) s = Ok x.
  Proof.
    intros HA HI HE HR. destruct (apart_in _ _ _ _ HA HI HE) as (a & b & -> & H1 & H2). cbn [app] in H1.
    apply Forall_app in H2 as [H2 H3]. inversion H3 as [|? ? H4 _]; subst. pose proof (entry_text e s x H4 HR) as HV.
    rewrite map_app. rewrite first_of_skip.
    - cbn [map first_of]. now rewrite HR.
    - apply Forall_map, Forall_forall. intros d HD. exists InpError. rewrite Forall_forall in H2. rewrite forallb_forall in H1.
      apply (entry_refuses d (entry_re e)); auto.
  Qed.
End Union.

Lemma data_apart : apart ambiguous_cards [] data_entries = true.
Proof. vm_cast_no_check (eq_refl true). Qed.

Lemma memb_in n l : memb n l = true <-> In n l.
Proof.
  unfold memb. rewrite existsb_exists. split.
  - intros (x & HI & E). apply String.eqb_eq in E. now subst.
  - intros HI. exists n. split; auto. apply String.eqb_refl.
Qed.
Theorem data_class_read c s o cs : In (Known c) data_entries -> ~ In (c_name c) ambiguous_cards ->
  card_from_mcnp ext fam c s = Ok (o, cs) -> read_data_card s = Ok (CData c o, cs).
Proof.
  intros HI HA HR. unfold read_data_card. refine (union_reads ambiguous_cards data_entries (Known c) s _ data_apart HI _ _).
  - apply not_true_is_false. rewrite memb_in. exact HA.
  - unfold read_entry. rewrite HR. reflexivity.
Qed.
Lemma remark_in : In Remark data_entries.
Proof.
  assert (H : existsb (fun e => match e with Remark => true | _ => false end) data_entries = true) by (vm_compute; reflexivity).
  apply existsb_exists in H as (e & HI & HE). destruct e; try discriminate. exact HI.
Qed.
Theorem data_comment_read s x : comment_from_mcnp s = Ok x -> read_data_card s = Ok x.
Proof.
  intros HR. unfold read_data_card. refine (union_reads ambiguous_cards data_entries Remark s _ data_apart remark_in _ _).
  - reflexivity.
  - exact HR.
Qed.

(** ** The options *)

Fixpoint apart_cls (except : list string) (pre l : list cls) : bool :=
  match l with
  | [] => true
  | c :: l' => ends_z (compile true (c_pat c)) &&
               (memb (c_name c) except || forallb (fun d => disj steps (compile true (c_pat d)) (compile true (c_pat c))) pre) && apart_cls except (pre ++ [c]) l'
  end.
Lemma apart_cls_in except l : forall pre e, apart_cls except pre l = true -> In e l -> memb (c_name e) except = false ->
  exists a b, l = a ++ e :: b /\ forallb (fun d => disj steps (compile true (c_pat d)) (compile true (c_pat e))) (pre ++ a) = true /\
    Forall (fun d => ends_z (compile true (c_pat d)) = true) (a ++ [e]).
Proof.
  induction l as [|d l IH]; intros pre e HA HI HE; [destruct HI|]. cbn [apart_cls] in HA.
  apply andb_prop in HA as [HA HA3]. apply andb_prop in HA as [HA1 HA2]. destruct HI as [->|HI].
  - rewrite HE in HA2. cbn [orb] in HA2. exists [], l. rewrite app_nil_r. cbn [app]. auto.
  - destruct (IH _ _ HA3 HI HE) as (a & b & -> & H1 & H2). exists (d :: a), b. rewrite <- app_assoc in H1. cbn [app] in *. auto.
Qed.
Lemma first_match_reads except cs c s m : apart_cls except [] cs = true -> In c cs -> memb (c_name c) except = false ->
  re_match (compile true (c_pat c)) s = Some m -> mtext m = s -> first_match cs s = Some (c, m).
Proof.
  intros HA HI HE HM HT. destruct (apart_cls_in _ _ _ _ HA HI HE) as (a & b & -> & H1 & H2). cbn [app] in H1.
  apply Forall_app in H2 as [H2 H3]. pose proof (Forall_inv H3) as H4. pose proof (match_V _ _ _ H4 HM) as HV. clear HA HI H3.
  induction a as [|d a IH]; cbn [app first_match].
  - rewrite HM. assert (X : seqb (mtext m) s = true) by (now apply seqb_eq). now rewrite X.
  - cbn [forallb] in H1. apply andb_prop in H1 as [H0 H1]. pose proof (Forall_inv H2) as H5. apply Forall_inv_tail in H2.
    destruct (re_match (compile true (c_pat d)) s) as [o|] eqn:E; [|auto]. elim (disj_ok _ _ _ _ H0 (match_V _ _ _ H5 E) HV).
Qed.
Definition ambiguous_options : list string :=
  ["mplot_Xs_1"; "mplot_Xs_2"; "sdef_Cel_1"; "sdef_Dir_0"; "sdef_Erg_1"; "sdef_Ext_1"; "sdef_Rad_1"; "sdef_Tme_1"; "sdef_Tr_1"; "sdef_X_1"; "sdef_Y_1"; "sdef_Z_1"; "ssr_Tr_1"; "cell_Trcl_3"; "cell_Fill_2"; "cell_Fill_3"; "cell_Fill_4"; "cell_Fill_5"; "cell_Fill_6";
   "like_Trcl_3"; "like_Fill_2"; "like_Fill_3"; "like_Fill_4"; "like_Fill_5"; "like_Fill_6"]%string.
Lemma families_apart : forallb (fun x => apart_cls ambiguous_options [] (snd x)) families = true.
Proof. vm_cast_no_check (eq_refl true). Qed.
(** Reading as a member of the family is reading by the class itself. *)
Theorem option_class_read ex fm fn cs c s x : In (fn, cs) families -> In c cs -> ~ In (c_name c) ambiguous_options ->
  family_from_mcnp ex fm [c] s = Ok x -> family_from_mcnp ex fm cs s = Ok x.
Proof.
  intros HF HI HA HR. unfold family_from_mcnp in *. cbn [first_match] in HR.
  destruct (re_match (compile true (c_pat c)) (preprocess s)) as [m|] eqn:E; [|discriminate].
  destruct (seqb (mtext m) (preprocess s)) eqn:ES; [|discriminate]. apply seqb_eq in ES.
  pose proof families_apart as H. rewrite forallb_forall in H. specialize (H _ HF). cbn [snd] in H.
  assert (HN : memb (c_name c) ambiguous_options = false) by (apply not_true_is_false; rewrite memb_in; exact HA).
  rewrite (first_match_reads ambiguous_options cs c _ m H HI HN E ES). exact HR.
Qed.
