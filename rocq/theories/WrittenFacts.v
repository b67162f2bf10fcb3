(** The text of a data card has no line breaks of its own. *)

From Coq Require Import Ascii String NArith ZArith Bool Arith Lia List.
From Verif Require Import PyStr Regex RegexParse PyNum Types TypesSpec CardText CardTextSpec Cards Tables CardsSpec InpFile
  CardTextFacts6 CalmFacts.
Import ListNotations.
Open Scope char_scope.

Definition own_writers : list string := ["Ds_1"; "Ds_2"; "Ds_3"; "F_2"]%string.
(** No value of the object has a line break in its text. *)
Definition on_one_line (o : obj) : Prop := forall n v, In (n, Some v) o -> ~ In nl (write v).

Lemma assoc_In {A} n (l : list (string * A)) v : assoc n l = Some v -> In (n, v) l.
Proof.
  induction l as [|[x w] l IH]; cbn [assoc]; [discriminate|]. destruct (String.eqb_spec x n) as [->|]; [intros [= ->]; now left|right; auto].
Qed.
Lemma assoc_texts o n t : on_one_line o -> assoc n (texts o) = Some (Some t) -> ~ In nl t.
Proof.
  intros H E. apply assoc_In in E. unfold texts in E. apply in_map_iff in E as ([m v] & E & HI). cbn [fst snd] in E.
  destruct v as [v|]; [|discriminate]. injection E as -> <-. exact (H _ _ HI).
Qed.
Lemma get_texts o n : on_one_line o -> ~ In nl (match assoc n (texts o) with Some (Some t) => t | _ => [] end).
Proof. intros H. destruct (assoc n (texts o)) as [[t|]|] eqn:E; try (intros []). exact (assoc_texts o n t H E). Qed.
Lemma desig_texts o n : on_one_line o -> ~ In nl (match assoc n (texts o) with Some (Some t) => ":" :: t | _ => [] end).
Proof. intros H. destruct (assoc n (texts o)) as [[t|]|] eqn:E; [|intros []|intros []]. intros [X|X]; [discriminate|exact (assoc_texts o n t H E X)]. Qed.
Lemma not_in_app {A} (x : A) a b : ~ In x a -> ~ In x b -> ~ In x (a ++ b).
Proof. intros HA HB H. apply in_app_or in H as [H|H]; auto. Qed.
Lemma join_no_nl l : Forall (fun t => ~ In nl t) l -> ~ In nl (join [sp] l).
Proof.
  induction l as [|x l IH]; intros H; [intros []|]. inversion_clear H as [|? ? HX HL]. destruct l as [|y l]; [exact HX|].
  change (join [sp] (x :: y :: l)) with (x ++ [sp] ++ join [sp] (y :: l)). apply not_in_app; [exact HX|]. apply not_in_app; [|exact (IH HL)].
  intros [X|[]]. discriminate X.
Qed.
Lemma value_no_nl o : on_one_line o -> ~ In nl (value_text (texts o)).
Proof.
  intros H. unfold value_text. apply join_no_nl. apply Forall_forall. intros t HT. apply in_flat_map in HT as ([n v] & HI & HT). cbn [fst snd] in HT.
  destruct (head_attr n); [destruct HT|]. destruct v as [w|]; [|destruct HT]. destruct HT as [<-|[]].
  unfold texts in HI. apply in_map_iff in HI as ([m u] & E & HU). cbn [fst snd] in E. destruct u as [u|]; [|discriminate E].
  injection E as -> <-. exact (H _ _ HU).
Qed.
Lemma lines_one s : ~ In nl s -> lines s = [s].
Proof. exact (split_on_none nl s). Qed.

Lemma entries_kw c : In (Known c) data_entries -> ~ In nl (c_kw c) /\ match c_kind c with KOwn (OWord w) => ~ In nl w | KOwn ORings => True | KOwn _ | KEntry => False | _ => True end
  /\ (In (c_name c) own_writers <-> exists o, c_kind c = KOwn o).
Proof.
  assert (H : forallb (fun e => match e with Remark => true | Known c =>
     (negb (existsb (ceqb nl) (c_kw c)) && match c_kind c with KOwn (OWord w) => negb (existsb (ceqb nl) w) | KOwn ORings => true | KOwn _ | KEntry => false | _ => true end
      && Bool.eqb (existsb (String.eqb (c_name c)) own_writers) (match c_kind c with KOwn _ => true | _ => false end))%bool end) data_entries = true) by (vm_compute; reflexivity).
  assert (X : forall w, negb (existsb (ceqb nl) w) = true -> ~ In nl w).
  { intros w E HI. apply negb_true_iff in E. assert (Y : existsb (ceqb nl) w = true) by (apply existsb_exists; exists nl; split; [exact HI|reflexivity]). congruence. }
  intros HI. rewrite forallb_forall in H. specialize (H _ HI). cbn beta iota in H. apply andb_prop in H as [H H3]. apply andb_prop in H as [H1 H2].
  split; [auto|]. split.
  - destruct (c_kind c) as [| | |[| |w|]]; auto; discriminate H2.
  - apply eqb_prop in H3. split.
    + intros HN. assert (Y : existsb (String.eqb (c_name c)) own_writers = true) by (apply existsb_exists; exists (c_name c); split; [exact HN|apply String.eqb_refl]).
      rewrite Y in H3. destruct (c_kind c) as [| | |x]; try discriminate H3. now exists x.
    + intros [x E]. rewrite E in H3. apply existsb_exists in H3 as (n & HN & HE). apply String.eqb_eq in HE. now subst n.
Qed.
Lemma lstrip_incl s x : In x (lstrip s) -> In x s.
Proof. intros H. destruct (lstrip_split s) as (p & E & _). rewrite E. apply in_or_app. now right. Qed.
Lemma strip_no_nl s : ~ In nl s -> ~ In nl (strip s).
Proof. intros H HI. apply H. unfold strip, rstrip in HI. apply in_rev in HI. apply lstrip_incl in HI. apply in_rev in HI. now apply lstrip_incl in HI. Qed.

Lemma one_line_text c o : In (Known c) data_entries -> on_one_line o -> ~ In nl (obj_text c (texts o)).
Proof.
  intros HI HO. destruct (entries_kw c HI) as (HK & HW & _). assert (HS : ~ In nl [sp]) by (intros [X|[]]; discriminate X).
  pose proof (value_no_nl o HO) as HV. unfold obj_text, own_text, head_text. cbv zeta.
  destruct (c_kind c) as [| | |[| |w|]]; try (match type of HW with False => destruct HW end);
  repeat first [apply not_in_app | apply (get_texts o); exact HO | apply (desig_texts o); exact HO | exact HK | exact HW | exact HS | exact HV].
Qed.

Theorem own_one_line c o : In (Known c) data_entries -> In (c_name c) own_writers -> on_one_line o -> lines (card_to_mcnp c o) = [card_to_mcnp c o].
Proof.
  intros HI HN HO. apply lines_one. destruct (entries_kw c HI) as (_ & _ & HW). destruct (proj1 HW HN) as (x & E).
  pose proof (one_line_text c o HI HO) as HT. unfold card_to_mcnp. rewrite E. exact HT.
Qed.
Theorem others_wrapped c o : In (Known c) data_entries -> ~ In (c_name c) own_writers -> on_one_line o -> Forall (fits 81) (lines (card_to_mcnp c o)).
Proof.
  intros HI HN HO. destruct (entries_kw c HI) as (_ & _ & HW). pose proof (one_line_text c o HI HO) as HT. apply strip_no_nl in HT.
  unfold card_to_mcnp. destruct (c_kind c) as [| | |x] eqn:E; try exact (lines_bounded _ HT). exfalso. apply HN, HW. now exists x.
Qed.
