(** The classes of the library under the test of Calm.v. *)

From Coq Require Import Ascii String NArith ZArith Bool Arith List Lia.
From Verif Require Import PyStr Regex RegexParse RegexFacts PyNum Types CardText Cards Tables CardsSpec InpFile.
From Verif Require Import TypesFacts2 CardsFacts2 Calm CalmFacts CalmFacts2 CalmFacts3 CalmSpec.
Import ListNotations.

(** Families with a class that may raise. *)
Definition listed (l : list string) (n : string) : bool := existsb (String.eqb n) l.
Definition noisy (c : cls) : bool := (listed (map fst raising) (c_name c) || listed undecided (c_name c))%bool.
Definition bad_families : list string := Eval vm_compute in
  map fst (filter (fun x => existsb noisy (snd x)) families).

Lemma listed_in l n : listed l n = true <-> In n l.
Proof.
  unfold listed. rewrite existsb_exists. split.
  - intros (x & HX & E). apply String.eqb_eq in E. now subst.
  - intros H. exists n. split; [exact H|apply String.eqb_refl].
Qed.

Lemma families_calm : forallb (fun x => if listed bad_families (fst x) then true else forallb (calm bad_families true) (snd x)) families = true.
Proof. vm_compute. reflexivity. Qed.
Lemma classes_calm : forallb (fun c => if noisy c then true else calm bad_families true c) all_classes = true.
Proof. vm_compute. reflexivity. Qed.
Lemma classes_calm_long : forallb (fun c => if listed raising_long (c_name c) then true else calm bad_families false c) all_classes = true.
Proof. vm_compute. reflexivity. Qed.

Lemma assoc_in {A} n (l : list (string * A)) v : assoc n l = Some v -> In (n, v) l.
Proof.
  induction l as [|[x w] l IH]; cbn [assoc]; [discriminate|]. destruct (String.eqb_spec x n) as [->|]; [intros [= ->]; now left|right; auto].
Qed.
Lemma fam_calm n c : existsb (String.eqb n) bad_families = false -> In c (fam n) -> calm bad_families true c = true.
Proof.
  intros HB HC. unfold fam in HC. destruct (assoc n families) as [l|] eqn:E; [|destruct HC]. apply assoc_in in E.
  pose proof families_calm as F. rewrite forallb_forall in F. specialize (F _ E). cbn [fst snd] in F. unfold listed in F. rewrite HB in F. cbn [orb] in F.
  rewrite forallb_forall in F. auto.
Qed.

Lemma class_calm c : In c all_classes -> ~ In (c_name c) (map fst raising) -> ~ In (c_name c) undecided -> calm bad_families true c = true.
Proof.
  intros HI H1 H2. pose proof classes_calm as F. rewrite forallb_forall in F. specialize (F _ HI). unfold noisy in F.
  destruct (listed (map fst raising) (c_name c)) eqn:E1; [exfalso; now apply H1, listed_in|].
  destruct (listed undecided (c_name c)) eqn:E2; [exfalso; now apply H2, listed_in|]. exact F.
Qed.

Theorem quiet_card c s : In c all_classes -> ~ In (c_name c) (map fst raising) -> ~ In (c_name c) undecided ->
  is_py (card_from_mcnp ext fam c s) = false.
Proof. intros HI H1 H2. apply (card_no_py fam bad_families fam_calm). now apply class_calm. Qed.
Theorem quiet_family cs s : (forall c, In c cs -> In c all_classes /\ ~ In (c_name c) (map fst raising) /\ ~ In (c_name c) undecided) ->
  is_py (family_from_mcnp ext fam cs s) = false.
Proof.
  intros H. apply (family_no_py fam bad_families); [apply (ext_no_py fam bad_families fam_calm)|].
  intros c HC. destruct (H c HC) as (A & B & C). now apply class_calm.
Qed.
Theorem quiet_fields c s e : In c all_classes -> ~ In (c_name c) raising_long -> card_from_mcnp ext fam c s = Py e ->
  exists i t, field c s i = Some t /\ shorthand t.
Proof.
  intros HI HN HE.
  assert (HC : calm bad_families false c = true).
  { pose proof classes_calm_long as F. rewrite forallb_forall in F. specialize (F _ HI). destruct (listed raising_long (c_name c)) eqn:E1; [exfalso; now apply HN, listed_in|exact F]. }
  unfold field. destruct (re_match (compile true (c_pat c)) (fst (card_preprocess s))) as [o|] eqn:EM.
  - assert (D : {exists i t, group i o = Some t /\ shorthand t} + {long o}).
    { (* a finite search: the captures of the match *)
      destruct (horiz_from_mcnp (strip (mtext o))) as [h|] eqn:E0.
      - left. exists 0, (mtext o). split; [reflexivity|]. exists h. exact E0.
      - assert (X : {x : nat * str | In x (mcaps o) /\ lookup (fst x) (mcaps o) = Some (snd x) /\ fst x <> 0 /\ horiz_from_mcnp (strip (snd x)) <> None} +
                    {forall n t, n <> 0 -> lookup n (mcaps o) = Some t -> horiz_from_mcnp (strip t) = None}).
        { set (f := fun x : nat * str => match lookup (fst x) (mcaps o) with Some u => (seqb u (snd x) && negb (Nat.eqb (fst x) 0) && match horiz_from_mcnp (strip (snd x)) with Some _ => true | None => false end)%bool | None => false end).
          destruct (find f (mcaps o)) as [x|] eqn:EF.
          - left. exists x. apply find_some in EF as [HX HF]. unfold f in HF. destruct (lookup (fst x) (mcaps o)) as [u|]; [|discriminate].
            apply andb_prop in HF as [HF H3]. apply andb_prop in HF as [H1 H2]. apply seqb_eq in H1. subst u. apply negb_true_iff, Nat.eqb_neq in H2.
            repeat split; auto. destruct (horiz_from_mcnp (strip (snd x))); [discriminate|discriminate].
          - right. intros n t HN0 HL. destruct (horiz_from_mcnp (strip t)) as [h|] eqn:EH; [|reflexivity]. exfalso.
            pose proof (find_none _ _ EF (n, t) (lookup_in _ _ _ HL)) as HF. unfold f in HF. cbn [fst snd] in HF. rewrite HL, EH in HF.
            assert (S1 : seqb t t = true) by now apply seqb_eq. rewrite S1 in HF. apply Nat.eqb_neq in HN0. rewrite HN0 in HF. discriminate. }
        destruct X as [([n t] & _ & HL & HN0 & HH)|HX].
        + left. exists n, t. cbn [fst snd] in *. split; [destruct n; [congruence|exact HL]|]. destruct (horiz_from_mcnp (strip t)) as [h|] eqn:EH; [exists h; exact EH|congruence].
        + right. intros [|n] t HG; [cbn [group] in HG; injection HG as <-; exact E0|]. apply (HX (S n)); [discriminate|exact HG]. }
    destruct D as [D|D]; [exact D|]. exfalso.
    pose proof (card_no_py_long fam bad_families fam_calm 4 c s HC) as P. unfold Tables.ext in HE. rewrite HE in P. discriminate P. intros o' EO. rewrite EM in EO. injection EO as <-. exact D.
  - exfalso. unfold card_from_mcnp in HE. destruct (card_preprocess s) as [t cm]. cbn [fst] in EM. rewrite EM in HE. discriminate.
Qed.

(** * The data block *)

Lemma comment_calm : calm bad_families true k_Comment = true.
Proof. vm_compute. reflexivity. Qed.
Lemma comment_no_py s : is_py (comment_from_mcnp s) = false.
Proof. unfold comment_from_mcnp. apply is_py_bind; [|reflexivity]. exact (card_no_py fam bad_families fam_calm 4 k_Comment s comment_calm). Qed.
Lemma entries_calm : forallb (fun e => match e with Known c => if listed (map fst raising) (c_name c) then true else calm bad_families true c | Remark => true end) data_entries = true.
Proof. vm_compute. reflexivity. Qed.
Definition quiet_entry (d : entry) : bool :=
  match d with Known c => if listed (map fst raising) (c_name c) then true else calm bad_families true c | Remark => true end.
Lemma entry_raises d s e : quiet_entry d = true -> read_entry d s = Py e ->
  exists c, d = Known c /\ In (c_name c) (map fst raising) /\ card_from_mcnp ext fam c s = Py e.
Proof.
  destruct d as [c|]; cbn [quiet_entry read_entry]; intros Q E.
  - assert (E' : card_from_mcnp ext fam c s = Py e) by (destruct (card_from_mcnp ext fam c s); cbn [bind] in E; congruence).
    exists c. split; [reflexivity|]. split; [|exact E']. destruct (listed (map fst raising) (c_name c)) eqn:EL; [now apply listed_in|].
    exfalso. pose proof (card_no_py fam bad_families fam_calm 4 c s Q) as P. unfold Tables.ext in E'. rewrite E' in P. discriminate P.
  - exfalso. pose proof (comment_no_py s) as P. rewrite E in P. discriminate P.
Qed.
Lemma union_raises l s e : forallb quiet_entry l = true -> first_of (map read_entry l) s = Py e ->
  exists c, In (Known c) l /\ In (c_name c) (map fst raising) /\ card_from_mcnp ext fam c s = Py e.
Proof.
  induction l as [|d l IH]; cbn [map first_of forallb]; [discriminate|]. intros F H. apply andb_prop in F as [F1 F2].
  destruct (read_entry d s) as [x|x|x] eqn:E; [discriminate H| |].
  - destruct (IH F2 H) as (c & A & B & C). exists c. split; [now right|]. split; assumption.
  - injection H as ->. destruct (entry_raises d s e F1 E) as (c & -> & B & C). exists c. split; [now left|]. split; assumption.
Qed.
Theorem data_raises s e : read_data_card s = Py e ->
  exists c, In (Known c) data_entries /\ In (c_name c) (map fst raising) /\ card_from_mcnp ext fam c s = Py e.
Proof. exact (union_raises data_entries s e entries_calm). Qed.
