(** Deciding whether a class has the regular form. *)

From Coq Require Import Ascii String NArith ZArith Bool Arith List Lia.
From Verif Require Import PyStr Regex RegexParse RegexFacts RegexLang PyNum Types TypesSpec SubFacts CardText CardTextSpec Cards CardsSpec Tables CardsFacts2.
Import ListNotations.
Open Scope char_scope.
Open Scope list_scope.

Fixpoint list_eqb {A} (f : A -> A -> bool) (a b : list A) : bool :=
  match a, b with
  | [], [] => true
  | x :: a', y :: b' => f x y && list_eqb f a' b'
  | _, _ => false
  end.
Lemma list_eqb_eq {A} (f : A -> A -> bool) : (forall x y, f x y = true -> x = y) -> forall a b, list_eqb f a b = true -> a = b.
Proof.
  intros H. induction a as [|x a IH]; intros [|y b] E; try discriminate; auto. cbn in E. apply andb_prop in E as [E1 E2].
  f_equal; auto.
Qed.
Definition range_eqb (a b : N * N) : bool := N.eqb (fst a) (fst b) && N.eqb (snd a) (snd b).
Lemma range_eqb_eq a b : range_eqb a b = true -> a = b.
Proof. destruct a, b. unfold range_eqb. intros H. apply andb_prop in H as [H1 H2]. apply N.eqb_eq in H1, H2. cbn in *. congruence. Qed.
Definition cset_eqb (a b : cset) : bool := Bool.eqb (cneg a) (cneg b) && list_eqb range_eqb (cranges a) (cranges b).
Lemma cset_eqb_eq a b : cset_eqb a b = true -> a = b.
Proof.
  destruct a, b. unfold cset_eqb. cbn. intros H. apply andb_prop in H as [H1 H2]. apply eqb_prop in H1.
  apply (list_eqb_eq _ range_eqb_eq) in H2. congruence.
Qed.
Definition onat_eqb (a b : option nat) : bool :=
  match a, b with Some x, Some y => Nat.eqb x y | None, None => true | _, _ => false end.
Fixpoint re_eqb (a b : re) : bool :=
  match a, b with
  | REps, REps | RBeg, RBeg | REnd, REnd => true
  | RSet c, RSet d => cset_eqb c d
  | RCat a1 a2, RCat b1 b2 | RAlt a1 a2, RAlt b1 b2 => re_eqb a1 b1 && re_eqb a2 b2
  | RRep l n x a', RRep l' n' x' b' => Bool.eqb l l' && Nat.eqb n n' && onat_eqb x x' && re_eqb a' b'
  | RGrp n a', RGrp n' b' => Nat.eqb n n' && re_eqb a' b'
  | RBehind x l, RBehind y l' => Bool.eqb x y && list_eqb cset_eqb l l'
  | _, _ => false
  end.
Lemma re_eqb_eq a : forall b, re_eqb a b = true -> a = b.
Proof.
  induction a; intros [] H; cbn in H; try discriminate; auto;
    repeat match goal with H : _ && _ = true |- _ => apply andb_prop in H as [? ?] end;
    repeat match goal with
    | H : cset_eqb _ _ = true |- _ => apply cset_eqb_eq in H
    | H : Bool.eqb _ _ = true |- _ => apply eqb_prop in H
    | H : Nat.eqb _ _ = true |- _ => apply Nat.eqb_eq in H
    | H : list_eqb cset_eqb _ _ = true |- _ => apply (list_eqb_eq _ cset_eqb_eq) in H
    | H : re_eqb _ _ = true, IH : forall b, re_eqb _ b = true -> _ |- _ => apply IH in H
    | H : onat_eqb ?a ?b = true |- _ => assert (a = b) by (destruct a, b; cbn in H; try discriminate; auto; apply Nat.eqb_eq in H; congruence); clear H
    end; try congruence.
Qed.

(** The optional flags of the fields, read off the compiled pattern. *)
Fixpoint flags (r : re) : list bool :=
  match r with
  | RCat (RRep false 0 (Some 1) _) t => true :: flags t
  | RCat (RGrp _ _) t => false :: flags t
  | _ => []
  end.
Definition is_opt (r : re) : bool := match r with RCat (RRep false 0 (Some 1) _) _ => true | _ => false end.
Definition tl_re (r : re) : re := match r with RCat _ t => t | _ => r end.
Fixpoint drop_re (n : nat) (r : re) : re := match n with O => r | S n' => drop_re n' (tl_re r) end.

Definition has_attr (n : string) (c : cls) : bool := existsb (fun a => String.eqb (a_name a) n) (c_attrs c).
Definition decode (c : cls) : form :=
  let r := tl_re (compile true (c_pat c)) in
  let p := has_attr "prefix" c in
  let r := if p then tl_re r else r in
  let r := drop_re (length (c_kw c)) r in
  let s := if has_attr "suffix" c then Some (is_opt r) else None in
  let r := match s with Some _ => tl_re r | None => r end in
  let d := if has_attr "designator" c then Some (is_opt r) else None in
  let r := match d with Some true => tl_re r | Some false => tl_re (tl_re r) | None => r end in
  {| f_prefix := p; f_suffix := s; f_desig := d;
     f_fields := combine (map a_ty (filter (fun a => negb (head_attr (a_name a))) (c_attrs c))) (flags r) |}.

Definition ty_eqb (a b : ty) : bool :=
  match a, b with
  | TInt, TInt | TReal, TReal | TStr, TStr | TDist, TDist | TZaid, TZaid | TDesig, TDesig | TSub, TSub | TIndex, TIndex => true
  | TTr k, TTr k' => Nat.eqb k k'
  | TExt n p, TExt n' p' => String.eqb n n' && seqb p p'
  | _, _ => false
  end.
Lemma ty_eqb_eq a b : ty_eqb a b = true -> a = b.
Proof.
  destruct a, b; cbn; try discriminate; auto; intros H.
  - apply Nat.eqb_eq in H. congruence.
  - apply andb_prop in H as [H1 H2]. apply String.eqb_eq in H1. apply seqb_eq in H2. congruence.
Qed.
Definition aty_eqb (a b : aty) : bool :=
  match a, b with One x, One y | Tup x, Tup y => ty_eqb x y | _, _ => false end.
Lemma aty_eqb_eq a b : aty_eqb a b = true -> a = b.
Proof. destruct a, b; cbn; try discriminate; intros H; apply ty_eqb_eq in H; congruence. Qed.
Definition na_eqb (a b : string * aty) : bool := String.eqb (fst a) (fst b) && aty_eqb (snd a) (snd b).
Lemma na_eqb_eq a b : na_eqb a b = true -> a = b.
Proof.
  destruct a, b. unfold na_eqb. cbn. intros H. apply andb_prop in H as [H1 H2]. apply String.eqb_eq in H1. apply aty_eqb_eq in H2. congruence.
Qed.
Fixpoint nodupb (l : list string) : bool :=
  match l with [] => true | x :: t => negb (existsb (String.eqb x) t) && nodupb t end.
Lemma nodupb_ok l : nodupb l = true -> NoDup l.
Proof.
  induction l as [|x l IH]; intros H; constructor; cbn in H; apply andb_prop in H as [H1 H2]; auto.
  intros HI. apply negb_true_iff in H1. assert (X : existsb (String.eqb x) l = true) by (apply existsb_exists; exists x; split; auto; apply String.eqb_refl).
  congruence.
Qed.

Definition form_okb (c : cls) (f : form) : bool :=
  let n := length (head_parts f) in
  let hd := firstn n (c_attrs c) in
  let fs := skipn n (c_attrs c) in
  re_eqb (compile true (c_pat c)) (form_re (c_kw c) f)
  && list_eqb na_eqb (map (fun a => (a_name a, a_ty a)) hd) (map fst (head_parts f))
  && list_eqb aty_eqb (map a_ty fs) (map fst (f_fields f))
  && forallb (fun a => negb (head_attr (a_name a))) fs
  && nodupb (map a_name (c_attrs c)) && fields_ok (f_fields f)
  && negb (match c_kw c with [] => true | _ => false end) && forallb kw_char (c_kw c).
Lemma form_okb_ok c f : form_okb c f = true -> has_form c f.
Proof.
  unfold form_okb. intros H. repeat (apply andb_prop in H as [H ?]).
  split; [now apply re_eqb_eq|]. split; [|split; [|split; [|split]]]; auto.
  - exists (firstn (length (head_parts f)) (c_attrs c)), (skipn (length (head_parts f)) (c_attrs c)).
    split; [symmetry; apply firstn_skipn|]. split; [|split].
    + eapply list_eqb_eq; [apply na_eqb_eq|eassumption].
    + eapply list_eqb_eq; [apply aty_eqb_eq|eassumption].
    + apply Forall_forall. intros a Ha. rewrite forallb_forall in *. match goal with H : forall x, In x (skipn _ _) -> _ |- _ => apply H in Ha end.
      now apply negb_true_iff in Ha.
  - now apply nodupb_ok.
  - intros E. rewrite E in *. discriminate.
Qed.
Definition regularb (c : cls) : bool := form_okb c (decode c).
Lemma regularb_ok c : regularb c = true -> has_form c (decode c).
Proof. apply form_okb_ok. Qed.


(** Families of options: every class regular with nothing around the keyword,
    keywords different. *)
Definition bare (c : cls) : bool := match head_parts (decode c) with [] => true | _ => false end.
Definition smem (x : str) (l : list str) : bool := existsb (seqb x) l.
Fixpoint snodup (l : list str) : bool := match l with [] => true | x :: t => negb (smem x t) && snodup t end.
Lemma snodup_ok l : snodup l = true -> NoDup l.
Proof.
  induction l as [|x l IH]; intros H; constructor; cbn in H; apply andb_prop in H as [H1 H2]; auto.
  intros HI. apply negb_true_iff in H1. assert (X : smem x l = true) by (apply existsb_exists; exists x; split; auto; now apply seqb_eq). congruence.
Qed.
Definition familyb (cs : list cls) : bool :=
  forallb (fun d => regularb d && bare d) cs && snodup (map (fun d => slower (c_kw d)) cs).
Lemma familyb_ok cs : familyb cs = true ->
  Forall (fun d => exists fd, has_form d fd /\ head_parts fd = []) cs /\ NoDup (map (fun d => slower (c_kw d)) cs).
Proof.
  intros H. apply andb_prop in H as [H1 H2]. split; [|now apply snodup_ok]. apply Forall_forall. intros d HI.
  rewrite forallb_forall in H1. specialize (H1 d HI). apply andb_prop in H1 as [H1 H3]. exists (decode d).
  split; [now apply regularb_ok|]. unfold bare in H3. destruct (head_parts (decode d)); auto; discriminate.
Qed.
