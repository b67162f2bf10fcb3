(** Lemmas about reading in small letters: the tests of the setters, objects, cards. *)

From Coq Require Import Ascii String NArith ZArith Bool Arith List Lia.
From Verif Require Import PyStr Regex RegexParse RegexFacts RegexLang PyNum Types CardText Cards CaseSpec Calm CalmFacts CalmFacts2 CalmFacts3 CaseFacts CaseFacts2 CaseFacts3.
From Verif Require CardsFacts2.
Import ListNotations.

(** ** Tests that do not depend on the case of letters, or only in favour of small ones *)
Definition plain (e : nexp) : bool := match e with EZ _ | ED _ | ELen _ | EMod _ _ | EMul _ _ => true | _ => false end.
Definition sharp (e : nexp) : bool := match e with ES _ | ELower _ => true | _ => plain e end.
Definition apart (e f : nexp) : bool := if plain e then true else if plain f then true else if sharp e then sharp f else false.
Fixpoint nice (e : nexp) : bool :=
  match e with
  | ES s => seqb (slower s) s
  | EVal e | ELower e | ELen e | EMin e | EMod e _ | EMul _ e => nice e
  | EIte b e f => if keeps true b then if keeps false b then if nice e then nice f else false else false else false
  | _ => true
  end
with keeps (v : bool) (b : bexp) : bool :=
  match b with
  | BConst _ | BExt _ => true
  | BIsNone e | BJump e | BTruth e => nice e
  | BNot b => keeps (negb v) b
  | BAnd a b => if v then if keeps true a then keeps true b else false else if keeps true a then if keeps false a then keeps false b else false else false
  | BOr a b => if v then if keeps true a then if keeps false a then keeps true b else false else false else if keeps false a then keeps false b else false
  | BIte b c d => if keeps true b then if keeps false b then if keeps v c then keeps v d else false else false else false
  | BCmp o e f => if nice e then if nice f then if ordering o then true else if Bool.eqb v (match o with OEq => true | _ => false end) then true else apart e f else false else false
  | BIn e l => if nice e then if forallb nice l then if v then true else forallb (apart e) l else false else false
  end.

Definition spv (p : pv) : pv := match p with PLib v => PLib (small v) | PS s => PS (slower s) | p => p end.
Definition snum (n : num) : num := match n with NStr s => NStr (slower s) | n => n end.
Lemma num_low p : num_of (spv p) = snum (num_of p).
Proof. destruct p as [|v| | | |]; try reflexivity. destruct v as [i|r| | | | |x| | | | | | |]; try reflexivity; [destruct i|destruct r|destruct x]; reflexivity. Qed.
Lemma seqb_same s : seqb s s = true.
Proof. now apply CardsFacts2.seqb_eq. Qed.
Definition is_text (p : pv) : bool := match num_of p with NStr _ => true | _ => false end.
Lemma compare_low op p q b : compare op p q = Ok b ->
  exists c, compare op (spv p) (spv q) = Ok c /\
  ((ordering op = true \/ b = match op with OEq => true | _ => false end \/ is_text p = false \/ is_text q = false \/ (spv p = p /\ spv q = q)) -> c = b).
Proof.
  intros H. unfold compare. rewrite !num_low. unfold compare in H.
  assert (D : (exists s t, num_of p = NStr s /\ num_of q = NStr t) \/ (is_text p = false \/ is_text q = false)).
  { unfold is_text. destruct (num_of p), (num_of q); eauto. }
  destruct D as [(s & t & EP & EQ)|D].
  - rewrite EP, EQ in *. cbn [snum]. destruct (ordering op) eqn:EO; [discriminate H|]. injection H as <-. eexists. split; [reflexivity|].
    intros [N|[N|[N|[N|[N1 N2]]]]]; [discriminate N| | | |].
    + destruct (seqb s t) eqn:E; [apply CardsFacts2.seqb_eq in E; subst t; rewrite seqb_same; reflexivity|].
      destruct op; cbn in N; discriminate.
    + unfold is_text in N. rewrite EP in N. discriminate N.
    + unfold is_text in N. rewrite EQ in N. discriminate N.
    + rewrite <- N1, num_low in EP. rewrite <- N2, num_low in EQ.
      assert (A : slower s = s).
      { destruct (num_of p); try discriminate EP. cbn in EP. injection EP as <-. apply slower_twice. }
      assert (B : slower t = t).
      { destruct (num_of q); try discriminate EQ. cbn in EQ. injection EQ as <-. apply slower_twice. }
      now rewrite A, B.
  - exists b. split; [|reflexivity]. rewrite <- H. unfold is_text in D. destruct (num_of p), (num_of q); cbn [snum]; try reflexivity. destruct D; discriminate.
Qed.
Lemma value_low p q : value_of p = Ok q -> value_of (spv p) = Ok (spv q).
Proof.
  destruct p as [|v| | | |]; try discriminate. destruct v as [i|r|s|n|z|s|x|x|k t|l|c l|l|z|s]; try discriminate; cbn [value_of].
  - destruct i; intros [= <-]; reflexivity.
  - destruct r; intros [= <-]; reflexivity.
  - intros [= <-]; reflexivity.
  - intros [= <-]; reflexivity.
Qed.
Lemma hash_low p : hashable (spv p) = hashable p.
Proof. destruct p as [|v| | | |]; try reflexivity. destruct v as [i|r| | | | |x| | | | | | |]; try reflexivity; destruct x; reflexivity. Qed.
Lemma seqb_nil s : seqb (slower s) [] = seqb s [].
Proof. destruct s; reflexivity. Qed.
Lemma truth_low p : truth (spv p) = truth p.
Proof.
  destruct p as [|v| | |s|]; try reflexivity; [|cbn [spv truth]; now rewrite seqb_nil].
  destruct v as [i|r|s|n|z|s|x|x|k t|l|c l|l|z|s]; try reflexivity; cbn [spv small truth]; try (now rewrite seqb_nil). destruct x; reflexivity.
Qed.
Lemma pmin_low l : forall best p, pmin best l = Ok p -> pmin (spv best) (map spv l) = Ok (spv p).
Proof.
  induction l as [|x l IH]; intros best p H; cbn [pmin map] in *; [injection H as <-; reflexivity|].
  destruct (compare OLt x best) as [b| |] eqn:E; cbn [bind] in H; try discriminate H. destruct (compare_low _ _ _ _ E) as (c & -> & Q). rewrite (Q (or_introl eq_refl)). cbn [bind].
  destruct b; apply IH; exact H.
Qed.
Lemma assoc_low n o : assoc n (small_obj o) = option_map (option_map small) (assoc n o).
Proof. induction o as [|[x v] o IH]; [reflexivity|]. cbn [small_obj map fst snd assoc]. destruct (String.eqb x n); [reflexivity|exact IH]. Qed.
Lemma opt_pv_low v : opt_pv (option_map small v) = spv (opt_pv v).
Proof. destruct v; reflexivity. Qed.

Section Tests.
  Variables (o : obj) (x : option val).
  Let o' := small_obj o.
  Let x' := option_map small x.
  Definition N_low (e : nexp) : Prop := nice e = true -> forall p, neval o x e = Ok p -> neval o' x' e = Ok (spv p).
  Definition B_low (b : bexp) : Prop := forall v, keeps v b = true -> beval o x b = Ok v -> beval o' x' b = Ok v.

  Lemma plain_ok e p : plain e = true -> neval o x e = Ok p -> is_text p = false.
  Proof.
    destruct e; try discriminate; intros _ H; cbn [neval] in H; try (injection H as <-; reflexivity);
    (destruct (neval o x e) as [q| |]; cbn [bind] in H; try discriminate H; destruct q as [|v| | | |]; try discriminate H; try (injection H as <-; reflexivity);
     destruct v as [i| | | | | | | | | | | | |]; try discriminate H; try (injection H as <-; reflexivity); destruct i; try discriminate H; injection H as <-; reflexivity).
  Qed.
  Lemma sharp_ok e p : nice e = true -> sharp e = true -> neval o x e = Ok p -> spv p = p.
  Proof.
    intros N S H. destruct e; try discriminate S; cbn [neval] in H; try (injection H as <-; reflexivity).
    - injection H as <-. cbn [nice] in N. apply CardsFacts2.seqb_eq in N. cbn [spv]. now rewrite N.
    - destruct (neval o x e) as [q| |]; cbn [bind] in H; try discriminate H. destruct (value_of q) as [w| |]; cbn [bind] in H; try discriminate H.
      destruct w; try discriminate H. injection H as <-. cbn [spv]. now rewrite slower_twice.
    - destruct (neval o x e) as [q| |]; cbn [bind] in H; try discriminate H. destruct q as [|v| | | |]; try discriminate H. destruct v; try discriminate H; injection H as <-; reflexivity.
    - destruct (neval o x e) as [q| |]; cbn [bind] in H; try discriminate H. destruct q as [|v| | | |]; try discriminate H. destruct v as [i| | | | | | | | | | | | |]; try discriminate H; try (injection H as <-; reflexivity). destruct i; try discriminate H; injection H as <-; reflexivity.
    - destruct (neval o x e) as [q| |]; cbn [bind] in H; try discriminate H. destruct q as [|v| | | |]; try discriminate H; try (injection H as <-; reflexivity). destruct v as [i| | | | | | | | | | | | |]; try discriminate H; try (injection H as <-; reflexivity). destruct i; try discriminate H; injection H as <-; reflexivity.
  Qed.
  Lemma apart_ok e f p q : nice e = true -> nice f = true -> apart e f = true -> neval o x e = Ok p -> neval o x f = Ok q ->
    is_text p = false \/ is_text q = false \/ (spv p = p /\ spv q = q).
  Proof.
    intros NE NF A HP HQ. unfold apart in A. destruct (plain e) eqn:PE; [left; exact (plain_ok _ _ PE HP)|]. destruct (plain f) eqn:PF; [right; left; exact (plain_ok _ _ PF HQ)|].
    destruct (sharp e) eqn:SE; [|discriminate A]. right. right. split; [exact (sharp_ok _ _ NE SE HP)|exact (sharp_ok _ _ NF A HQ)].
  Qed.
  Lemma any_low e p l : Forall N_low l -> nice e = true -> neval o x e = Ok p -> forallb nice l = true -> forall v, (v = true \/ forallb (apart e) l = true) ->
    (fix any l := match l with
                  | [] => Ok false
                  | f :: l' => bind (neval o x f) (fun q => bind (compare OEq p q) (fun c => if c then Ok true else any l'))
                  end) l = Ok v ->
    (fix any l := match l with
                  | [] => Ok false
                  | f :: l' => bind (neval o' x' f) (fun q => bind (compare OEq (spv p) q) (fun c => if c then Ok true else any l'))
                  end) l = Ok v.
  Proof.
    intros F NE HP. induction F as [|f l HN F IH]; intros NL v HV H; [exact H|]. cbn [forallb] in NL. apply andb_prop in NL as [NF NL].
    destruct (neval o x f) as [q| |] eqn:EF; cbn [bind] in H; try discriminate H. rewrite (HN NF _ EF). cbn [bind].
    destruct (compare OEq p q) as [c| |] eqn:EC; cbn [bind] in H; try discriminate H. destruct (compare_low _ _ _ _ EC) as (d & -> & Q). cbn [bind].
    destruct c.
    - rewrite (Q (or_intror (or_introl eq_refl))). exact H.
    - destruct HV as [->|HV].
      + destruct d; [reflexivity|]. exact (IH NL true (or_introl eq_refl) H).
      + cbn [forallb] in HV. apply andb_prop in HV as [HA HV]. rewrite (Q (or_intror (or_intror (apart_ok e f p q NE NF HA HP EF)))). exact (IH NL v (or_intror HV) H).
  Qed.
  Lemma nice_EIte b e f : nice (EIte b e f) = if keeps true b then if keeps false b then if nice e then nice f else false else false else false.
  Proof. reflexivity. Qed.
  Lemma keeps_BNot v b : keeps v (BNot b) = keeps (negb v) b.
  Proof. reflexivity. Qed.
  Lemma keeps_BAnd v a b : keeps v (BAnd a b) = if v then if keeps true a then keeps true b else false else if keeps true a then if keeps false a then keeps false b else false else false.
  Proof. reflexivity. Qed.
  Lemma keeps_BOr v a b : keeps v (BOr a b) = if v then if keeps true a then if keeps false a then keeps true b else false else false else if keeps false a then keeps false b else false.
  Proof. reflexivity. Qed.
  Lemma keeps_BIte v b c d : keeps v (BIte b c d) = if keeps true b then if keeps false b then if keeps v c then keeps v d else false else false else false.
  Proof. reflexivity. Qed.
  Lemma keeps_BCmp v op e f : keeps v (BCmp op e f) = if nice e then if nice f then if ordering op then true else if Bool.eqb v (match op with OEq => true | _ => false end) then true else apart e f else false else false.
  Proof. reflexivity. Qed.
  Lemma keeps_BIn v e l : keeps v (BIn e l) = if nice e then if forallb nice l then if v then true else forallb (apart e) l else false else false.
  Proof. reflexivity. Qed.

  Fixpoint N_small (e : nexp) : N_low e
  with B_small (b : bexp) : B_low b.
  Proof.
    - destruct e; intros HN p H.
      + cbn [neval] in *. injection H as <-. f_equal. apply opt_pv_low.
      + cbn [neval] in *. injection H as <-. reflexivity.
      + cbn [neval] in *. injection H as <-. reflexivity.
      + cbn [neval] in *. injection H as <-. cbn [nice] in HN. apply CardsFacts2.seqb_eq in HN. cbn [spv]. now rewrite HN.
      + cbn [neval] in *. unfold o'. rewrite assoc_low. destruct (assoc name o); [|discriminate H]. injection H as <-. cbn [option_map]. f_equal. apply opt_pv_low.
      + cbn [neval nice] in *. destruct (neval o x e) as [q| |] eqn:E; cbn [bind] in H; try discriminate H. rewrite (N_small e HN _ E). cbn [bind]. exact (value_low _ _ H).
      + cbn [neval nice] in *. destruct (neval o x e) as [q| |] eqn:E; cbn [bind] in H; try discriminate H. rewrite (N_small e HN _ E). cbn [bind].
        destruct (value_of q) as [w| |] eqn:EV; cbn [bind] in H; try discriminate H. rewrite (value_low _ _ EV). cbn [bind]. destruct w; try discriminate H. injection H as <-. reflexivity.
      + cbn [neval nice] in *. destruct (neval o x e) as [q| |] eqn:E; cbn [bind] in H; try discriminate H. rewrite (N_small e HN _ E). cbn [bind].
        destruct q as [|v| | | |]; try discriminate H. destruct v; try discriminate H; injection H as <-; cbn [spv small]; rewrite slower_length; reflexivity.
      + cbn [neval nice] in *. destruct (neval o x e) as [q| |] eqn:E; cbn [bind] in H; try discriminate H. rewrite (N_small e HN _ E). cbn [bind].
        destruct q as [|v| | | |]; try discriminate H. destruct v as [| | | | | | | | | | |l| |]; try discriminate H. destruct l as [|v l]; try discriminate H. cbn [spv small map].
        replace (map PLib (map small l)) with (map spv (map PLib l)) by (rewrite !map_map; reflexivity). exact (pmin_low _ (PLib v) _ H).
      + cbn [neval nice] in *. destruct (neval o x e) as [q| |] eqn:E; cbn [bind] in H; try discriminate H. rewrite (N_small e HN _ E). cbn [bind].
        destruct q as [|v| | | |]; try discriminate H. destruct v as [i| | | | | | | | | | | | |]; try discriminate H; try (injection H as <-; reflexivity). destruct i; try discriminate H; injection H as <-; reflexivity.
      + cbn [neval nice] in *. destruct (neval o x e) as [q| |] eqn:E; cbn [bind] in H; try discriminate H. rewrite (N_small e HN _ E). cbn [bind].
        destruct q as [|v| | | |]; try discriminate H; try (injection H as <-; reflexivity). destruct v as [i| | | | | | | | | | | | |]; try discriminate H; try (injection H as <-; reflexivity). destruct i; try discriminate H; injection H as <-; reflexivity.
      + rewrite nn_EIte in *. rewrite nice_EIte in HN. destruct (keeps true b) eqn:K1; [|discriminate HN]. destruct (keeps false b) eqn:K2; [|discriminate HN].
        destruct (nice e1) eqn:N1; [|discriminate HN]. destruct (beval o x b) as [c| |] eqn:E; cbn [bind] in H; try discriminate H.
        rewrite (B_small b c (match c return keeps c b = true with true => K1 | false => K2 end) E). cbn [bind]. destruct c; [exact (N_small e1 N1 _ H)|exact (N_small e2 HN _ H)].
    - destruct b; intros v HN H;
      rewrite ?bb_BConst, ?bb_BIsNone, ?bb_BNot, ?bb_BAnd, ?bb_BOr, ?bb_BIte, ?bb_BCmp, ?bb_BIn, ?bb_BJump, ?bb_BTruth, ?bb_BExt in *.
      + exact H.
      + cbn [keeps] in HN. destruct (neval o x e) as [q| |] eqn:E; cbn [bind] in H; try discriminate H. rewrite (N_small e HN _ E). cbn [bind]. rewrite <- H. destruct q; reflexivity.
      + rewrite keeps_BNot in HN. destruct (beval o x b) as [c| |] eqn:E; cbn [bind] in H; try discriminate H. injection H as <-. rewrite Bool.negb_involutive in HN. rewrite (B_small b c HN E). reflexivity.
      + rewrite keeps_BAnd in HN. destruct (beval o x b1) as [c| |] eqn:E; cbn [bind] in H; try discriminate H. destruct (keeps true b1) eqn:K1; [|destruct v; discriminate HN].
        destruct c.
        * rewrite (B_small b1 true K1 E). cbn [bind]. destruct v; [exact (B_small b2 true HN H)|]. destruct (keeps false b1); [exact (B_small b2 false HN H)|discriminate HN].
        * injection H as <-. destruct (keeps false b1) eqn:K2; [|discriminate HN]. rewrite (B_small b1 false K2 E). reflexivity.
      + rewrite keeps_BOr in HN. destruct (beval o x b1) as [c| |] eqn:E; cbn [bind] in H; try discriminate H.
        destruct (keeps false b1) eqn:K2; [|destruct v; [destruct (keeps true b1)|]; discriminate HN].
        destruct c.
        * injection H as <-. destruct (keeps true b1) eqn:K1; [|discriminate HN]. rewrite (B_small b1 true K1 E). reflexivity.
        * rewrite (B_small b1 false K2 E). cbn [bind]. destruct v; [destruct (keeps true b1); [exact (B_small b2 true HN H)|discriminate HN]|exact (B_small b2 false HN H)].
      + rewrite keeps_BIte in HN. destruct (keeps true b1) eqn:K1; [|discriminate HN]. destruct (keeps false b1) eqn:K2; [|discriminate HN]. destruct (keeps v b2) eqn:K3; [|discriminate HN].
        destruct (beval o x b1) as [c| |] eqn:E; cbn [bind] in H; try discriminate H.
        rewrite (B_small b1 c (match c return keeps c b1 = true with true => K1 | false => K2 end) E). cbn [bind]. destruct c; [exact (B_small b2 v K3 H)|exact (B_small b3 v HN H)].
      + rewrite keeps_BCmp in HN. destruct (nice e) eqn:NE; [|discriminate HN]. destruct (nice f) eqn:NF; [|discriminate HN].
        destruct (neval o x e) as [p| |] eqn:E1; cbn [bind] in H; try discriminate H. destruct (neval o x f) as [q| |] eqn:E2; cbn [bind] in H; try discriminate H.
        rewrite (N_small e NE _ E1), (N_small f NF _ E2). cbn [bind]. destruct (compare_low _ _ _ _ H) as (c & -> & Q). f_equal. apply Q.
        destruct (ordering o0) eqn:EO; [left; reflexivity|]. right. destruct (Bool.eqb v (match o0 with OEq => true | _ => false end)) eqn:EV; [left; apply Bool.eqb_prop; exact EV|]. right.
        exact (apart_ok e f p q NE NF HN E1 E2).
      + rewrite keeps_BIn in HN. destruct (nice e) eqn:NE; [|discriminate HN]. destruct (forallb nice l) eqn:NL; [|discriminate HN].
        destruct (neval o x e) as [p| |] eqn:E1; cbn [bind] in H; try discriminate H. rewrite (N_small e NE _ E1). cbn [bind]. rewrite hash_low. destruct (hashable p); [|discriminate H].
        refine (any_low e p l _ NE E1 NL v _ H).
        * clear - N_small. revert l. fix go 1. intros [|e l]; constructor; [apply N_small|apply go].
        * destruct v; [left; reflexivity|right; exact HN].
      + cbn [keeps] in HN. destruct (neval o x e) as [q| |] eqn:E; cbn [bind] in H; try discriminate H. rewrite (N_small e HN _ E). cbn [bind].
        destruct (value_of q) as [w| |] eqn:EV; cbn [bind] in H; try discriminate H. rewrite (value_low _ _ EV). cbn [bind]. rewrite <- H. destruct w; reflexivity.
      + cbn [keeps] in HN. destruct (neval o x e) as [q| |] eqn:E; cbn [bind] in H; try discriminate H. rewrite (N_small e HN _ E). cbn [bind]. rewrite truth_low. exact H.
      + exact H.
  Qed.
  Lemma checks_low l u : forallb (keeps false) l = true -> run_checks o x l = Ok u -> run_checks o' x' l = Ok u.
  Proof.
    induction l as [|b l IH]; intros K H; cbn [run_checks] in *; [exact H|]. cbn [forallb] in K. apply andb_prop in K as [K KL].
    destruct (beval o x b) as [c| |] eqn:E; cbn [bind] in H; try discriminate H. destruct c; [discriminate H|]. rewrite (B_small b false K E). cbn [bind]. exact (IH KL H).
  Qed.
End Tests.

(** ** Objects *)
Definition kept (c : cls) : bool := forallb (fun a => forallb (keeps false) (a_checks a)) (c_attrs c).
Lemma upd_low n v o : small_obj (upd n v o) = upd n (option_map small v) (small_obj o).
Proof.
  induction o as [|[x w] o IH]; [reflexivity|]. unfold upd in *. cbn [small_obj map fst snd]. destruct (String.eqb x n); [reflexivity|]. exact (f_equal (cons (x, option_map small w)) IH).
Qed.
Lemma is_ty_low fam t v : is_ty fam t (small v) = is_ty fam t v.
Proof. destruct t, v; try reflexivity; cbn [small]; match goal with x : zaid * realv |- _ => destruct x; reflexivity end. Qed.
Section Objects.
  Variables (ext : string -> str -> result val) (fam : string -> list cls).
  Hypothesis HE : forall n s, down small (ext n s) (ext n (slower s)).
  Lemma down_bind {A} (f : A -> A) (w : A -> val) (r r' : result A) : down f r r' -> (forall x, w (f x) = small (w x)) ->
    down small (bind r (fun x => Ok (w x))) (bind r' (fun x => Ok (w x))).
  Proof. intros D W v H. destruct r as [x| |]; cbn [bind] in H; try discriminate H. injection H as <-. rewrite (D x eq_refl). cbn [bind]. now rewrite W. Qed.
  Lemma read_ty_low t s : down small (read_ty ext t s) (read_ty ext t (slower s)).
  Proof.
    destruct t; cbn [read_ty].
    - exact (down_bind same VInt _ _ (integer_low s) (fun _ => eq_refl)).
    - exact (down_bind same VReal _ _ (real_low s) (fun _ => eq_refl)).
    - intros v H. injection H as <-. reflexivity.
    - exact (down_bind same VDist _ _ (distribution_low s) (fun _ => eq_refl)).
    - exact (down_bind small_zaid VZaid _ _ (zaid_low s) (fun _ => eq_refl)).
    - exact (down_bind slower VDesig _ _ (designator_low s) (fun _ => eq_refl)).
    - refine (down_bind (fun x => (small_zaid (fst x), snd x)) VSub _ _ (substance_low s) _). intros [z r]. reflexivity.
    - exact (down_bind same VIndex _ _ (index_low s) (fun _ => eq_refl)).
    - exact (down_bind same (VTr k) _ _ (transf_low k s) (fun _ => eq_refl)).
    - exact (down_bind same VLat _ _ (lattice_low s) (fun _ => eq_refl)).
    - exact (HE _ _).
  Qed.
  Lemma read_aty_low a s : down small (read_aty ext a s) (read_aty ext a (slower s)).
  Proof.
    destruct a as [t|t]; cbn [read_aty]; [exact (read_ty_low t s)|]. intros v H. unfold tuple_from_mcnp in *.
    rewrite (finditer_low _ s (caseless_compile _)). destruct (mapM (fun o => read_ty ext t (mtext o)) (finditer (compile true (slice 2 2 (pat_of t))) s)) as [l| |] eqn:E; cbn [bind] in H; try discriminate H.
    injection H as <-. rewrite (mapM_down (fun o => read_ty ext t (mtext o)) (fun o => read_ty ext t (mtext o)) low_mobj small _ (fun o _ => read_ty_low t (mtext o)) _ E). reflexivity.
  Qed.
  Lemma read_attr_low t g : down (option_map small) (read_attr ext t g) (read_attr ext t (option_map slower g)).
  Proof.
    intros v H. unfold read_attr in *. rewrite truthy_low. destruct (truthy g) as [s|]; cbn [option_map]; [|injection H as <-; reflexivity]. rewrite strip_low.
    destruct (read_aty ext t (strip s)) as [w| |] eqn:E; cbn [bind] in H; try discriminate H. injection H as <-. rewrite (read_aty_low _ _ _ E). reflexivity.
  Qed.
  Lemma read_attrs_low l m : forall i, down (map (option_map small)) (read_attrs ext i l m) (read_attrs ext i l (low_mobj m)).
  Proof.
    induction l as [|a l IH]; intros i vs H; cbn [read_attrs] in *; [injection H as <-; reflexivity|]. rewrite group_low.
    destruct (read_attr ext (a_ty a) (group i m)) as [v| |] eqn:E; cbn [bind] in H; try discriminate H. destruct (read_attrs ext (S i) l m) as [ws| |] eqn:E2; cbn [bind] in H; try discriminate H.
    injection H as <-. rewrite (read_attr_low _ _ _ E), (IH _ _ E2). reflexivity.
  Qed.
  Lemma conv_low t v : down (option_map small) (conv ext fam t (to_arg v)) (conv ext fam t (to_arg (option_map small v))).
  Proof.
    intros y H. destruct v as [v|]; [|destruct t; injection H as <-; reflexivity]. cbn [option_map to_arg] in *. destruct t as [t|t]; [injection H as <-; reflexivity|].
    cbn [conv] in *. destruct v; try discriminate H; cbn [small items] in *.
    - match type of H with bind (mapM ?f ?l) _ = _ => destruct (mapM f l) as [vs| |] eqn:E; cbn [bind] in H; try discriminate H; injection H as <- end.
      assert (Q : mapM (conv_item ext fam t) (map (fun c => AStr [c]) (slower s)) = Ok (map (map small) vs)).
      { revert vs E. induction s as [|c s IH]; intros vs E; cbn [slower map mapM] in *; [injection E as <-; reflexivity|].
        cbn [conv_item] in *. destruct (read_ty ext t [c]) as [v| |] eqn:ER; cbn [bind] in E; try discriminate E.
        destruct (mapM (conv_item ext fam t) (map (fun c => AStr [c]) s)) as [ws| |]; cbn [bind] in E; try discriminate E. injection E as <-.
        rewrite (read_ty_low t [c] _ ER : read_ty ext t [lower c] = Ok (small v)). cbn [bind]. fold (slower s). rewrite (IH ws eq_refl). reflexivity. }
      rewrite Q. cbn [bind option_map small]. now rewrite concat_map.
    - match type of H with bind (mapM ?f ?l) _ = _ => destruct (mapM f l) as [vs| |] eqn:E; cbn [bind] in H; try discriminate H; injection H as <- end.
      assert (Q : mapM (conv_item ext fam t) (map AVal (map small l)) = Ok (map (map small) vs)).
      { revert vs E. induction l as [|v l IH]; intros vs E; cbn [map mapM] in *; [injection E as <-; reflexivity|].
        cbn [conv_item bind] in *. destruct (mapM (conv_item ext fam t) (map AVal l)) as [ws| |]; cbn [bind] in E; try discriminate E. injection E as <-. rewrite (IH ws eq_refl), is_ty_low.
        cbn [bind map]. destruct (is_ty fam t v); reflexivity. }
      rewrite Q. cbn [bind option_map small]. now rewrite concat_map.
  Qed.
  Lemma init_low l : forall o r, forallb (fun a => forallb (keeps false) (a_checks (fst a))) l = true ->
    init_attrs ext fam (map (fun x => (fst x, to_arg (snd x))) l) o = Ok r ->
    init_attrs ext fam (map (fun x => (fst x, to_arg (option_map small (snd x)))) l) (small_obj o) = Ok (small_obj r).
  Proof.
    induction l as [|[a v] l IH]; intros o r K H; cbn [map init_attrs fst snd] in *; [injection H as <-; reflexivity|]. cbn [forallb fst] in K. apply andb_prop in K as [K KL].
    unfold set_attr in *. destruct (conv ext fam (a_ty a) (to_arg v)) as [y| |] eqn:E; try discriminate H. rewrite (conv_low _ _ _ E).
    destruct (run_checks o y (a_checks a)) as [u| |] eqn:EC; try discriminate H. rewrite (checks_low o y _ _ K EC). rewrite <- upd_low. exact (IH _ _ KL H).
  Qed.
  Lemma construct_low c vs : kept c = true -> down small_obj (construct ext fam c (map to_arg vs)) (construct ext fam c (map to_arg (map (option_map small) vs))).
  Proof.
    intros K o H. unfold construct in *.
    assert (E : forall g : option val -> arg, combine (c_attrs c) (map g vs) = map (fun x => (fst x, g (snd x))) (combine (c_attrs c) vs)).
    { clear. intros g. generalize (c_attrs c). induction vs as [|v vs IH]; intros [|a l]; cbn [map combine fst snd]; try reflexivity. now rewrite IH. }
    rewrite E in H. rewrite map_map, (E (fun v => to_arg (option_map small v))). refine (init_low _ [] o _ H).
    apply forallb_forall. intros [a v] I. apply in_combine_l in I. unfold kept in K. rewrite forallb_forall in K. exact (K a I).
  Qed.
  Lemma read_cls_low c m : kept c = true -> down small_obj (read_cls ext fam c m) (read_cls ext fam c (low_mobj m)).
  Proof.
    intros K o H. unfold read_cls in *. destruct (read_attrs ext 1 (c_attrs c) m) as [vs| |] eqn:E; cbn [bind] in H; try discriminate H. rewrite (read_attrs_low _ _ _ _ E). cbn [bind].
    exact (construct_low c vs K o H).
  Qed.
  Lemma card_low c s : kept c = true -> down (fun x => (small_obj (fst x), map slower (snd x))) (card_from_mcnp ext fam c s) (card_from_mcnp ext fam c (slower s)).
  Proof.
    intros K x H. unfold card_from_mcnp in *. rewrite card_preprocess_low. destruct (card_preprocess s) as [t cm]. cbn [fst snd].
    rewrite (re_match_low _ t (caseless_compile _)). destruct (re_match (compile true (c_pat c)) t) as [m|]; [|discriminate H]. cbn [option_map].
    destruct (read_cls ext fam c m) as [o| |] eqn:E; cbn [bind] in H; try discriminate H. injection H as <-. rewrite (read_cls_low c m K _ E). reflexivity.
  Qed.
  Lemma whole_low r s m : re_match r s = Some m -> seqb (slower (mtext m)) (slower s) = seqb (mtext m) s.
  Proof.
    intros H. apply match_at_V in H as [_ E]. apply Bool.eq_iff_eq_true. rewrite !CardsFacts2.seqb_eq. split; [|intros ->; reflexivity]. intros Q.
    apply (f_equal (@length ascii)) in Q. rewrite !slower_length in Q. rewrite E, app_length in Q. destruct (mrest m) as [|c u]; [rewrite app_nil_r in E; symmetry; exact E|cbn [length] in Q; lia].
  Qed.
  Lemma first_match_low cs s : first_match cs (slower s) = option_map (fun x => (fst x, low_mobj (snd x))) (first_match cs s).
  Proof.
    induction cs as [|c cs IH]; [reflexivity|]. cbn [first_match]. rewrite (re_match_low _ s (caseless_compile _)). destruct (re_match (compile true (c_pat c)) s) as [m|] eqn:E; cbn [option_map]; [|exact IH].
    cbn [low_mobj mtext]. rewrite (whole_low _ _ _ E). destruct (seqb (mtext m) s); [reflexivity|exact IH].
  Qed.
  Lemma first_match_in cs s c m : first_match cs s = Some (c, m) -> In c cs.
  Proof.
    induction cs as [|d cs IH]; [discriminate|]. cbn [first_match]. destruct (re_match (compile true (c_pat d)) s) as [o|]; [|intros H; right; exact (IH H)].
    destruct (seqb (mtext o) s); [intros [= <- _]; left; reflexivity|intros H; right; exact (IH H)].
  Qed.
  Lemma family_low cs s : (forall c, In c cs -> kept c = true) -> down (fun x => (fst x, small_obj (snd x))) (family_from_mcnp ext fam cs s) (family_from_mcnp ext fam cs (slower s)).
  Proof.
    intros K x H. unfold family_from_mcnp in *. cbv zeta in *. rewrite preprocess_low, first_match_low. destruct (first_match cs (preprocess s)) as [[c m]|] eqn:EF; [|discriminate H]. cbn [option_map fst snd].
    destruct (read_cls ext fam c m) as [o| |] eqn:E; cbn [bind] in H; try discriminate H. injection H as <-. rewrite (read_cls_low c m (K c (first_match_in _ _ _ _ EF)) _ E). reflexivity.
  Qed.
End Objects.
Lemma obj_val_low c o : obj_val c (small_obj o) = small (obj_val c o).
Proof. unfold obj_val, small_obj. cbn [small]. f_equal. rewrite !map_map. reflexivity. Qed.
Lemma ext_low fam n : (forall k c, In c (fam k) -> kept c = true) -> forall name s, down small (ext_of fam n name s) (ext_of fam n name (slower s)).
Proof.
  intros K. induction n as [|n IH]; intros name s v H; [discriminate H|]. cbn [ext_of] in *.
  destruct (family_from_mcnp (ext_of fam n) fam (fam name) s) as [x| |] eqn:E; cbn [bind] in H; try discriminate H. injection H as <-.
  rewrite (family_low (ext_of fam n) fam IH (fam name) s (K name) x E). cbn [bind fst snd]. f_equal. apply obj_val_low.
Qed.
