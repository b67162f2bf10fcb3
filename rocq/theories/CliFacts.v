(** Lemmas about the model of the command line. *)

From Coq Require Import Ascii String NArith ZArith Bool Arith List Lia.
From Verif Require Import PyStr PyNum PyNumFacts Cli CliSpec.
Import ListNotations.
Open Scope list_scope.

(** * Error texts *)

Lemma split_on_lines s : split_on nl s <> [] /\ Forall one_line (split_on nl s) /\ in_lines (split_on nl s) = s.
Proof.
  induction s as [|c s (NE & F & E)]; cbn [split_on].
  - repeat split; try discriminate. constructor; [intros []|constructor].
  - destruct (ceqb c nl) eqn:EC.
    + apply Ascii.eqb_eq in EC. subst c. repeat split; try discriminate.
      * constructor; [intros []|exact F].
      * destruct (split_on nl s) as [|w ws]; [contradiction|]. cbn [in_lines app]. f_equal. exact E.
    + destruct (split_on nl s) as [|w ws]; [contradiction|]. repeat split; try discriminate.
      * inversion F; subst. constructor; auto. intros [->|H]; [|contradiction].
        unfold ceqb in EC. rewrite Ascii.eqb_refl in EC. discriminate.
      * cbn [in_lines] in *. destruct ws; cbn [app]; now rewrite <- E.
Qed.

Lemma quoted_cons w l : quoted (w :: l) = (nl :: L "> " ++ w) ++ quoted l.
Proof. reflexivity. Qed.

Lemma join_quoted l : l <> [] -> nl :: L "> " ++ join (nl :: L "> ") l = quoted l.
Proof.
  induction l as [|w l IH]; [congruence|]. intros _. rewrite quoted_cons. destruct l as [|w' l].
  - cbn [join]. unfold quoted. cbn [map concat]. now rewrite app_nil_r.
  - rewrite <- IH by discriminate. change (join (nl :: L "> ") (w :: w' :: l)) with (w ++ (nl :: L "> ") ++ join (nl :: L "> ") (w' :: l)).
    cbn [app]. rewrite <- ?app_assoc. reflexivity.
Qed.

Lemma quoted_app a b : quoted (a ++ b) = quoted a ++ quoted b.
Proof. unfold quoted. now rewrite map_app, concat_app. Qed.

Lemma header_one_line c code h : header_of code (headers c) = Some h -> one_line h.
Proof.
  assert (F : Forall (fun p => forallb (fun x => negb (ceqb x nl)) (snd p) = true) (headers c)) by (destruct c; repeat constructor).
  induction F as [|[k x] l Hx F IH]; cbn [header_of]; [discriminate|]. destruct (Z.eqb code k); [|exact IH].
  intros [= <-]. intros Hi. rewrite forallb_forall in Hx. specialize (Hx _ Hi). discriminate.
Qed.

Lemma error_text c code info t : error_str c code info = Ok t ->
  exists heading shown hidden, one_line heading /\ Forall one_line shown /\ length shown <= 4 /\
    info = in_lines (shown ++ hidden) /\
    t = heading ++ quoted shown ++ (match hidden with [] => [] | _ => quoted [L "..."] end).
Proof.
  unfold error_str. destruct (split_on_lines info) as (NE & F & E). destruct (header_of code (headers c)) as [h|] eqn:EH; [|discriminate].
  apply header_one_line in EH. intros [= <-]. exists h. destruct (CUTOFF <? length (split_on nl info))%nat eqn:EL.
  - exists (firstn CUTOFF (split_on nl info)), (skipn CUTOFF (split_on nl info)). apply Nat.ltb_lt in EL. repeat split; auto.
    + rewrite Forall_forall in *. intros x Hx. apply F. rewrite <- (firstn_skipn CUTOFF). apply in_or_app. now left.
    + rewrite firstn_length. unfold CUTOFF. lia.
    + now rewrite firstn_skipn.
    + destruct (skipn CUTOFF (split_on nl info)) eqn:ES.
      { apply (f_equal (@length _)) in ES. rewrite skipn_length in ES. cbn [length] in ES. lia. }
      f_equal. rewrite <- quoted_app. apply join_quoted. destruct (firstn CUTOFF (split_on nl info)); discriminate.
  - exists (split_on nl info), []. rewrite app_nil_r. apply Nat.ltb_ge in EL. repeat split; auto.
    f_equal. rewrite app_nil_r. now apply join_quoted.
Qed.

Lemma raised_texts : forall c code, In (c, code) raised -> forall info, exists t, error_str c code info = Ok t.
Proof.
  intros c code H info. unfold error_str.
  assert (E : forallb (fun p => match header_of (snd p) (headers (fst p)) with Some _ => true | None => false end) raised = true) by reflexivity.
  rewrite forallb_forall in E. specialize (E _ H). cbn [fst snd] in E.
  destruct (header_of code (headers c)); [|discriminate]. eauto.
Qed.

(** * Output file names *)

Lemma rsplit1_some c s a b : rsplit1 c s = Some (a, b) -> s = a ++ c :: b /\ ~ In c b.
Proof.
  revert a b. induction s as [|x s IH]; intros a b; cbn [rsplit1]; [discriminate|].
  destruct (rsplit1 c s) as [[a' b']|] eqn:E.
  - intros [= <- <-]. destruct (IH _ _ eq_refl) as (-> & N). auto.
  - destruct (ceqb x c) eqn:EC; [|discriminate]. intros [= <- <-]. apply Ascii.eqb_eq in EC. subst x. split; auto.
    clear IH. induction s as [|y s IHs]; [easy|]. cbn [rsplit1] in E. destruct (rsplit1 c s) as [[]|]; [discriminate|].
    destruct (ceqb y c) eqn:EY; [discriminate|]. intros [->|H]; [|now apply IHs].
    unfold ceqb in EY. now rewrite Ascii.eqb_refl in EY.
Qed.

Lemma rsplit1_last c a b : ~ In c b -> rsplit1 c (a ++ c :: b) = Some (a, b).
Proof.
  intros N. assert (E0 : rsplit1 c b = None).
  { induction b as [|y b IH]; auto. cbn [rsplit1]. rewrite IH by (intros H; apply N; now right).
    destruct (ceqb y c) eqn:EY; auto. apply Ascii.eqb_eq in EY. subst. exfalso. apply N. now left. }
  induction a as [|x a IH]; cbn [app rsplit1].
  - rewrite E0. unfold ceqb. now rewrite Ascii.eqb_refl.
  - now rewrite IH.
Qed.

Lemma app_last_inv {A} (u v : list A) x y : u ++ [x] = v ++ [y] -> u = v /\ x = y.
Proof. intros H. apply app_inj_tail in H. tauto. Qed.

Lemma zeros_snoc k : srepeat (S k) ["0"%char] = srepeat k ["0"%char] ++ ["0"%char].
Proof. induction k as [|k IH]; [reflexivity|]. cbn [srepeat] in *. rewrite IH at 1. now rewrite app_assoc. Qed.

Lemma zeros_inj n m k l : no_final_zero n -> no_final_zero m ->
  n ++ srepeat k ["0"%char] = m ++ srepeat l ["0"%char] -> n = m.
Proof.
  intros (u & c & -> & Hc) (v & d & -> & Hd). revert l. induction k as [|k IH]; intros [|l].
  - now rewrite !app_nil_r.
  - rewrite zeros_snoc, app_assoc. cbn [srepeat]. rewrite app_nil_r. intros E. apply app_last_inv in E. tauto.
  - rewrite zeros_snoc, app_assoc. cbn [srepeat]. rewrite app_nil_r. intros E. apply app_last_inv in E. destruct E. congruence.
  - rewrite !zeros_snoc, !app_assoc. intros E. apply app_last_inv in E. apply (IH l). tauto.
Qed.

Lemma outfile_inj path ext n m o : no_final_zero n -> no_final_zero m ->
  get_outfile path ext (Some n) = Ok o -> get_outfile path ext (Some m) = Ok o -> n = m.
Proof.
  intros Hn Hm. unfold get_outfile. destruct (rsplit1 "." path) as [[base tl]|]; [|discriminate].
  assert (N1 : n <> []) by (destruct Hn as (u & c & -> & _); destruct u; discriminate).
  assert (N2 : m <> []) by (destruct Hm as (u & c & -> & _); destruct u; discriminate).
  assert (M : forall k, k <> [] -> match Some k with None | Some [] => [] | Some n' => "-"%char :: fmt05 n' end = "-"%char :: fmt05 k)
    by (intros [|? ?]; congruence).
  rewrite !M by assumption. intros A B. rewrite <- A in B. injection B as B. apply app_inv_head in B.
  change (("-"%char :: fmt05 m) ++ "."%char :: ext = ("-"%char :: fmt05 n) ++ "."%char :: ext) in B.
  apply app_inv_tail in B. injection B as B. unfold fmt05 in B. eapply zeros_inj; eauto.
Qed.

Lemma str_of_N_no_zero n : (n mod 10 <> 0)%N -> no_final_zero (str_of_N n).
Proof.
  intros H. destruct (@exists_last _ (str_of_N n)) as (u & c & E).
  { apply str_of_N_nonempty. }
  exists u, c. split; [exact E|]. intros ->. apply H. rewrite <- (N_of_str_of_N n), E. unfold N_of_digits.
  rewrite fold_left_app. cbn [fold_left]. change (digit_val "0") with 0%N. rewrite N.add_0_r, N.mul_comm. apply N.mod_mul. lia.
Qed.

(** * Check.fix *)

Lemma prefixes_spec text s : In s (prefixes text) <-> exists rest, text = s ++ rest.
Proof.
  revert s. induction text as [|c t IH]; intros s; cbn [prefixes].
  - split; [intros [<-|[]]; now exists []|]. intros (r & E). destruct s; [now left|discriminate].
  - split.
    + intros [<-|H]; [now exists (c :: t)|]. apply in_map_iff in H. destruct H as (s' & <- & H).
      apply IH in H. destruct H as (r & ->). now exists r.
    + intros (r & E). destruct s as [|x s]; [now left|]. injection E as -> ->. right. apply in_map_iff.
      exists s. split; auto. apply IH. now exists r.
Qed.

Lemma last_map_Some (l : list str) d : l <> [] -> last (map Some l) d = Some (last l []).
Proof. induction l as [|a [|b l] IH]; intros H; [congruence|reflexivity|]. apply IH. discriminate. Qed.

Lemma last_prefixes text : last (prefixes text) [] = text.
Proof.
  induction text as [|c t IH]; auto. cbn [prefixes].
  assert (N : prefixes t <> []) by (destruct t; discriminate).
  assert (E : forall (l : list str), l <> [] -> last ([] :: map (cons c) l) [] = c :: last l []).
  { clear. intros l. induction l as [|a [|b l] IH]; intros H; [congruence|reflexivity|].
    change (last ([] :: map (cons c) (b :: l)) [] = c :: last (b :: l) []). apply IH. discriminate. }
  rewrite E by exact N. now rewrite IH.
Qed.

Lemma prefixes_nonempty text : prefixes text <> [].
Proof. destruct text; discriminate. Qed.

(** * Run *)

Lemma split_app {A} (l1 l2 d1 d2 : list A) x : l1 ++ l2 = d1 ++ x :: d2 ->
  (exists e, l1 = d1 ++ x :: e) \/ (exists e, d1 = l1 ++ e /\ l2 = e ++ x :: d2).
Proof.
  revert d1. induction l1 as [|a l1 IH]; intros d1 E.
  - right. now exists d1.
  - destruct d1 as [|b d1]; injection E as -> E.
    + left. now exists l1.
    + destruct (IH _ E) as [(e & ->)|(e & -> & ->)]; [left; now exists e|right; exists e; now split].
Qed.

Definition finish (e : event) : bool := match e with Finish _ => true | _ => false end.

(** What is known when event [e] happens after [t1]: the statements before it
    have all been carried out. *)
Definition carried_out (d1 : list act) (t1 : list event) : Prop :=
  (forall e, In (Do e) d1 -> In e t1) /\ (forall i, In (Wait i) d1 -> In (Finish i) t1).

Inductive runs (p rest : list act) (t : list event) : Prop := mkruns (done : list act)
  (_ : p = done ++ rest)
  (_ : carried_out done t)
  (_ : forall e, In e t -> finish e = false -> In (Do e) done)
  (_ : NoDup p -> NoDup t)
  (_ : forall t1 e t2, t = t1 ++ e :: t2 ->
    match e with
    | Finish i => exists c, In (Start i c) t1
    | _ => exists d1 d2, p = d1 ++ Do e :: d2 /\ carried_out d1 t1
    end).

Lemma carried_app d t t' : carried_out d t -> carried_out d (t ++ t').
Proof. intros [A B]. split; intros; apply in_or_app; left; auto. Qed.

Lemma nodup_snoc {A} (l : list A) x : NoDup l -> ~ In x l -> NoDup (l ++ [x]).
Proof.
  induction 1 as [|a l Na Nd IH]; intros H; cbn [app]; [repeat constructor; auto|].
  constructor.
  - intros Hi. apply in_app_or in Hi. destruct Hi as [Hi|[->|[]]]; [contradiction|]. apply H. now left.
  - apply IH. intros Hi. apply H. now right.
Qed.

Lemma snoc_split {A} (t t1 t2 : list A) e e' : t ++ [e] = t1 ++ e' :: t2 ->
  (exists t2', t = t1 ++ e' :: t2') \/ (t1 = t /\ e' = e).
Proof.
  intros E. apply split_app in E. destruct E as [(x & ->)|(x & -> & E)]; [left; eauto|].
  destruct x as [|y x]; [|destruct x; discriminate].
  injection E as -> _. right. rewrite app_nil_r. auto.
Qed.

Lemma runs_reach p : (forall i, ~ In (Do (Finish i)) p) -> forall c, reach p c -> runs p (fst c) (snd c).
Proof.
  intros NF c R. induction R as [|c c' R IH S].
  - exists [].
    + reflexivity.
    + split; intros ? [].
    + intros e [].
    + intros _. constructor.
    + intros t1 e t2 E. destruct t1; discriminate.
  - inversion S; subst; cbn [fst snd] in *; destruct IH as [d Ed C F N P].
    + exists (d ++ [Do e]).
      * rewrite Ed, <- app_assoc. reflexivity.
      * destruct C as [C1 C2]. split; intros x Hx; apply in_app_or in Hx; apply in_or_app; destruct Hx as [Hx|[Hx|[]]]; auto.
        -- right. injection Hx as ->. now left.
        -- discriminate.
      * intros x Hx Hf. apply in_app_or in Hx. apply in_or_app. destruct Hx as [Hx|[<-|[]]]; [left|right]; auto. now left.
      * intros ND. apply nodup_snoc; auto. intros Hi. assert (Hf : finish e = false).
        { destruct e; auto. exfalso. apply (NF i). rewrite Ed. apply in_or_app. right. now left. }
        pose proof (F _ Hi Hf) as Hd. rewrite Ed in ND. apply NoDup_remove_2 in ND. apply ND. apply in_or_app. now left.
      * intros t1 x t2 E. apply snoc_split in E. destruct E as [(t2' & ->)|[-> ->]]; [now apply (P t1 x t2')|].
        assert (G : exists d1 d2, p = d1 ++ Do e :: d2 /\ carried_out d1 t) by (exists d, p0; auto).
        destruct e; auto. exfalso. apply (NF i). rewrite Ed. apply in_or_app. right. now left.
    + exists (d ++ [Wait i]).
      * rewrite Ed, <- app_assoc. reflexivity.
      * destruct C as [C1 C2]. split; intros x Hx; apply in_app_or in Hx; destruct Hx as [Hx|[Hx|[]]]; auto; [discriminate|].
        injection Hx as <-. assumption.
      * intros x Hx Hf. apply in_or_app. left. auto.
      * exact N.
      * exact P.
    + exists d.
      * exact Ed.
      * now apply carried_app.
      * intros x Hx Hf. apply in_app_or in Hx. destruct Hx as [Hx|[<-|[]]]; auto. discriminate.
      * intros ND. apply nodup_snoc; auto.
      * intros t1 x t2 E. apply snoc_split in E. destruct E as [(t2' & ->)|[-> ->]]; [now apply (P t1 x t2')|]. eauto.
Qed.

(** ** The two loops *)

Section Loops.
Variables (command dir : str).

Definition job_acts (i : nat) (text : str) : list act :=
  [Do (MkDir i (subdir dir i)); Do (WriteInput i (input_file dir i) text); Do (FilePre i (subdir dir i)); Do (Start i (command_line command dir i))].

Definition in_launch (k n : nat) (a : act) : Prop :=
  exists i, k <= i < k + n /\ (a = Do (MkDir i (subdir dir i)) \/ (exists text, In a (job_acts i text))).

Lemma launch_in inps : forall k a, In a (fst (launch command dir k inps)) -> in_launch k (length inps) a.
Proof.
  induction inps as [|r inps IH]; intros k a; cbn [launch]; [intros []|].
  destruct r as [text|e|e]; [|intros [<-|[]]; exists k; cbn [length]; split; [lia|now left]..].
  destruct (launch command dir (S k) inps) as [acts out] eqn:E. cbn [fst].
  change (In a (job_acts k text ++ acts) -> in_launch k (S (length inps)) a). intros H.
  apply in_app_or in H. destruct H as [H|H].
  - exists k. split; [lia|]. right. now exists text.
  - specialize (IH (S k) a). rewrite E in IH. destruct (IH H) as (i & Hi & G). exists i. split; [lia|exact G].
Qed.

Lemma launch_split inps : forall k d1 d2 a, fst (launch command dir k inps) = d1 ++ a :: d2 ->
  forall i c, a = Do (Start i c) -> k <= i /\ exists text, nth_error inps (i - k) = Some (Ok text) /\ c = command_line command dir i /\
    In (Do (MkDir i (subdir dir i))) d1 /\ In (Do (WriteInput i (input_file dir i) text)) d1 /\ In (Do (FilePre i (subdir dir i))) d1.
Proof.
  induction inps as [|r inps IH]; intros k d1 d2 a E i c ->; cbn [launch] in E; [destruct d1; discriminate|].
  destruct r as [text|e|e]; [|destruct d1 as [|? [|? ?]]; discriminate..].
  destruct (launch command dir (S k) inps) as [acts out] eqn:EL. cbn [fst] in E.
  change (job_acts k text ++ acts = d1 ++ Do (Start i c) :: d2) in E. apply split_app in E. destruct E as [(x & E)|(x & -> & E)].
  - unfold job_acts in E. destruct d1 as [|? d1]; [discriminate|]. destruct d1 as [|? d1]; [discriminate|].
    destruct d1 as [|? d1]; [discriminate|]. destruct d1 as [|? d1]; [|destruct d1; discriminate].
    injection E as <- <- <- <- <- <-. split; auto. exists text. rewrite Nat.sub_diag. cbn. repeat split; auto.
  - specialize (IH (S k) x d2 (Do (Start i c))). rewrite EL in IH. destruct (IH E i c eq_refl) as (Hk & text' & Hn & -> & A & B & C).
    split; [lia|]. exists text'. replace (i - k) with (S (i - S k)) by lia. repeat split; auto; apply in_or_app; auto.
Qed.

Lemma launch_nodup inps : forall k, NoDup (fst (launch command dir k inps)).
Proof.
  induction inps as [|r inps IH]; intros k; cbn [launch]; [constructor|].
  destruct r as [text|e|e]; [|repeat constructor; intros []..].
  destruct (launch command dir (S k) inps) as [acts out] eqn:EL. cbn [fst].
  assert (G : forall a i, In a acts -> (a = Do (MkDir i (subdir dir i)) \/ exists t, In a (job_acts i t)) -> S k <= i).
  { intros a i Ha Hi. pose proof (launch_in inps (S k) a) as H. rewrite EL in H. destruct (H Ha) as (j & Hj & Hk).
    assert (i = j); [|lia]. unfold job_acts in *. cbn [In] in *.
    destruct Hi as [->|(t & [<-|[<-|[<-|[<-|[]]]]])]; destruct Hk as [Hk|(t' & [Hk|[Hk|[Hk|[Hk|[]]]]])]; congruence. }
  assert (G' : forall a t, In a (job_acts k t) -> ~ In a acts).
  { intros a t Ha Hb. enough (S k <= k) by lia. apply (G a k Hb). right. now exists t. }
  specialize (IH (S k)). rewrite EL in IH. cbn [fst] in IH.
  repeat (constructor; [intros Hi; cbn [In] in Hi; repeat (destruct Hi as [Hi|Hi]; [discriminate|]); revert Hi; apply (G' _ text); unfold job_acts; cbn [In]; tauto|]).
  exact IH.
Qed.

Lemma launch_all inps : forall k, snd (launch command dir k inps) = Ok tt -> forall i, i < length inps ->
  exists text, nth_error inps i = Some (Ok text) /\ (forall a, In a (job_acts (k + i) text) -> In a (fst (launch command dir k inps))).
Proof.
  induction inps as [|r inps IH]; intros k; cbn [launch]; [intros _ i H; cbn in H; lia|].
  destruct r as [text|e|e]; [|discriminate..]. specialize (IH (S k)).
  destruct (launch command dir (S k) inps) as [acts out]. cbn [fst snd] in *. intros E [|i] H; cbn [length] in H.
  - exists text. split; auto. rewrite Nat.add_0_r. intros a Ha. unfold job_acts in Ha. cbn [In] in *. tauto.
  - destruct (IH E i ltac:(lia)) as (t & Hn & Ha). exists t. split; auto. intros a Hb. replace (k + S i) with (S k + i) in Hb by lia.
    right; right; right; right. now apply Ha.
Qed.

Lemma collect_in k n a : In a (collect dir k n) -> exists i, k <= i < k + n /\ (a = Wait i \/ a = Do (FilePost i (subdir dir i))).
Proof.
  revert k. induction n as [|n IH]; intros k; cbn [collect]; [intros []|].
  intros [<-|[<-|H]]; [exists k; split; [lia|auto]..|]. destruct (IH _ H) as (i & Hi & G). exists i. split; [lia|exact G].
Qed.

Lemma collect_all k n i : k <= i < k + n -> In (Do (FilePost i (subdir dir i))) (collect dir k n).
Proof.
  revert k. induction n as [|n IH]; intros k H; [lia|]. cbn [collect]. right.
  destruct (Nat.eq_dec i k) as [->|]; [now left|]. right. apply IH. lia.
Qed.

Lemma collect_split n : forall k d1 d2 i d, collect dir k n = d1 ++ Do (FilePost i d) :: d2 ->
  k <= i /\ d = subdir dir i /\ In (Wait i) d1 /\ (forall j, k <= j < i -> In (Do (FilePost j (subdir dir j))) d1).
Proof.
  induction n as [|n IH]; intros k d1 d2 i d E; cbn [collect] in E; [destruct d1; discriminate|].
  destruct d1 as [|? [|? d1]]; [discriminate| |].
  - injection E as <- <- <- _. repeat split; auto; [now left|lia].
  - injection E as <- <- E. destruct (IH _ _ _ _ _ E) as (A & -> & B & C). repeat split; auto; [lia|now right; right|].
    intros j Hj. right. destruct (Nat.eq_dec j k) as [->|]; [now left|]. right. apply C. lia.
Qed.

Lemma collect_nodup n : forall k, NoDup (collect dir k n).
Proof.
  induction n as [|n IH]; intros k; cbn [collect]; constructor.
  - intros [H|H]; [discriminate|]. apply collect_in in H. destruct H as (i & Hi & [[= ->]|H]); [lia|discriminate].
  - constructor; auto. intros H. apply collect_in in H. destruct H as (i & Hi & [H|[= -> _]]); [discriminate|lia].
Qed.
End Loops.

(** ** The whole program *)

Section Run.
Variables (command path stamp : str) (inps : list (result str)).
Let dir := batch_dir path stamp.
Let p := fst (run command path stamp false inps).
Let jobs := fst (launch command dir 0 inps).

Lemma run_shape : exists tail, p = [Do (MkBatch dir); Do (BatchPre dir)] ++ jobs ++ tail /\
  ((snd (launch command dir 0 inps) = Ok tt /\ tail = collect dir 0 (length inps) ++ [Do (BatchPost dir)] /\ snd (run command path stamp false inps) = Ok dir)
   \/ (tail = [] /\ is_ok (snd (run command path stamp false inps)) = false)).
Proof.
  unfold p, jobs, run. change (slash path (L "pymcnp-" ++ stamp)) with dir.
  destruct (launch command dir 0 inps) as [acts [[]|e|e]]; cbn [fst snd].
  - exists (collect dir 0 (length inps) ++ [Do (BatchPost dir)]). split; [reflexivity|left; auto].
  - exists []. split; [now rewrite app_nil_r|right; auto].
  - exists []. split; [now rewrite app_nil_r|right; auto].
Qed.

Lemma jobs_in a : In a jobs -> exists i, i < length inps /\ (a = Do (MkDir i (subdir dir i)) \/ exists text, In a (job_acts command dir i text)).
Proof. intros H. destruct (launch_in command dir inps 0 a H) as (i & Hi & G). exists i. split; [lia|exact G]. Qed.

Lemma p_cases a : In a p -> a = Do (MkBatch dir) \/ a = Do (BatchPre dir) \/ In a jobs \/ In a (collect dir 0 (length inps)) \/ a = Do (BatchPost dir).
Proof.
  destruct run_shape as (tail & -> & [(_ & -> & _)|(-> & _)]); intros H; repeat (apply in_app_or in H; destruct H as [H|H]); cbn [In] in H;
  intuition.
Qed.

Lemma p_no_finish i : ~ In (Do (Finish i)) p.
Proof.
  intros H. apply p_cases in H. destruct H as [H|[H|[H|[H|H]]]]; try discriminate.
  - apply jobs_in in H. destruct H as (j & _ & [H|(t & H)]); [discriminate|]. unfold job_acts in H. cbn [In] in H.
    destruct H as [H|[H|[H|[H|[]]]]]; discriminate.
  - apply collect_in in H. destruct H as (j & _ & [H|H]); discriminate.
Qed.

Lemma nodup_app {A} (a b : list A) : NoDup a -> NoDup b -> (forall x, In x a -> ~ In x b) -> NoDup (a ++ b).
Proof.
  induction 1 as [|x a Nx Na IH]; intros Nb D; auto. cbn [app]. constructor.
  - intros H. apply in_app_or in H. destruct H as [H|H]; [contradiction|]. apply (D x); [now left|exact H].
  - apply IH; auto. intros y Hy. apply D. now right.
Qed.

Lemma job_kind a : In a jobs -> match a with Do (MkDir _ _) | Do (WriteInput _ _ _) | Do (FilePre _ _) | Do (Start _ _) => True | _ => False end.
Proof.
  intros H. apply jobs_in in H. destruct H as (j & _ & [->|(t & H)]); [exact I|]. unfold job_acts in H. cbn [In] in H.
  destruct H as [<-|[<-|[<-|[<-|[]]]]]; exact I.
Qed.

Lemma collect_kind a n : In a (collect dir 0 n) -> match a with Wait _ | Do (FilePost _ _) => True | _ => False end.
Proof. intros H. apply collect_in in H. destruct H as (j & _ & [->| ->]); exact I. Qed.

Lemma p_nodup : NoDup p.
Proof.
  destruct run_shape as (tail & -> & HT).
  assert (NT : NoDup (jobs ++ tail)).
  { destruct HT as [(_ & -> & _)|(-> & _)]; [|rewrite app_nil_r; apply launch_nodup].
    apply nodup_app; [apply launch_nodup| |].
    - apply nodup_app; [apply collect_nodup|repeat constructor; intros []|]. intros x Hx [<-|[]]. apply collect_kind in Hx. exact Hx.
    - intros x Hx Hy. apply job_kind in Hx. apply in_app_or in Hy. destruct Hy as [Hy|[<-|[]]]; [|exact Hx].
      apply collect_kind in Hy. destruct x as [[]|]; auto. }
  assert (K : forall a, In a (jobs ++ tail) -> match a with Do (MkBatch _) | Do (BatchPre _) => False | _ => True end).
  { intros a Ha. apply in_app_or in Ha. destruct Ha as [Ha|Ha].
    - apply job_kind in Ha. destruct a as [[]|]; auto.
    - destruct HT as [(_ & -> & _)|(-> & _)]; [|destruct Ha]. apply in_app_or in Ha. destruct Ha as [Ha|[<-|[]]]; auto.
      apply collect_kind in Ha. destruct a as [[]|]; auto. }
  cbn [app]. constructor; [|constructor; auto].
  - intros [H|H]; [discriminate|]. exact (K _ H).
  - intros H. exact (K _ H).
Qed.

Lemma p_start d1 d2 i c : p = d1 ++ Do (Start i c) :: d2 ->
  exists text, nth_error inps i = Some (Ok text) /\ c = command_line command dir i /\ In (Do (BatchPre dir)) d1 /\
    In (Do (MkDir i (subdir dir i))) d1 /\ In (Do (WriteInput i (input_file dir i) text)) d1 /\ In (Do (FilePre i (subdir dir i))) d1.
Proof.
  destruct run_shape as (tail & -> & HT). intros E. apply split_app in E. destruct E as [(x & E)|(x & -> & E)].
  { destruct d1 as [|? [|? [|? ?]]]; discriminate. }
  apply split_app in E. destruct E as [(y & E)|(y & -> & E)].
  - destruct (launch_split command dir inps 0 _ _ _ E i c eq_refl) as (_ & text & Hn & Hc & A & B & C).
    rewrite Nat.sub_0_r in Hn. exists text. repeat split; auto; apply in_or_app; [left; right; now left|right; assumption..].
  - exfalso. destruct HT as [(_ & -> & _)|(-> & _)]; [|destruct y; discriminate].
    assert (H : In (Do (Start i c)) (collect dir 0 (length inps) ++ [Do (BatchPost dir)])) by (rewrite E; apply in_or_app; right; now left).
    apply in_app_or in H. destruct H as [H|[H|[]]]; [|discriminate]. apply collect_kind in H. exact H.
Qed.

Lemma p_post d1 d2 i d : p = d1 ++ Do (FilePost i d) :: d2 ->
  d = subdir dir i /\ In (Wait i) d1 /\ (forall j, j < i -> In (Do (FilePost j (subdir dir j))) d1).
Proof.
  destruct run_shape as (tail & -> & HT). intros E. apply split_app in E. destruct E as [(x & E)|(x & -> & E)].
  { destruct d1 as [|? [|? [|? ?]]]; discriminate. }
  apply split_app in E. destruct E as [(y & E)|(y & -> & E)].
  - exfalso. assert (H : In (Do (FilePost i d)) jobs) by (rewrite E; apply in_or_app; right; now left). apply job_kind in H. exact H.
  - destruct HT as [(_ & -> & _)|(-> & _)]; [|destruct y; discriminate].
    apply split_app in E. destruct E as [(z & E)|(z & -> & E)]; [|destruct z as [|? [|? ?]]; discriminate].
    destruct (collect_split dir _ _ _ _ _ _ E) as (_ & A & B & C). repeat split; auto.
    + apply in_or_app. right. apply in_or_app. now right.
    + intros j Hj. apply in_or_app. right. apply in_or_app. right. apply C. lia.
Qed.

Lemma p_end d1 d2 d : p = d1 ++ Do (BatchPost d) :: d2 ->
  d = dir /\ forall i, i < length inps -> In (Do (FilePost i (subdir dir i))) d1.
Proof.
  destruct run_shape as (tail & -> & HT). intros E. apply split_app in E. destruct E as [(x & E)|(x & -> & E)].
  { destruct d1 as [|? [|? [|? ?]]]; discriminate. }
  apply split_app in E. destruct E as [(y & E)|(y & -> & E)].
  - exfalso. assert (H : In (Do (BatchPost d)) jobs) by (rewrite E; apply in_or_app; right; now left). apply job_kind in H. exact H.
  - destruct HT as [(_ & -> & _)|(-> & _)]; [|destruct y; discriminate].
    apply split_app in E. destruct E as [(z & E)|(z & -> & E)].
    { exfalso. assert (H : In (Do (BatchPost d)) (collect dir 0 (length inps))) by (rewrite E; apply in_or_app; right; now left).
      apply collect_kind in H. exact H. }
    destruct z as [|? [|? ?]]; [|discriminate..]. injection E as <- _. split; auto. intros i Hi.
    apply in_or_app. right. apply in_or_app. right. rewrite app_nil_r. apply collect_all. lia.
Qed.

Lemma p_wait d1 d2 i : p = d1 ++ Wait i :: d2 -> exists c, In (Do (Start i c)) d1.
Proof.
  destruct run_shape as (tail & -> & HT). intros E. apply split_app in E. destruct E as [(x & E)|(x & -> & E)].
  { destruct d1 as [|? [|? [|? ?]]]; discriminate. }
  apply split_app in E. destruct E as [(y & E)|(y & -> & E)].
  - exfalso. assert (H : In (Wait i) jobs) by (rewrite E; apply in_or_app; right; now left). apply job_kind in H. exact H.
  - destruct HT as [(HL & -> & _)|(-> & _)]; [|destruct y; discriminate].
    assert (H : In (Wait i) (collect dir 0 (length inps) ++ [Do (BatchPost dir)])) by (rewrite E; apply in_or_app; right; now left).
    apply in_app_or in H. destruct H as [H|[H|[]]]; [|discriminate]. apply collect_in in H. destruct H as (j & Hj & [[= <-]|H]); [|discriminate].
    destruct (launch_all command dir inps 0 HL i ltac:(lia)) as (text & _ & Ha). eexists. apply in_or_app. right. apply in_or_app. left.
    apply Ha. unfold job_acts. cbn [In]. right; right; right; left. reflexivity.
Qed.

Lemma run_ordered rest t : reach p (rest, t) ->
  NoDup t /\
  (forall t1 t2 i c, t = t1 ++ Start i c :: t2 -> exists text, nth_error inps i = Some (Ok text) /\ c = command_line command dir i /\ In (BatchPre dir) t1 /\
     In (MkDir i (subdir dir i)) t1 /\ In (WriteInput i (input_file dir i) text) t1 /\ In (FilePre i (subdir dir i)) t1) /\
  (forall t1 t2 i d, t = t1 ++ FilePost i d :: t2 -> d = subdir dir i /\ In (Finish i) t1 /\ (forall j, j < i -> In (FilePost j (subdir dir j)) t1)) /\
  (forall t1 t2 d, t = t1 ++ BatchPost d :: t2 -> d = dir /\ forall i, i < length inps -> In (FilePost i (subdir dir i)) t1).
Proof.
  intros R. destruct (runs_reach p p_no_finish _ R) as [d Ed C F N P]. cbn [fst snd] in *. repeat apply conj.
  - apply N. exact p_nodup.
  - intros t1 t2 i c E. destruct (P _ _ _ E) as (d1 & d2 & E' & [C1 C2]). destruct (p_start _ _ _ _ E') as (text & Hn & Hc & A & B & G & G').
    exists text. auto 10.
  - intros t1 t2 i x E. destruct (P _ _ _ E) as (d1 & d2 & E' & [C1 C2]). destruct (p_post _ _ _ _ E') as (Hd & A & B). auto.
  - intros t1 t2 x E. destruct (P _ _ _ E) as (d1 & d2 & E' & [C1 C2]). destruct (p_end _ _ _ E') as (Hd & A). auto.
Qed.

Lemma run_progress rest t : reach p (rest, t) -> rest <> [] -> exists c, step (rest, t) c.
Proof.
  intros R NE. destruct (runs_reach p p_no_finish _ R) as [d Ed [C1 C2] F N P]. cbn [fst snd] in *.
  destruct rest as [|[e|i] rest]; [congruence| |].
  - eexists. apply step_do.
  - destruct (p_wait _ _ _ Ed) as (c & Hc). apply C1 in Hc.
    assert (D : In (Finish i) t \/ ~ In (Finish i) t).
    { clear. induction t as [|e t IH]; [right; intros []|]. destruct IH as [H|H]; [left; now right|].
      destruct e; try (right; intros [E|E]; [discriminate|contradiction]).
      destruct (Nat.eq_dec i0 i) as [->|Hn]; [left; now left|]. right. intros [E|E]; [congruence|contradiction]. }
    destruct D as [D|D]; eexists; [now apply step_wait|eapply step_end; eassumption].
Qed.

Lemma run_bounded n rest t : reach_in p n (rest, t) -> n <= length p + length inps.
Proof.
  intros R.
  assert (E : forall n c, reach_in p n c -> reach p c /\ n + length (fst c) = length p + length (filter finish (snd c))).
  { clear R n. induction 1 as [|n c c' R (IH & E) S]; [split; [constructor|cbn; lia]|].
    split; [eapply reach_step; eassumption|]. inversion S; subst; cbn [fst snd] in *.
    - cbn [length] in E. rewrite filter_app, app_length. cbn [filter]. destruct (finish e) eqn:EF; cbn [length]; [|lia].
      exfalso. destruct e; try discriminate. destruct (runs_reach p p_no_finish _ IH) as [d Ed _ _ _ _]. cbn [fst] in Ed.
      apply (p_no_finish i). rewrite Ed. apply in_or_app. right. now left.
    - cbn [length] in E. lia.
    - rewrite filter_app, app_length. cbn [filter finish length]. lia. }
  destruct (E _ _ R) as (R' & HE). cbn [fst snd] in HE.
  enough (length (filter finish t) <= length inps) by lia.
  replace (length inps) with (length (map Finish (seq 0 (length inps)))) by (rewrite map_length, seq_length; reflexivity).
  destruct (run_ordered _ _ R') as (N & Q & _). destruct (runs_reach p p_no_finish _ R') as [d _ _ _ _ P]. cbn [fst snd] in *.
  apply NoDup_incl_length; [now apply NoDup_filter|]. intros e He. apply filter_In in He. destruct He as [He Hf].
  destruct e; try discriminate. apply in_split in He. destruct He as (t1 & t2 & ->).
  destruct (P _ _ _ eq_refl) as (c & Hc). apply in_split in Hc. destruct Hc as (t3 & t4 & ->).
  destruct (Q t3 (t4 ++ Finish i :: t2) i c) as (text & Hn & _); [now rewrite <- app_assoc|].
  apply in_map_iff. exists i. split; auto. apply in_seq. assert (i < length inps) by (apply nth_error_Some; congruence). lia.
Qed.

Lemma run_complete t : reach p ([], t) -> is_ok (snd (run command path stamp false inps)) = true ->
  snd (run command path stamp false inps) = Ok dir /\
  (forall i, i < length inps -> (exists c, In (Start i c) t) /\ In (Finish i) t /\ In (FilePost i (subdir dir i)) t) /\ In (BatchPost dir) t.
Proof.
  intros R HO. destruct (runs_reach p p_no_finish _ R) as [d Ed [C1 C2] F N P]. cbn [fst snd] in *. rewrite app_nil_r in Ed. subst d.
  destruct run_shape as (tail & Ep & [(HL & -> & HR)|(_ & HR)]); [|congruence]. split; [exact HR|].
  assert (In (BatchPost dir) t).
  { apply C1. rewrite Ep. apply in_or_app. right. apply in_or_app. right. apply in_or_app. right. now left. }
  split; [|assumption]. intros i Hi.
  assert (HP : In (FilePost i (subdir dir i)) t).
  { apply C1. rewrite Ep. apply in_or_app. right. apply in_or_app. right. apply in_or_app. left. apply collect_all. lia. }
  split; [|split]; [| |exact HP].
  - destruct (launch_all command dir inps 0 HL i Hi) as (text & _ & Ha). eexists. apply C1. rewrite Ep. apply in_or_app. right. apply in_or_app. left.
    apply Ha. unfold job_acts. cbn [In]. right; right; right; left. reflexivity.
  - apply in_split in HP. destruct HP as (t1 & t2 & ->). destruct (run_ordered _ _ R) as (_ & _ & Q & _).
    destruct (Q _ _ _ _ eq_refl) as (_ & Hf & _). apply in_or_app. now left.
Qed.
End Run.

Lemma run_name_inj i j : run_name i = run_name j -> i = j.
Proof.
  unfold run_name. intros E. apply app_inv_head in E. apply (f_equal N_of_digits) in E. unfold zpad in E.
  rewrite !N_of_digits_zeros, !N_of_str_of_N in E. now apply Nat2N.inj.
Qed.

Lemma subdir_inj dir i j : subdir dir i = subdir dir j -> i = j.
Proof. unfold subdir, slash. intros E. apply app_inv_head in E. apply run_name_inj. exact (f_equal (@tl _) E). Qed.

Lemma launch_ok command dir inps : Forall (fun r : result str => is_ok r = true) inps -> forall k, snd (launch command dir k inps) = Ok tt.
Proof.
  induction 1 as [|r inps Hr H IH]; intros k; cbn [launch]; auto. destruct r; try discriminate.
  specialize (IH (S k)). destruct (launch command dir (S k) inps). exact IH.
Qed.

Lemma run_ok command path stamp inps : Forall (fun r : result str => is_ok r = true) inps -> is_ok (snd (run command path stamp false inps)) = true.
Proof.
  intros H. unfold run. pose proof (launch_ok command (slash path (L "pymcnp-" ++ stamp)) inps H 0) as E.
  destruct (launch command (slash path (L "pymcnp-" ++ stamp)) 0 inps) as [acts out]. cbn [snd] in E. now subst out.
Qed.

Lemma fix_last old new : last (old :: map Some (prefixes new)) None = Some new.
Proof.
  pose proof (last_map_Some (prefixes new) None (prefixes_nonempty new)) as E. rewrite last_prefixes in E.
  destruct (prefixes new) eqn:EP; [now destruct (prefixes_nonempty new)|]. exact E.
Qed.

Lemma fix_contents : forall (inp : Type) (from_mcnp : str -> result inp) (to_mcnp : inp -> result str) pytest file content,
  In content (fst (fix_file from_mcnp to_mcnp pytest file)) ->
  content = file \/ exists old i new rest done, file = Some old /\ from_mcnp old = Ok i /\ to_mcnp i = Ok new /\ content = Some done /\ new = done ++ rest.
Proof.
  intros inp fm tm pytest file content. unfold fix_file, from_file. destruct file as [old|]; [|intros [<-|[]]; now left].
  destruct (fm old) as [i|e|e] eqn:E1; [|intros [<-|[]]; now left..]. destruct pytest; [intros [<-|[]]; now left|].
  unfold to_file. destruct (tm i) as [new|e|e] eqn:E2; [|intros [<-|[]]; now left..]. cbn [fst].
  intros [<-|H]; [now left|]. right. apply in_map_iff in H. destruct H as (d & <- & H). apply prefixes_spec in H. destruct H as (r & ->).
  exists old, i, (d ++ r), r, d. auto.
Qed.

Lemma str_of_N_inj' a b : str_of_N a = str_of_N b -> a = b.
Proof. apply str_of_N_inj. Qed.

Lemma outfile_beside dir stem old ext number : ~ In "."%char old -> ~ In "/"%char old ->
  exists name, get_outfile (dir ++ L "/" ++ stem ++ L "." ++ old) ext number = Ok (dir ++ L "/" ++ stem ++ name ++ L "." ++ ext).
Proof.
  intros H _. unfold get_outfile.
  assert (E : dir ++ L "/" ++ stem ++ L "." ++ old = (dir ++ L "/" ++ stem) ++ "."%char :: old) by (now rewrite <- !app_assoc).
  rewrite E, rsplit1_last by exact H.
  exists (match number with None | Some [] => [] | Some n => "-"%char :: fmt05 n end). now rewrite <- !app_assoc.
Qed.

Lemma outfile_none path ext number : ~ In "."%char path -> get_outfile path ext number = Py ValueError.
Proof.
  intros H. unfold get_outfile. destruct (rsplit1 "." path) as [[a b]|] eqn:E; auto.
  apply rsplit1_some in E. destruct E as (-> & _). exfalso. apply H. apply in_or_app. right. now left.
Qed.

Lemma error_lines class code info t : error_str class code info = Ok t -> count_occ ascii_dec t nl <= 5.
Proof.
  intros H. apply error_text in H. destruct H as (h & shown & hidden & Hh & Hs & Hl & _ & ->).
  assert (Z : forall s, one_line s -> count_occ ascii_dec s nl = 0) by (intros s Hs'; now apply count_occ_not_In).
  assert (Q : count_occ ascii_dec (quoted shown) nl = length shown).
  { clear Hl. induction Hs as [|l ls Hx Hs IH]; auto. rewrite quoted_cons, count_occ_app, IH.
    change (count_occ ascii_dec (nl :: L "> " ++ l) nl) with (S (count_occ ascii_dec l nl)). rewrite Z by exact Hx. reflexivity. }
  rewrite !count_occ_app, Z, Q by exact Hh. destruct hidden; [cbn; lia|].
  change (count_occ ascii_dec (quoted [L "..."]) nl) with 1. lia.
Qed.

(** A run of two jobs that end in the reverse order. *)
Definition two_dir : str := batch_dir (L "/tmp") (L "now").
Definition two_jobs : list event :=
  [MkBatch two_dir; BatchPre two_dir] ++
  flat_map (fun p => [MkDir (fst p) (subdir two_dir (fst p)); WriteInput (fst p) (input_file two_dir (fst p)) (snd p);
                      FilePre (fst p) (subdir two_dir (fst p)); Start (fst p) (command_line (L "mcnp6") two_dir (fst p))])
           [(0, L "a"); (1, L "b")] ++
  [Finish 1; Finish 0; FilePost 0 (subdir two_dir 0); FilePost 1 (subdir two_dir 1); BatchPost two_dir].

Lemma two_jobs_run : reach (fst (run (L "mcnp6") (L "/tmp") (L "now") false [Ok (L "a"); Ok (L "b")])) ([], two_jobs).
Proof.
  set (p := fst (run _ _ _ _ _)).
  assert (H : forall n, n <= 10 -> reach p (skipn n p, firstn n two_jobs)).
  { induction n as [|n IH]; intros Hn; [constructor|]. eapply reach_step; [apply IH; lia|].
    do 10 (destruct n as [|n]; [vm_compute; apply step_do|]). lia. }
  specialize (H 10 (le_n 10)).
  assert (H1 : reach p (skipn 10 p, firstn 11 two_jobs)).
  { eapply reach_step; [exact H|]. change (firstn 11 two_jobs) with (firstn 10 two_jobs ++ [Finish 1]).
    apply (step_end 1 (command_line (L "mcnp6") two_dir 1)); vm_compute; [tauto|intuition discriminate]. }
  assert (H2 : reach p (skipn 10 p, firstn 12 two_jobs)).
  { eapply reach_step; [exact H1|]. change (firstn 12 two_jobs) with (firstn 11 two_jobs ++ [Finish 0]).
    apply (step_end 0 (command_line (L "mcnp6") two_dir 0)); vm_compute; [tauto|intuition discriminate]. }
  assert (H3 : reach p (skipn 11 p, firstn 12 two_jobs)) by (eapply reach_step; [exact H2|]; apply (step_wait 0); vm_compute; tauto).
  assert (H4 : reach p (skipn 12 p, firstn 13 two_jobs)) by (eapply reach_step; [exact H3|]; apply (step_do (FilePost 0 (subdir two_dir 0)))).
  assert (H5 : reach p (skipn 13 p, firstn 13 two_jobs)) by (eapply reach_step; [exact H4|]; apply (step_wait 1); vm_compute; tauto).
  assert (H6 : reach p (skipn 14 p, firstn 14 two_jobs)) by (eapply reach_step; [exact H5|]; apply (step_do (FilePost 1 (subdir two_dir 1)))).
  eapply reach_step; [exact H6|]. apply (step_do (BatchPost two_dir)).
Qed.

Lemma launch_bad command dir inps r : In r inps -> is_ok r = false -> forall k, is_ok (snd (launch command dir k inps)) = false.
Proof.
  induction inps as [|x inps IH]; [intros []|]. intros Hi Hr k. cbn [launch]. destruct x as [text|e|e]; auto.
  destruct Hi as [<-|Hi]; [discriminate|]. specialize (IH Hi Hr (S k)). destruct (launch command dir (S k) inps). exact IH.
Qed.

Lemma failed_batch command path stamp inps r rest t : In r inps -> is_ok r = false ->
  reach (fst (run command path stamp false inps)) (rest, t) ->
  is_ok (snd (run command path stamp false inps)) = false /\
  forall e, In e t -> match e with FilePost _ _ | BatchPost _ => False | _ => True end.
Proof.
  intros Hi Hr R. destruct (run_shape command path stamp inps) as (tail & Ep & [(HL & _)|(-> & HO)]).
  { pose proof (launch_bad command (batch_dir path stamp) inps r Hi Hr 0) as E. rewrite HL in E. discriminate. }
  split; [exact HO|]. intros e He. destruct (runs_reach _ (p_no_finish command path stamp inps) _ R) as [d Ed _ F _ _]. cbn [fst snd] in *.
  assert (NF : forall i, e <> Finish i -> True) by auto.
  destruct e; auto.
  - pose proof (F _ He eq_refl) as H. assert (HP : In (Do (FilePost i dir)) (fst (run command path stamp false inps))) by (rewrite Ed; apply in_or_app; now left).
    rewrite Ep, app_nil_r in HP. apply in_app_or in HP. destruct HP as [[HP|[HP|[]]]|HP]; try discriminate. apply job_kind in HP. exact HP.
  - pose proof (F _ He eq_refl) as H. assert (HP : In (Do (BatchPost dir)) (fst (run command path stamp false inps))) by (rewrite Ed; apply in_or_app; now left).
    rewrite Ep, app_nil_r in HP. apply in_app_or in HP. destruct HP as [[HP|[HP|[]]]|HP]; try discriminate. apply job_kind in HP. exact HP.
Qed.

Lemma abandoned : exists t, reach (fst (run (L "mcnp6") (L "/tmp") (L "now") false [Ok (L "a"); Lib InpError])) ([], t) /\
  (exists c, In (Start 0 c) t) /\ ~ In (Finish 0) t.
Proof.
  set (p := fst (run _ _ _ _ _)).
  assert (H : forall n, n <= 7 -> reach p (skipn n p, map (fun a => match a with Do e => e | Wait i => Finish i end) (firstn n p))).
  { induction n as [|n IH]; intros Hn; [constructor|]. eapply reach_step; [apply IH; lia|].
    do 7 (destruct n as [|n]; [vm_compute; apply step_do|]). lia. }
  eexists. split; [exact (H 7 (le_n 7))|]. split; [exists (command_line (L "mcnp6") two_dir 0); vm_compute; tauto|vm_compute; intuition discriminate].
Qed.
