(** The commands. *)

From Coq Require Import Ascii String NArith ZArith Bool Arith List Lia.
From Verif Require Import PyStr Regex RegexParse PyNum Types CardText Cards Tables InpFile Cli CliFacts CardsFacts2 Numbered NumberedSpec NumberedFacts RegexFacts RegexLang OutpTables Outp OutpFacts OutpFacts2 OutpFacts5.
From Verif Require Import Problem Commands CommandsSpec.
Import ListNotations.

(** * What reading a problem raises *)

Lemma first_of_lib {A} (l : list (str -> result A)) s e : first_of l s = Lib e -> e = TypesError.
Proof. induction l as [|r l IH]; cbn [first_of]; [now intros [= <-]|]. destruct (r s); auto; discriminate. Qed.
Lemma mapM_lib {A B} (f : A -> result B) l e : mapM f l = Lib e -> exists x, In x l /\ f x = Lib e.
Proof.
  induction l as [|a l IH]; cbn [mapM]; [discriminate|]. destruct (f a) as [y|x|x] eqn:E; cbn [bind]; [|intros [= ->]; exists a; split; [now left|exact E]|discriminate].
  destruct (mapM f l) as [ys|x|x] eqn:M; cbn [bind]; [discriminate| |discriminate]. intros [= ->]. destruct IH as (z & HZ & EZ); [reflexivity|].
  exists z. split; [now right|exact EZ].
Qed.
Lemma mapM_py {A B} (f : A -> result B) l e : mapM f l = Py e -> exists x, In x l /\ f x = Py e.
Proof.
  induction l as [|a l IH]; cbn [mapM]; [discriminate|]. destruct (f a) as [y|x|x] eqn:E; cbn [bind]; [|discriminate|intros [= ->]; exists a; split; [now left|exact E]].
  destruct (mapM f l) as [ys|x|x] eqn:M; cbn [bind]; [discriminate|discriminate|]. intros [= ->]. destruct IH as (z & HZ & EZ); [reflexivity|].
  exists z. split; [now right|exact EZ].
Qed.
Lemma mapM_all {A B} (f : A -> result B) l ys : mapM f l = Ok ys -> forall y, In y ys -> exists x, In x l /\ f x = Ok y.
Proof.
  revert ys. induction l as [|a l IH]; cbn [mapM]; intros ys; [intros [= <-] y []|]. destruct (f a) as [z|x|x] eqn:E; cbn [bind]; [|discriminate|discriminate].
  destruct (mapM f l) as [zs|x|x] eqn:M; cbn [bind]; [|discriminate|discriminate]. intros [= <-] y [<-|HY]; [exists a; split; [now left|exact E]|].
  destruct (IH zs eq_refl y HY) as (x & HX & EX). exists x. split; [now right|exact EX].
Qed.

Section Read.
  Variables (rc rs rd : str -> result remarked).
  Hypotheses (Hc : forall s e, rc s = Lib e -> e = TypesError) (Hs : forall s e, rs s = Lib e -> e = TypesError) (Hd : forall s e, rd s = Lib e -> e = TypesError).
  Lemma inp_lib s e : inp_from_mcnp rc rs rd s = Lib e -> e = InpError \/ e = TypesError.
  Proof.
    unfold inp_from_mcnp. destruct (cut_blocks (inp_preprocess s)) as [b|]; [|intros [= <-]; now left].
    destruct (mapM rc (b_cells b)) as [cs|x|x] eqn:E1; cbn [bind]; [|intros [= ->]; destruct (mapM_lib _ _ _ E1) as (z & _ & Z); right; exact (Hc _ _ Z)|discriminate].
    destruct (mapM rs (b_surfaces b)) as [ss|x|x] eqn:E2; cbn [bind]; [|intros [= ->]; destruct (mapM_lib _ _ _ E2) as (z & _ & Z); right; exact (Hs _ _ Z)|discriminate].
    destruct (mapM rd (b_data b)) as [ds|x|x] eqn:E3; cbn [bind]; [|intros [= ->]; destruct (mapM_lib _ _ _ E3) as (z & _ & Z); right; exact (Hd _ _ Z)|discriminate].
    unfold inp_new. destruct (negb _); [intros [= <-]; now left|]. destruct (forallb _ _); [intros [= <-]; now left|discriminate].
  Qed.
  (** The cards are what the readers gave. *)
  Lemma inp_cards s x : inp_from_mcnp rc rs rd s = Ok x -> forall c, In c (i_cells x ++ i_surfaces x ++ i_data x) -> exists t, rc t = Ok c \/ rs t = Ok c \/ rd t = Ok c.
  Proof.
    unfold inp_from_mcnp. destruct (cut_blocks (inp_preprocess s)) as [b|]; [|discriminate].
    destruct (mapM rc (b_cells b)) as [cs|y|y] eqn:E1; cbn [bind]; [|discriminate|discriminate].
    destruct (mapM rs (b_surfaces b)) as [ss|y|y] eqn:E2; cbn [bind]; [|discriminate|discriminate].
    destruct (mapM rd (b_data b)) as [ds|y|y] eqn:E3; cbn [bind]; [|discriminate|discriminate].
    unfold inp_new. destruct (negb _); [discriminate|]. destruct (forallb _ _); [discriminate|]. intros [= <-]. cbn [i_cells i_surfaces i_data].
    intros c HC. apply in_app_or in HC as [HC|HC]; [|apply in_app_or in HC as [HC|HC]].
    - destruct (mapM_all _ _ _ E1 c HC) as (t & _ & T). exists t. auto.
    - destruct (mapM_all _ _ _ E2 c HC) as (t & _ & T). exists t. auto.
    - destruct (mapM_all _ _ _ E3 c HC) as (t & _ & T). exists t. auto.
  Qed.
  (** An error of Python is that of a card. *)
  Lemma inp_py s e : inp_from_mcnp rc rs rd s = Py e -> exists t, rc t = Py e \/ rs t = Py e \/ rd t = Py e.
  Proof.
    unfold inp_from_mcnp. destruct (cut_blocks (inp_preprocess s)) as [b|]; [|discriminate].
    destruct (mapM rc (b_cells b)) as [cs|y|y] eqn:E1; cbn [bind]; [|discriminate|intros [= ->]; destruct (mapM_py _ _ _ E1) as (t & _ & T); exists t; auto].
    destruct (mapM rs (b_surfaces b)) as [ss|y|y] eqn:E2; cbn [bind]; [|discriminate|intros [= ->]; destruct (mapM_py _ _ _ E2) as (t & _ & T); exists t; auto].
    destruct (mapM rd (b_data b)) as [ds|y|y] eqn:E3; cbn [bind]; [|discriminate|intros [= ->]; destruct (mapM_py _ _ _ E3) as (t & _ & T); exists t; auto].
    unfold inp_new. destruct (negb _); [discriminate|]. destruct (forallb _ _); discriminate.
  Qed.
End Read.

Lemma read_inp_lib s e : read_inp s = Lib e -> e = InpError \/ e = TypesError.
Proof.
  exact (inp_lib read_cell_card read_surface_card read_data_card (fun t => first_of_lib [cell_from_mcnp; like_from_mcnp; comment_from_mcnp] t)
    (fun t => first_of_lib [surface_from_mcnp; comment_from_mcnp] t) (fun t => first_of_lib (map read_entry data_entries) t) s e).
Qed.

Lemma read_inp_py s e : read_inp s = Py e -> exists t, read_cell_card t = Py e \/ read_surface_card t = Py e \/ read_data_card t = Py e.
Proof. exact (inp_py read_cell_card read_surface_card read_data_card s e). Qed.

(** * What was read can be written *)

Definition writes (c : remarked) : Prop := exists t, card_text (fst c) = Ok t.
Lemma first_of_ok {A} (P : A -> Prop) (l : list (str -> result A)) s x : Forall (fun r => forall t y, r t = Ok y -> P y) l -> first_of l s = Ok x -> P x.
Proof. induction 1 as [|r l H F IH]; cbn [first_of]; [discriminate|]. destruct (r s) as [y|y|y] eqn:E; [intros [= <-]; exact (H s y E)|exact IH|discriminate]. Qed.
Lemma bind_ok {A B} (r : result A) (f : A -> result B) y : bind r f = Ok y -> exists x, r = Ok x /\ f x = Ok y.
Proof. destruct r; cbn [bind]; [eauto|discriminate|discriminate]. Qed.
Lemma cell_writes t c : cell_from_mcnp t = Ok c -> writes c.
Proof.
  unfold cell_from_mcnp. destruct (card_preprocess t) as [u cm]. destruct (re_match re_cell u) as [o|]; [|discriminate]. intros H.
  apply bind_ok in H as (n & _ & H). apply bind_ok in H as (m & _ & H). apply bind_ok in H as (d & _ & H). apply bind_ok in H as (g & G & H).
  apply bind_ok in H as (p & _ & H). apply bind_ok in H as (x & X & H). injection H as <-. unfold writes. cbn [fst card_text].
  destruct (cell_new _ _) as [n' r] eqn:E in X. cbn [snd] in X. subst r. apply plain_written. eapply plain_made; [exact E|]. cbn [ca_geometry].
  destruct (truthy (group 4 o)); [|injection G as <-; reflexivity]. apply bind_ok in G as (z & _ & G). injection G as <-. reflexivity.
Qed.
Lemma comment_writes t c : comment_from_mcnp t = Ok c -> writes c.
Proof. unfold comment_from_mcnp. intros H. apply bind_ok in H as (x & _ & H). injection H as <-. eexists. reflexivity. Qed.
Lemma like_writes t c : like_from_mcnp t = Ok c -> writes c.
Proof. unfold like_from_mcnp. intros H. apply bind_ok in H as (x & _ & H). injection H as <-. eexists. reflexivity. Qed.
Lemma surface_writes t c : surface_from_mcnp t = Ok c -> writes c.
Proof.
  unfold surface_from_mcnp. destruct (card_preprocess t) as [u cm]. destruct (re_match re_surface u) as [o|]; [|discriminate]. intros H.
  apply bind_ok in H as (n & _ & H). apply bind_ok in H as (m & _ & H). apply bind_ok in H as (d & _ & H). apply bind_ok in H as (g & G & H).
  apply bind_ok in H as (x & X & H). injection H as <-. eexists. reflexivity.
Qed.
Lemma entry_writes e t c : read_entry e t = Ok c -> writes c.
Proof. destruct e; cbn [read_entry]; [|exact (comment_writes t c)]. intros H. apply bind_ok in H as (x & _ & H). injection H as <-. eexists. reflexivity. Qed.
Lemma entries_write l : Forall (fun r : str -> result remarked => forall t y, r t = Ok y -> writes y) (map read_entry l).
Proof. induction l as [|e l IH]; cbn [map]; constructor; [exact (entry_writes e)|exact IH]. Qed.
Lemma union_writes l t c : first_of (map read_entry l) t = Ok c -> writes c.
Proof. exact (first_of_ok writes (map read_entry l) t c (entries_write l)). Qed.
Lemma data_writes t c : read_data_card t = Ok c -> writes c.
Proof. exact (union_writes data_entries t c). Qed.
Lemma cards_write l : (forall c, In c l -> writes c) -> exists ts, card_texts l = Ok ts.
Proof.
  unfold card_texts. induction l as [|c l IH]; intros H; [exists []; reflexivity|]. cbn [mapM]. destruct (H c (or_introl eq_refl)) as (t & ->). cbn [bind].
  destruct IH as (ts & ->); [intros d HD; apply H; now right|]. eexists. reflexivity.
Qed.
Lemma cell_card_writes t c : read_cell_card t = Ok c -> writes c.
Proof.
  apply (first_of_ok writes [cell_from_mcnp; like_from_mcnp; comment_from_mcnp] t c).
  constructor; [exact cell_writes|]. constructor; [exact like_writes|]. constructor; [exact comment_writes|constructor].
Qed.
Lemma surface_card_writes t c : read_surface_card t = Ok c -> writes c.
Proof.
  apply (first_of_ok writes [surface_from_mcnp; comment_from_mcnp] t c).
  constructor; [exact surface_writes|]. constructor; [exact comment_writes|constructor].
Qed.
Lemma inp_writes rc rs rd s x : (forall t c, rc t = Ok c -> writes c) -> (forall t c, rs t = Ok c -> writes c) -> (forall t c, rd t = Ok c -> writes c) ->
  inp_from_mcnp rc rs rd s = Ok x -> exists t, inp_to_mcnp x = Ok t.
Proof.
  intros Hc Hs Hd H. assert (HW : forall c, In c (i_cells x ++ i_surfaces x ++ i_data x) -> writes c).
  { intros c HC. destruct (inp_cards _ _ _ s x H c HC) as (t & [T|[T|T]]); [exact (Hc t c T)|exact (Hs t c T)|exact (Hd t c T)]. }
  unfold inp_to_mcnp. destruct (cards_write (i_cells x)) as (c & ->); [intros; apply HW, in_or_app; now left|]. cbn [bind].
  destruct (cards_write (i_surfaces x)) as (d & ->); [intros; apply HW, in_or_app; right; apply in_or_app; now left|]. cbn [bind].
  destruct (cards_write (i_data x)) as (e & ->); [intros; apply HW, in_or_app; right; apply in_or_app; now right|]. cbn [bind]. eexists. reflexivity.
Qed.
Theorem read_written s x : read_inp s = Ok x -> exists t, inp_to_mcnp x = Ok t.
Proof. exact (inp_writes read_cell_card read_surface_card read_data_card s x cell_card_writes surface_card_writes data_writes). Qed.

(** * check *)

Lemma check_file_cases file : ~ breaks file -> (problem file /\ check_file file = Ok tt) \/
  (~ problem file /\ exists e, check_file file = Lib e /\ (e = InpError \/ e = CliError \/ e = TypesError)).
Proof.
  intros NB. destruct file as [s|].
  - cbn [check_file]. destruct (read_inp s) as [x|e|e] eqn:E; cbn [bind].
    + left. split; [exists s, x; auto|]. destruct (read_written s x E) as (t & ->). reflexivity.
    + right. split; [intros (s' & x & [= <-] & E'); congruence|]. exists e. split; [reflexivity|]. destruct (read_inp_lib s e E); auto.
    + exfalso. apply NB. exists s, e. auto.
  - right. split; [intros (s' & x & E & _); discriminate E|]. exists CliError. split; [reflexivity|auto].
Qed.
Theorem check_proper pytest file : ~ breaks file -> fst (check_main pytest false file) = [file] /\ proper (problem file) (snd (check_main pytest false file)).
Proof.
  intros NB. unfold check_main. destruct (check_file_cases file NB) as [[P ->]|(P & e & -> & E)].
  - split; [reflexivity|]. left. split; [exact P|reflexivity].
  - split; [reflexivity|]. right. split; [exact P|]. exists e. destruct E as [->|[->| ->]]; reflexivity.
Qed.
Lemma prefixes_end u : exists l, prefixes u = l ++ [u].
Proof.
  induction u as [|c u (l & E)]; [exists []; reflexivity|]. exists ([] :: map (cons c) l). cbn [prefixes]. rewrite E, map_app. reflexivity.
Qed.
Lemma write_end f t d : last (f :: write_text t) d = Some t.
Proof. unfold write_text. destruct (prefixes_end t) as (l & ->). rewrite map_app. exact (last_last (f :: map Some l) (Some t) d). Qed.
Theorem check_fix file : ~ breaks file -> proper (problem file) (snd (check_main false true file)) /\
  forall s x t, file = Some s -> read_inp s = Ok x -> inp_to_mcnp x = Ok t -> last (fst (check_main false true file)) None = Some t.
Proof.
  intros NB. unfold check_main. destruct (check_file_cases file NB) as [[P ->]|(P & e & -> & E)].
  - destruct P as (s & x & -> & R). destruct (read_written s x R) as (t & T). unfold fix_file. cbn [from_file]. rewrite R. unfold to_file. rewrite T.
    split; [left; split; [exists s, x; auto|reflexivity]|]. intros s' x' t' [= <-] R' T'. rewrite R in R'. injection R' as <-. rewrite T in T'. injection T' as <-.
    cbn [fst]. apply write_end.
  - split; [right; split; [exact P|]; exists e; destruct E as [->|[->| ->]]; reflexivity|].
    intros s x t -> R T. exfalso. apply P. exists s, x. auto.
Qed.

(** * run *)

Lemma files_read files : Forall problem files -> exists l, mapM (from_file read_inp) files = Ok l /\ Forall2 (fun f x => exists s, f = Some s /\ read_inp s = Ok x) files l.
Proof.
  induction 1 as [|f l (s & x & -> & R) F (ys & E & F2)]; [exists []; split; [reflexivity|constructor]|]. cbn [mapM from_file]. rewrite R, E. cbn [bind].
  eexists. split; [reflexivity|]. constructor; [exists s; auto|exact F2].
Qed.
Lemma inps_write files l : Forall2 (fun f x => exists s, f = Some s /\ read_inp s = Ok x) files l -> exists ts, map inp_to_mcnp l = map Ok ts /\ length ts = length files.
Proof.
  induction 1 as [|f x fs xs (s & -> & R) F (ts & E & N)]; [exists []; split; reflexivity|]. destruct (read_written s x R) as (t & T).
  exists (t :: ts). cbn [map length]. rewrite T, E, N. split; reflexivity.
Qed.
Theorem run_not_found cmd path stamp taken files : Forall problem files ->
  run_main false cmd path stamp taken files = ([], ([Disclaimer; Failure CliError; Done], Exit 0)).
Proof. intros F. destruct (files_read files F) as (l & E & _). unfold run_main. rewrite E. reflexivity. Qed.
Theorem run_taken cmd path stamp files : Forall problem files ->
  run_main true cmd path stamp true files = ([], ([Disclaimer], Uncaught (inr FileExistsError))).
Proof. intros F. destruct (files_read files F) as (l & E & _). unfold run_main. rewrite E. reflexivity. Qed.
Lemma launch_all command dir ts : forall k, snd (launch command dir k (map Ok ts)) = Ok tt.
Proof. induction ts as [|t ts IH]; intros k; [reflexivity|]. cbn [map launch]. specialize (IH (S k)). destruct (launch command dir (S k) (map Ok ts)) as [a r]. exact IH. Qed.
Definition problemb (f : option str) : bool := match f with Some s => match read_inp s with Ok _ => true | _ => false end | None => false end.
Lemma problem_dec f : {problem f} + {~ problem f}.
Proof.
  destruct f as [s|]; [|right; intros (s & x & E & _); discriminate E].
  destruct (read_inp s) as [x|e|e] eqn:E; [left; exists s, x; auto|right|right]; intros (s' & x & [= <-] & E'); congruence.
Qed.
Theorem run_proper cmd path stamp files : Forall (fun f => ~ breaks f) files ->
  proper (Forall problem files) (snd (run_main true cmd path stamp false files)) /\
  (forall inps, Forall2 (fun f x => exists s, f = Some s /\ read_inp s = Ok x) files inps ->
     fst (run_main true cmd path stamp false files) = fst (run cmd path stamp false (map inp_to_mcnp inps))) /\
  (~ Forall problem files -> fst (run_main true cmd path stamp false files) = []).
Proof.
  intros NB. destruct (Forall_dec problem problem_dec files) as [F|F].
  - destruct (files_read files F) as (l & E & F2). destruct (inps_write files l F2) as (ts & ET & _). unfold run_main. rewrite E. cbn [run_new].
    destruct (run cmd path stamp false (map inp_to_mcnp l)) as [acts r] eqn:ER.
    assert (R : exists d, r = Ok d).
    { rewrite ET in ER. unfold run in ER. pose proof (launch_all cmd (slash path (L "pymcnp-" ++ stamp)) ts 0) as LA.
      destruct (launch cmd (slash path (L "pymcnp-" ++ stamp)) 0 (map Ok ts)) as [a q]. cbn [snd] in LA. subst q. injection ER as _ <-. eauto. }
    destruct R as (d & ->). split; [left; split; [exact F|reflexivity]|]. split; [|intros X; contradiction].
    intros inps F2'. assert (l = inps).
    { clear - F2 F2'. revert inps F2'. induction F2 as [|f x fs xs (s & -> & R) F IH]; intros inps F'; inversion F' as [|? y ? ys (s' & ES & R') F'']; subst; [reflexivity|].
      injection ES as <-. rewrite R in R'. injection R' as <-. f_equal. exact (IH _ F''). }
    subst inps. rewrite ER. reflexivity.
  - assert (X : exists e, mapM (from_file read_inp) files = Lib e /\ (e = InpError \/ e = CliError \/ e = TypesError)).
    { clear - NB F. induction files as [|f l IH]; [exfalso; apply F; constructor|]. inversion NB as [|? ? NB1 NB2]; subst. cbn [mapM].
      destruct f as [s|]; cbn [from_file]; [|exists CliError; auto].
      destruct (read_inp s) as [x|e|e] eqn:E; cbn [bind].
      - destruct IH as (e & -> & HE); [exact NB2|intros FL; apply F; constructor; [exists s, x; auto|exact FL]|]. exists e. auto.
      - exists e. split; [reflexivity|]. destruct (read_inp_lib s e E); auto.
      - exfalso. apply NB1. exists s, e. auto. }
    destruct X as (e & E & HE). unfold run_main. rewrite E. split; [right; split; [exact F|]; exists e; destruct HE as [->|[->| ->]]; reflexivity|].
    split; [|reflexivity]. intros inps F2. exfalso. apply F. clear - F2. induction F2 as [|f x fs xs (s & -> & R) F2 IH]; constructor; [exists s, x; auto|exact IH].
Qed.

(** * convert and plot *)

Lemma frame_of_in k d : NoDup (map fst d) -> forall b, frame_of k d = Some b <-> In (k, b) d.
Proof.
  induction d as [|[k' b'] d IH]; cbn [frame_of map fst]; intros ND b; [split; [discriminate|intros []]|]. inversion ND as [|? ? N1 N2]; subst.
  destruct (seqb k' k) eqn:E.
  - apply seqb_eq in E. subst k'. split; [intros [= <-]; now left|]. intros [[= ->]|HI]; [reflexivity|]. exfalso. apply N1. change k with (fst (k, b)). now apply in_map.
  - rewrite (IH N2). split; [intros H; now right|]. intros [[= -> ->]|HI]; [|exact HI]. exfalso. assert (seqb k k = true) by now apply seqb_eq. congruence.
Qed.
Lemma frames_nodup x : NoDup (map fst (frames x)).
Proof. destruct (frames_in block block_number (o_blocks x) [] (NoDup_nil _)) as [N _]. exact N. Qed.
Lemma frame_tally x k b : frame_of k (frames x) = Some b <-> tally_of x k b.
Proof. rewrite (frame_of_in k _ (frames_nodup x)). apply (dataframe_last (list str) block block_number). Qed.
Lemma frame_none x k : frame_of k (frames x) = None <-> no_tally x k.
Proof.
  split.
  - intros E. unfold no_tally. assert (H : forall l2 l1, o_blocks x = l1 ++ l2 -> Forall (fun c => block_number c <> Some k) l2).
    { induction l2 as [|b l2 IH]; intros l1 EB; [constructor|]. assert (F : Forall (fun c => block_number c <> Some k) l2) by (apply (IH (l1 ++ [b])); rewrite <- app_assoc; exact EB).
      constructor; [|exact F]. intros EK. assert (T : tally_of x k b) by (exists l1, l2; auto). apply frame_tally in T. congruence. }
    exact (H (o_blocks x) [] eq_refl).
  - intros F. destruct (frame_of k (frames x)) as [b|] eqn:E; [|reflexivity]. exfalso. apply frame_tally in E as (l1 & l2 & EB & EK & _).
    unfold no_tally in F. rewrite EB in F. apply Forall_app in F as [_ F]. inversion F; subst. contradiction.
Qed.
Lemma header_lib s : table_from_mcnp t_Header s = Lib OutpError \/ exists v, table_from_mcnp t_Header s = Ok v.
Proof.
  destruct (plan [10] t_Header) as [pl|] eqn:P; [|vm_compute in P; discriminate].
  assert (C : compile false (t_pat t_Header) = whole (body t_Header)) by (apply compiled; cbn [In]; tauto).
  destruct (table_lib [10] t_Header pl s C P) as [E|(v & E & _)]; [now left|right; now exists v].
Qed.
Lemma read_outp_cases s : read_outp s = Lib OutpError \/ exists x, read_outp s = Ok x.
Proof.
  unfold read_outp, outp_from_mcnp. destruct (split_header s) as [h t]. destruct (header_lib (match t with Some _ => h ++ [nl] | None => h end)) as [->|(v & ->)]; [now left|].
  right. eexists. reflexivity.
Qed.
Lemma outp_cases file : (outp_file_of file = Lib OutpError \/ outp_file_of file = Lib CliError) \/ exists s x, file = Some s /\ read_outp s = Ok x /\ outp_file_of file = Ok x.
Proof.
  destruct file as [s|]; [|left; now right]. unfold outp_file_of. cbn [from_file]. destruct (read_outp_cases s) as [->|(x & E)]; [left; now left|].
  right. exists s, x. auto.
Qed.
Lemma outfile_dot name ext i : In "."%char name -> exists p, get_outfile name ext i = Ok p.
Proof.
  intros H. unfold get_outfile. destruct (rsplit1 "." name) as [[a b]|] eqn:E; [eexists; reflexivity|]. exfalso. revert E.
  induction name as [|c name IH]; [destruct H|]. cbn [rsplit1]. destruct H as [->|H].
  - destruct (rsplit1 "." name) as [[a b]|]; [discriminate|]. change (ceqb "."%char "."%char) with true. discriminate.
  - destruct (rsplit1 "." name) as [[a b]|]; [discriminate|]. exfalso. now apply (IH H).
Qed.
Lemma outfile_no_dot name ext i : ~ In "."%char name -> get_outfile name ext i = Py ValueError.
Proof.
  intros H. unfold get_outfile. destruct (rsplit1 "." name) as [[a b]|] eqn:E; [|reflexivity]. apply rsplit1_some in E as [-> _]. exfalso. apply H, in_or_app. right. now left.
Qed.

Theorem convert_no_tally table name s x number old : read_outp s = Ok x -> In "."%char name -> no_tally x number ->
  convert_main table name (Some s) number old = ([old; Some []], ([Disclaimer], Uncaught (inr KeyError))).
Proof.
  intros R D N. unfold convert_main, outp_file_of. cbn [from_file]. rewrite R. unfold convert_csv_file. destruct (outfile_dot name (L "csv") (Some number) D) as (p & ->).
  unfold to_table. apply frame_none in N. rewrite N. reflexivity.
Qed.
Theorem convert_no_dot table name s x number old : read_outp s = Ok x -> ~ In "."%char name ->
  convert_main table name (Some s) number old = ([old], ([Disclaimer], Uncaught (inr ValueError))).
Proof.
  intros R D. unfold convert_main, outp_file_of. cbn [from_file]. rewrite R. unfold convert_csv_file. rewrite (outfile_no_dot name _ _ D). reflexivity.
Qed.
Theorem convert_proper table name file number old : In "."%char name ->
  (forall s x, file = Some s -> read_outp s = Ok x -> ~ no_tally x number) ->
  proper (exists s x b, file = Some s /\ read_outp s = Ok x /\ tally_of x number b) (snd (convert_main table name file number old)) /\
  (forall s x b, file = Some s -> read_outp s = Ok x -> tally_of x number b -> last (fst (convert_main table name file number old)) None = Some (table b)) /\
  ((forall s x, file = Some s -> read_outp s <> Ok x) -> fst (convert_main table name file number old) = [old]).
Proof.
  intros D HT. unfold convert_main. destruct (outp_cases file) as [H|(s & x & -> & R & ->)].
  - assert (N : ~ exists s x, file = Some s /\ read_outp s = Ok x).
    { intros (s & x & -> & R). unfold outp_file_of in H. cbn [from_file] in H. rewrite R in H. destruct H; discriminate. }
    split; [|split].
    + right. split; [intros (s & x & b & E & R & _); apply N; exists s, x; auto|]. destruct H as [->| ->]; [exists OutpError|exists CliError]; reflexivity.
    + intros s x b E R _. exfalso. apply N. exists s, x. auto.
    + intros _. destruct H as [->| ->]; reflexivity.
  - unfold convert_csv_file. destruct (outfile_dot name (L "csv") (Some number) D) as (p & ->). unfold to_table.
    destruct (frame_of number (frames x)) as [b|] eqn:E.
    + pose proof (proj1 (frame_tally x number b) E) as T. split; [left; split; [exists s, x, b; auto|reflexivity]|]. split.
      * intros s' x' b' [= <-] R' T'. rewrite R in R'. injection R' as <-. apply frame_tally in T'. rewrite E in T'. injection T' as <-. cbn [fst]. apply write_end.
      * intros H. exfalso. exact (H s x eq_refl R).
    + exfalso. apply (HT s x eq_refl R). now apply frame_none.
Qed.
Theorem plot_proper pdf name file number : (pdf = true -> In "."%char name) ->
  proper (exists s x b, file = Some s /\ read_outp s = Ok x /\ tally_of x number b) (plot_main pdf name file number).
Proof.
  intros D. unfold plot_main. destruct (outp_cases file) as [H|(s & x & -> & R & ->)].
  - right. split.
    + intros (s & x & b & -> & R & _). unfold outp_file_of in H. cbn [from_file] in H. rewrite R in H. destruct H; discriminate.
    + destruct H as [->| ->]; [exists OutpError|exists CliError]; reflexivity.
  - cbn [bind]. assert (P : exists p, (if pdf then plot_pdf_file name number else Ok []) = Ok p).
    { destruct pdf; [apply outfile_dot; auto|eexists; reflexivity]. }
    destruct P as (p & ->). cbn [bind]. unfold to_show_tally. destruct (frame_of number (frames x)) as [b|] eqn:E.
    + left. split; [|reflexivity]. exists s, x, b. split; [reflexivity|]. split; [exact R|]. now apply frame_tally.
    + right. split; [|exists CliError; reflexivity]. intros (s' & x' & b & [= <-] & R' & T). rewrite R in R'. injection R' as <-. apply frame_tally in T. congruence.
Qed.

(** * The filter *)

Theorem filter_picks {A} (check : A -> result bool) l : (forall x, In x l -> exists b, check x = Ok b) ->
  snd (mesh_filter check l) = Ok tt /\ picked (fun x => check x = Ok true) l (fst (mesh_filter check l)).
Proof.
  induction l as [|a l IH]; intros H; [split; [reflexivity|constructor]|]. cbn [mesh_filter]. destruct (H a (or_introl eq_refl)) as (b & E). rewrite E.
  destruct IH as [I1 I2]; [intros x HX; apply H; now right|]. destruct (mesh_filter check l) as [out r]. cbn [fst snd] in *.
  split; [exact I1|]. destruct b; [apply picked_in; assumption|apply picked_out; [congruence|assumption]].
Qed.
Theorem filter_stops {A} (check : A -> result bool) l x l' e : (forall y, In y l -> exists b, check y = Ok b) -> check x = Py e ->
  snd (mesh_filter check (l ++ x :: l')) = Py e /\ picked (fun y => check y = Ok true) l (fst (mesh_filter check (l ++ x :: l'))).
Proof.
  intros H E. induction l as [|a l IH]; cbn [app mesh_filter]; [rewrite E; split; [reflexivity|constructor]|].
  destruct (H a (or_introl eq_refl)) as (b & EA). rewrite EA. destruct IH as [I1 I2]; [intros y HY; apply H; now right|].
  destruct (mesh_filter check (l ++ x :: l')) as [out r]. cbn [fst snd] in *. split; [exact I1|].
  destruct b; [apply picked_in; assumption|apply picked_out; [congruence|assumption]].
Qed.
