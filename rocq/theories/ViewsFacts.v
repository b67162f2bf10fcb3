(** Lemmas about what the command that draws a problem shows. *)

From Coq Require Import Ascii String NArith ZArith Bool List Lia.
From Verif Require Import PyStr PyNum PyNumFacts CardsFacts2 CardTextFacts CardTextFacts6 GeometryFacts4 CellFacts3 InpFacts10 TypesFacts2 Geometry GeometrySpec GeometryFacts5.
From Verif Require Import Visualize VisualizeSpec VisualizeFacts Cli CliFacts Commands CommandsSpec Views ViewsSpec.
Import ListNotations.

(** ** Numbers *)

Lemma int_digits_all d : digits d -> d <> [] -> int_digits d = Some d.
Proof.
  induction d as [|c d IH]; [congruence|]. intros HD _. inversion HD as [|x y Hc Hd]; subst.
  destruct d as [|c' d]; [cbn [int_digits]; now rewrite Hc|].
  assert (E : no_underscore (c' :: d) = c' :: d).
  { inversion Hd as [|? ? Hc' ?]; subst. destruct c' as [[] [] [] [] [] [] [] []]; try reflexivity; discriminate Hc'. }
  change (int_digits (c :: c' :: d)) with (if is_digit c then match int_digits (no_underscore (c' :: d)) with Some e => Some (c :: e) | None => None end else None).
  rewrite Hc, E, IH by (auto; discriminate). reflexivity.
Qed.
Lemma py_int_text z : py_int (str_of_Z z) = Ok z.
Proof.
  assert (HS : strip (str_of_Z z) = str_of_Z z).
  { destruct (number_word z) as [[HN HW] _]. pose proof (strip_ends (str_of_Z z) [] (conj HN HW) (Forall_nil _)) as Q. cbn in Q. now rewrite app_nil_r in Q. }
  unfold py_int. rewrite HS.
  assert (HP : forall n, int_digits (str_of_N n) = Some (str_of_N n)) by (intros n; apply int_digits_all; [apply str_of_N_digits|apply str_of_N_nonempty]).
  assert (HH : forall n, (match str_of_N n with "-" :: t => (true, t) | "+" :: t => (false, t) | t => (false, t) end)%char = (false, str_of_N n)).
  { intros n. pose proof (str_of_N_digits n) as D. destruct (str_of_N n) as [|c t]; [reflexivity|]. inversion D as [|? ? Hc ?]; subst.
    destruct c as [[] [] [] [] [] [] [] []]; try reflexivity; discriminate Hc. }
  destruct z as [|p|p]; cbn [str_of_Z].
  - reflexivity.
  - change (Z.to_N (Z.pos p)) with (N.pos p). rewrite HH, HP, N_of_str_of_N. reflexivity.
  - rewrite HP, N_of_str_of_N. reflexivity.
Qed.
Lemma number_no_comma z : ~ In ","%char (str_of_Z z).
Proof.
  intros I. pose proof (str_of_Z_numchars z) as H. discriminate (proj1 (Forall_forall _ _) H _ I).
Qed.
Lemma ints_numbers t ns : numbers t ns -> ints t = Ok ns.
Proof.
  intros [HN ->]. unfold ints. change (L ",") with [","%char].
  rewrite split_join; [|destruct ns; [congruence|discriminate]|apply Forall_forall; intros w I; apply in_map_iff in I as (z & <- & _); apply number_no_comma].
  clear HN. induction ns as [|z ns IH]; [reflexivity|]. cbn [map mapM]. rewrite py_int_text. cbn [bind]. rewrite IH. reflexivity.
Qed.
Lemma int_digits_none w : (forall c, In c w -> is_digit c = false) -> int_digits w = None.
Proof.
  destruct w as [|c [|d w]]; intros H; [reflexivity| |]; cbn [int_digits]; now rewrite (H c (or_introl eq_refl)).
Qed.
Lemma py_int_cases w : (exists z, py_int w = Ok z) \/ py_int w = Py ValueError.
Proof.
  unfold py_int. destruct (match strip w with "-" :: t => (true, t) | "+" :: t => (false, t) | t => (false, t) end)%char as [neg t].
  destruct (int_digits t); eauto.
Qed.
Lemma py_int_none w : (forall c, In c w -> is_digit c = false) -> py_int w = Py ValueError.
Proof.
  intros H. assert (HS : forall c, In c (strip w) -> is_digit c = false).
  { intros c I. apply H. destruct (strip_split w) as (a & b & E & _). rewrite E, !in_app_iff. auto. }
  unfold py_int. destruct (match strip w with "-" :: t => (true, t) | "+" :: t => (false, t) | t => (false, t) end)%char as [neg t] eqn:E.
  assert (HT : forall c, In c t -> is_digit c = false).
  { intros c I. apply HS. destruct (strip w) as [|x u]; [injection E as <- <-; exact I|].
    assert (G : t = u \/ t = x :: u) by (destruct x as [[] [] [] [] [] [] [] []]; injection E as <- <-; auto).
    destruct G as [->| ->]; [now right|exact I]. }
  now rewrite int_digits_none.
Qed.
Lemma ints_bad t w : In w (split_on "," t) -> (forall c, In c w -> is_digit c = false) -> ints t = Py ValueError.
Proof.
  unfold ints. intros I H. induction (split_on "," t) as [|v ws IH]; [destruct I|]. cbn [mapM]. destruct I as [->|I].
  - now rewrite py_int_none.
  - destruct (py_int_cases v) as [[z ->]| ->]; [|reflexivity]. cbn [bind]. now rewrite IH.
Qed.

Lemma skips_spec ns n : skips ns n = true <-> among ns n.
Proof.
  unfold skips, among. rewrite existsb_exists, in_map_iff. split; intros (z & A & B).
  - apply seqb_eq in B. eauto.
  - exists z. split; [exact B|]. apply seqb_eq. congruence.
Qed.
Lemma names_spec l n : names l n = true <-> In n l.
Proof.
  unfold names. rewrite existsb_exists. split; [intros (x & A & B); apply seqb_eq in B; now subst|]. intros I. exists n. split; [exact I|apply seqb_refl].
Qed.

Lemma picked_filter {A} (f : A -> bool) (F : A -> Prop) l : (forall x, f x = true <-> F x) -> picked F l (filter f l).
Proof.
  intros H. induction l as [|x l IH]; cbn [filter]; [constructor|]. destruct (f x) eqn:E.
  - apply picked_in; [now apply H|exact IH].
  - apply picked_out; [|exact IH]. intros G. apply H in G. congruence.
Qed.
Lemma picked_same {A} (F F' : A -> Prop) l l' : (forall x, F x <-> F' x) -> picked F l l' -> picked F' l l'.
Proof.
  intros H C. induction C as [|x a b N C IH|x a b N C IH]; [constructor|apply picked_in|apply picked_out]; auto; [now apply H|]. intros G. apply N. now apply H.
Qed.

Section Facts.
  Variable P : Type.
  Notation sh := (shape P).

  Lemma to_show_cells_ext S (C C' : str -> option sh) g : no_cell g = true -> to_show P S C g = to_show P S C' g.
  Proof.
    induction g as [l IH1 r IH2|l IH1 r IH2|op g IH|g IH|d]; intros HN; cbn [to_show no_cell] in *.
    - apply andb_prop in HN as [A B]. now rewrite IH1, IH2.
    - apply andb_prop in HN as [A B]. now rewrite IH1, IH2.
    - assert (N : no_cell g = true) by (destruct g; auto). rewrite IH by auto. destruct (ceqb op "+"); [reflexivity|]. destruct (ceqb op "-") eqn:E; [reflexivity|].
      destruct g; try reflexivity. cbn in HN. congruence.
    - auto.
    - auto.
  Qed.

  (** Which surfaces: those that are shown, as a dictionary. *)
  Lemma mapM_shown (f : str -> bool) (s : list (str * sh)) :
    mapM (fun x => bind (snd x) (fun g => Ok (fst x, g))) (filter (fun x => f (fst x)) (shown_all P s)) = Ok (filter (fun x => f (fst x)) s).
  Proof.
    unfold shown_all. induction s as [|[n g] s IH]; [reflexivity|]. cbn [map filter fst snd]. destruct (f n); [|exact IH].
    cbn [mapM fst snd bind]. rewrite IH. reflexivity.
  Qed.
  Lemma dict_shown s : dict_of P (shown_all P s) = Ok (surface_dict s).
  Proof.
    unfold dict_of. enough (E : mapM (fun x => bind (snd x) (fun g => Ok (fst x, g))) (shown_all P s) = Ok s) by (rewrite E; reflexivity).
    unfold shown_all. induction s as [|[n g] s IH]; [reflexivity|]. cbn [map mapM fst snd bind]. rewrite IH. reflexivity.
  Qed.

  Lemma draw_only_filter number d l : forall c out, draw d l c = (out, Ok tt) ->
    draw_only P number d l c = Ok (filter (fun x => names number (fst x)) out).
  Proof.
    induction l as [|[n g|n m|] l IH]; intros c out H; cbn [draw draw_only shape_of] in *.
    - injection H as <-. reflexivity.
    - destruct (to_show P (lookup_dict d) (lookup_dict c) g) as [f| |]; try discriminate. cbn [bind].
      destruct (draw d l ((n, f) :: c)) as [o r] eqn:E. injection H as <- ->. rewrite (IH _ _ E). reflexivity.
    - destruct (lookup_dict c m) as [f|]; try discriminate. cbn [bind].
      destruct (draw d l ((n, f) :: c)) as [o r] eqn:E. injection H as <- ->. rewrite (IH _ _ E). reflexivity.
    - now apply IH.
  Qed.
  (** The dictionary agrees outside of what is skipped. *)
  Definition agree (ns : list Z) (c c' : dict P) : Prop := forall k, ~ among ns k -> lookup_dict c' k = lookup_dict c k.
  Lemma agree_both ns n f c c' : agree ns c c' -> agree ns ((n, f) :: c) ((n, f) :: c').
  Proof. intros H k K. cbn [lookup_dict]. destruct (seqb k n); auto. Qed.
  Lemma agree_left ns n f c c' : among ns n -> agree ns c c' -> agree ns ((n, f) :: c) c'.
  Proof. intros A H k K. cbn [lookup_dict]. destruct (seqb k n) eqn:E; auto. apply seqb_eq in E. now subst. Qed.
  Fixpoint no_cells (l : list entry) : Prop :=
    match l with [] => True | ECell _ g :: l' => no_cell g = true /\ no_cells l' | _ :: l' => no_cells l' end.
  Lemma drawable_no_cells s l : forall b, drawable s l b -> no_cells l.
  Proof. induction l as [|[n g|n m|] l IH]; intros b H; cbn in *; [exact I|destruct H as (? & ? & ?)|destruct H|]; eauto. Qed.

  (** The loop that skips, over cells that can be drawn and what comes after them. *)
  Lemma draw_but_app ns d l k : no_cells l -> closed ns l -> forall c c' out, agree ns c c' -> (forall m, among ns m -> lookup_dict c' m = None) ->
    draw d l c = (out, Ok tt) ->
    exists c2', (forall m, among ns m -> lookup_dict c2' m = None) /\
      draw_but P ns d (l ++ k) c' = bind (draw_but P ns d k c2') (fun o => Ok (filter (fun x => negb (skips ns (fst x))) out ++ o)).
  Proof.
    assert (TL : forall e l, closed ns (e :: l) -> closed ns l) by (intros e l' H n m I; apply H; now right).
    induction l as [|[n g|n m|] l IH]; intros HN HC c c' out HA HM H; cbn [draw app draw_but shape_of number_of no_cells] in *.
    - injection H as <-. exists c'. split; [exact HM|]. cbn [filter app]. destruct (draw_but P ns d k c'); reflexivity.
    - destruct HN as [NG HN]. destruct (to_show P (lookup_dict d) (lookup_dict c) g) as [f| |] eqn:EF; try discriminate.
      destruct (draw d l ((n, f) :: c)) as [o r] eqn:E. injection H as <- ->. cbn [filter fst]. destruct (skips ns n) eqn:ES; cbn [negb].
      + apply (IH HN (TL _ _ HC) ((n, f) :: c)); auto. apply agree_left; [now apply skips_spec|exact HA].
      + rewrite (to_show_cells_ext _ _ (lookup_dict c) g NG), EF. cbn [bind].
        destruct (IH HN (TL _ _ HC) ((n, f) :: c) ((n, f) :: c') o) as (c2 & HM2 & E2); auto.
        { now apply agree_both. }
        { intros m A. cbn [lookup_dict]. destruct (seqb m n) eqn:Q; [|auto]. apply seqb_eq in Q. subst. apply skips_spec in A. congruence. }
        exists c2. split; [exact HM2|]. rewrite E2. destruct (draw_but P ns d k c2); reflexivity.
    - destruct (lookup_dict c m) as [f|] eqn:EF; try discriminate.
      destruct (draw d l ((n, f) :: c)) as [o r] eqn:E. injection H as <- ->. cbn [filter fst]. destruct (skips ns n) eqn:ES; cbn [negb].
      + apply (IH HN (TL _ _ HC) ((n, f) :: c)); auto. apply agree_left; [now apply skips_spec|exact HA].
      + assert (NS : ~ among ns n) by (intros A; apply skips_spec in A; congruence).
        rewrite (HA m) by (apply (HC n m); [now left|exact NS]). rewrite EF. cbn [bind].
        destruct (IH HN (TL _ _ HC) ((n, f) :: c) ((n, f) :: c') o) as (c2 & HM2 & E2); auto.
        { now apply agree_both. }
        { intros m' A. cbn [lookup_dict]. destruct (seqb m' n) eqn:Q; [|auto]. apply seqb_eq in Q. subst. contradiction. }
        exists c2. split; [exact HM2|]. rewrite E2. destruct (draw_but P ns d k c2); reflexivity.
    - destruct (IH HN (TL _ _ HC) c c' out HA HM H) as (c2 & HM2 & E2). exists c2. split; [exact HM2|].
      destruct (skips ns []); exact E2.
  Qed.

  Lemma picked_sets (f : str -> bool) (which : str -> Prop) (out : list (str * sh)) : (forall n, f n = true <-> which n) ->
    picked (fun x => which (fst x)) (map (set_of P) out) (map (set_of P) (filter (fun x => f (fst x)) out)).
  Proof.
    intros H. induction out as [|[n g] out IH]; cbn [filter map fst]; [constructor|]. destruct (f n) eqn:E; cbn [map].
    - apply picked_in; [cbn; now apply H|exact IH].
    - apply picked_out; [cbn; intros G; apply H in G; congruence|exact IH].
  Qed.

  Section Problem.
    Variables (s : list (str * sh)) (l : list entry).
    Hypothesis HD : drawable (map fst s) l [].

    Lemma pic_skip ns : closed ns l -> exists pic all, to_show_cells ns (shown_all P s) l = Ok pic /\
      sets P (surf_of P s) l [] all /\ picked (fun x => ~ among ns (fst x)) all (map (set_of P) pic).
    Proof.
      intros HC. destruct (cells_drawn P s l HD) as (out & E & HS). unfold to_show_cells. rewrite dict_shown. cbn [bind].
      destruct (draw_but_app ns (surface_dict s) l [] (drawable_no_cells _ _ _ HD) HC [] [] out) as (c2 & _ & E2); [intros k K; reflexivity|reflexivity|exact E|].
      rewrite app_nil_r in E2. rewrite E2. cbn [draw_but bind]. rewrite app_nil_r. eexists _, _. split; [reflexivity|]. split; [exact HS|].
      apply (picked_sets (fun n => negb (skips ns n)) (fun n => ~ among ns n)). intros n. rewrite <- skips_spec. destruct (skips ns n); cbn; split; congruence.
    Qed.
    Lemma pic_all : exists pic all, to_show_cells [] (shown_all P s) l = Ok pic /\
      sets P (surf_of P s) l [] all /\ picked (fun x => any (fst x)) all (map (set_of P) pic).
    Proof.
      destruct (pic_skip []) as (pic & all & A & B & C); [intros n m _ _ []|]. exists pic, all. split; [exact A|]. split; [exact B|].
      revert C. apply picked_same. intros x. split; [intros _; exact I|intros _ []].
    Qed.
    Lemma pic_only t : exists pic all, to_show_cell (split_on "," t) (shown_all P s) l = Ok pic /\
      sets P (surf_of P s) l [] all /\ picked (fun x => listed t (fst x)) all (map (set_of P) pic).
    Proof.
      destruct (cells_drawn P s l HD) as (out & E & HS). unfold to_show_cell. rewrite dict_shown. cbn [bind].
      rewrite (draw_only_filter _ _ _ _ _ E). eexists _, _. split; [reflexivity|]. split; [exact HS|].
      apply (picked_sets (names (split_on "," t)) (listed t)). intros n. apply names_spec.
    Qed.
  End Problem.
  Lemma surf_skip s ns : exists pic, to_show_surfaces ns (shown_all P s) = Ok pic /\ picked (fun x => ~ among ns (fst x)) s pic.
  Proof.
    unfold to_show_surfaces. rewrite (mapM_shown (fun n => negb (skips ns n))). eexists. split; [reflexivity|].
    apply picked_filter. intros [n f]. cbn. rewrite <- skips_spec. destruct (skips ns n); cbn; split; congruence.
  Qed.
  Lemma surf_all s : exists pic, to_show_surfaces [] (shown_all P s) = Ok pic /\ picked (fun x => any (fst x)) s pic.
  Proof.
    destruct (surf_skip s []) as (pic & A & C). exists pic. split; [exact A|].
    revert C. apply picked_same. intros x. split; [intros _; exact I|intros _ []].
  Qed.
  Lemma surf_only s t : exists pic, to_show_surface (split_on "," t) (shown_all P s) = Ok pic /\ picked (fun x => listed t (fst x)) s pic.
  Proof.
    unfold to_show_surface. rewrite (mapM_shown (names (split_on "," t))). eexists. split; [reflexivity|].
    apply picked_filter. intros [n f]. cbn. apply names_spec.
  Qed.

  (** What a run of statements gives. *)
  Definition gives (G : wish -> view P -> Prop) (x : seen P) (ws : list wish) : Prop := exists vs, x = (vs, Ok tt) /\ Forall2 G ws vs.
  Lemma gives_nil G : gives G ([], Ok tt) [].
  Proof. exists []. split; [reflexivity|constructor]. Qed.
  Lemma gives_then G x y ws us : gives G x ws -> gives G y us -> gives G (then_ P x y) (ws ++ us).
  Proof. intros (a & -> & A) (b & -> & B). exists (a ++ b). split; [reflexivity|now apply Forall2_app]. Qed.
  Lemma gives_each {A} G (f : A -> seen P) xs ws : Forall2 (fun x w => gives G (f x) [w]) xs ws -> gives G (each P f xs) ws.
  Proof.
    intros H. induction H as [|x w xs ws Hx H IH]; [apply gives_nil|]. cbn [each fold_right]. apply (gives_then G _ _ [w] ws); [exact Hx|exact IH].
  Qed.
  Lemma Forall2_here {A B} (R : A -> B -> Prop) (f : A -> B) xs : (forall x, R x (f x)) -> Forall2 R xs (map f xs).
  Proof. intros H. induction xs; constructor; auto. Qed.

  Lemma nothing_true a : nothing a = true -> cells a = false /\ surfaces a = false /\ cells_skip a = [] /\ surfaces_skip a = [] /\ cell a = [] /\ surface a = [].
  Proof.
    unfold nothing. destruct (cells a), (surfaces a), (cells_skip a), (surfaces_skip a), (cell a), (surface a); cbn; intros H; try discriminate; auto 10.
  Qed.

  Section Run.
    Variables (file : str) (s : list (str * sh)) (l : list entry) (a : args) (cs ss : list (list Z)).
    Hypothesis HD : drawable (map fst s) l [].
    Let W := granted P (in_window P) s l.
    Let asked :=
      (if cells a then [Cells any] else []) ++ (if surfaces a then [Surfaces any] else []) ++
      map (fun ns => Cells (fun n => ~ among ns n)) cs ++ map (fun ns => Surfaces (fun n => ~ among ns n)) ss ++
      map (fun t => Cells (listed t)) (cell a) ++ map (fun t => Surfaces (listed t)) (surface a).

    Lemma gives_cells w pic all : sets P (surf_of P s) l [] all -> picked (fun x => w (fst x)) all (map (set_of P) pic) ->
      gives W (window P (Ok pic)) [Cells w].
    Proof. intros A B. eexists. split; [reflexivity|]. repeat constructor. exists pic. split; [reflexivity|]. exists all. split; [exact A|exact B]. Qed.
    Lemma gives_surfaces w pic : picked (fun x => w (fst x)) s pic -> gives W (window P (Ok pic)) [Surfaces w].
    Proof. intros B. eexists. split; [reflexivity|]. repeat constructor. exists pic. split; [reflexivity|exact B]. Qed.

    Lemma run_all : gives W (all_cells P file (shown_all P s) l false) [Cells any] /\ gives W (all_surfaces P file (shown_all P s) false) [Surfaces any].
    Proof.
      split.
      - destruct (pic_all s l HD) as (pic & all & A & B & C). unfold all_cells. rewrite A. exact (gives_cells any pic all B C).
      - destruct (surf_all s) as (pic & A & B). unfold all_surfaces. rewrite A. exact (gives_surfaces any pic B).
    Qed.

    Theorem run_windows : pdf a = false -> Forall2 numbers (cells_skip a) cs -> Forall2 numbers (surfaces_skip a) ss -> Forall (fun ns => closed ns l) cs ->
      gives W (views P file (shown_all P s) l a) (wishes a cs ss).
    Proof.
      intros HP HC HS HL. destruct run_all as [RC RS]. destruct (nothing a) eqn:EN.
      - destruct (nothing_true a EN) as (E1 & E2 & E3 & E4 & E5 & E6). rewrite E3 in HC. rewrite E4 in HS. inversion HC. inversion HS.
        unfold views, wishes. rewrite EN, E1, E2, E3, E4, E5, E6, HP. cbn [orb map app each fold_right].
        apply (gives_then W _ _ [Cells any] [Surfaces any]); [exact RC|].
        apply (gives_then W _ _ [Surfaces any] []); [exact RS|]. exact (gives_nil W).
      - assert (EW : wishes a cs ss = asked).
        { unfold wishes. fold asked. destruct asked eqn:EA; [|reflexivity]. exfalso. unfold asked in EA. unfold nothing in EN.
          destruct (cells a); [discriminate|]. destruct (surfaces a); [discriminate|]. cbn [app] in EA.
          destruct HC as [|? ? ? ? ? ?]; [|discriminate]. destruct HS as [|? ? ? ? ? ?]; [|discriminate]. cbn [map app] in EA.
          destruct (cell a); [|discriminate]. destruct (surface a); [|discriminate]. discriminate EN. }
        rewrite EW. unfold views, asked. rewrite EN, HP, !orb_false_r.
        apply gives_then; [destruct (cells a); [exact RC|apply gives_nil]|].
        apply gives_then; [destruct (surfaces a); [exact RS|apply gives_nil]|].
        apply gives_then.
        { apply gives_each. clear EW asked. induction HC as [|t ns ts cs Ht HC IH]; [constructor|]. inversion HL; subst. constructor; [|now apply IH].
          unfold cells_but. rewrite (ints_numbers t ns Ht). cbn [raised].
          destruct (pic_skip s l HD ns) as (pic & all & A & B & C); [assumption|]. rewrite A. exact (gives_cells _ pic all B C). }
        apply gives_then.
        { apply gives_each. clear EW asked. induction HS as [|t ns ts ss Ht HS IH]; constructor; [|exact IH].
          unfold surfaces_but. rewrite (ints_numbers t ns Ht). cbn [raised].
          destruct (surf_skip s ns) as (pic & A & B). rewrite A. exact (gives_surfaces _ pic B). }
        apply gives_then; apply gives_each; apply Forall2_here; intros t.
        + destruct (pic_only s l HD t) as (pic & all & A & B & C). unfold these_cells. rewrite A. exact (gives_cells _ pic all B C).
        + destruct (surf_only s t) as (pic & A & B). unfold these_surfaces. rewrite A. exact (gives_surfaces _ pic B).
    Qed.
  End Run.
End Facts.

(** ** The other cases *)

Section Others.
  Variable P : Type.
  Notation sh := (shape P).

  Lemma main_ok file s l a acts : views P file s l a = (acts, Ok tt) -> visualize_main file (Ok (s, l)) a = (acts, ([Disclaimer; Done], Exit 0)).
  Proof. intros E. unfold visualize_main. rewrite E. reflexivity. Qed.
  Lemma main_py file s l a acts e : views P file s l a = (acts, Py e) -> visualize_main file (Ok (s, l)) a = (acts, ([Disclaimer], Uncaught (inr e))).
  Proof. intros E. unfold visualize_main. rewrite E. reflexivity. Qed.
  Lemma main_done file p a : says_done (snd (@visualize_main P file p a)) -> exists s l, p = Ok (s, l) /\ snd (views P file s l a) = Ok tt.
  Proof.
    unfold visualize_main, says_done. destruct p as [[s l]|[]|e]; cbn; try discriminate.
    intros H. exists s, l. split; [reflexivity|]. destruct (views P file s l a) as [acts [[]|[]|e]]; cbn in *; try discriminate. reflexivity.
  Qed.
  Lemma then_done x y : snd (then_ P x y) = Ok tt -> snd x = Ok tt /\ snd y = Ok tt.
  Proof. unfold then_. destruct x as [a [[]|e|e]]; cbn; intros H; try discriminate. auto. Qed.
  Lemma each_done {A} (f : A -> seen P) l : snd (each P f l) = Ok tt -> Forall (fun x => snd (f x) = Ok tt) l.
  Proof. induction l as [|x l IH]; intros H; constructor; apply then_done in H as [A1 B1]; auto. Qed.

  Lemma pdf_not_done file p a : pdf a = true -> cell a <> [] \/ surface a <> [] -> ~ says_done (snd (@visualize_main P file p a)).
  Proof.
    intros HP HC H. destruct (main_done _ _ _ H) as (s & l & -> & E). unfold views in E.
    repeat match goal with K : snd (then_ P _ _) = Ok tt |- _ => apply then_done in K as [? K] end. rewrite HP in *.
    destruct HC as [HC|HC].
    - match goal with K : snd (each P _ (cell a)) = Ok tt |- _ => apply each_done in K; rename K into K1 end.
      destruct (cell a) as [|t ts]; [congruence|]. inversion K1 as [|? ? K2 ?]; subst. unfold these_cells in K2. apply then_done in K2 as [_ K2]. discriminate K2.
    - apply each_done in E. destruct (surface a) as [|t ts]; [congruence|]. inversion E as [|? ? K2 ?]; subst. unfold these_surfaces in K2.
      destruct (out_pdf file _); discriminate K2.
  Qed.

  (** ** Files *)
  Lemma out_name base suf i n : ~ In "."%char suf -> fmt05 i = i -> i = n :: tl i -> out_pdf (base ++ "."%char :: suf) i = Ok (base ++ "-"%char :: i ++ L ".pdf").
  Proof.
    intros HS HF HN. unfold out_pdf, get_outfile. rewrite (rsplit1_last "." base suf HS). destruct i as [|c i]; [discriminate|]. rewrite HF. reflexivity.
  Qed.

  Section Run.
    Variables (base suf : str) (s : list (str * sh)) (l : list entry) (a : args).
    Hypothesis HD : drawable (map fst s) l [].
    Hypothesis HS : ~ In "."%char suf.
    Let file := base ++ "."%char :: suf.
    Let W := granted P (in_file P base) s l.
    Theorem run_files : pdf a = true -> cells_skip a = [] -> surfaces_skip a = [] -> cell a = [] -> surface a = [] ->
      gives P W (views P file (shown_all P s) l a) (wishes a [] []).
    Proof.
      intros HP E3 E4 E5 E6.
      assert (RC : gives P W (all_cells P file (shown_all P s) l true) [Cells any]).
      { destruct (pic_all P s l HD) as (pic & all & A & B & C). unfold all_cells. rewrite A. unfold file. rewrite (out_name base suf (L "cells") "c") by (auto; reflexivity).
        eexists. split; [reflexivity|]. constructor; [|constructor]. exists pic. split; [reflexivity|]. exists all. split; [exact B|exact C]. }
      assert (RS : gives P W (all_surfaces P file (shown_all P s) true) [Surfaces any]).
      { destruct (surf_all P s) as (pic & A & B). unfold all_surfaces. rewrite A. unfold file. rewrite (out_name base suf (L "surfaces") "s") by (auto; reflexivity).
        eexists. split; [reflexivity|]. constructor; [|constructor]. exists pic. split; [reflexivity|exact B]. }
      unfold views, wishes, nothing. rewrite E3, E4, E5, E6, HP. cbn [none andb map app each fold_right].
      destruct (cells a), (surfaces a); cbn [negb andb orb app].
      - apply (gives_then P W _ _ [Cells any] [Surfaces any]); [exact RC|]. apply (gives_then P W _ _ [Surfaces any] []); [exact RS|exact (gives_nil P W)].
      - apply (gives_then P W _ _ [Cells any] []); [exact RC|exact (gives_nil P W)].
      - apply (gives_then P W _ _ [] [Surfaces any]); [exact (gives_nil P W)|]. apply (gives_then P W _ _ [Surfaces any] []); [exact RS|exact (gives_nil P W)].
      - apply (gives_then P W _ _ [Cells any] [Surfaces any]); [exact RC|]. apply (gives_then P W _ _ [Surfaces any] []); [exact RS|exact (gives_nil P W)].
    Qed.
    (** The cells that are listed, and then no end. *)
    Lemma run_cell_file t : exists path pic all, visualize_main file (Ok (shown_all P s, l)) (args_cell t true) = ([Pdf path pic], ([Disclaimer], Uncaught (inr UnboundLocalError))) /\
      sets P (surf_of P s) l [] all /\ picked (fun x => listed t (fst x)) all (map (set_of P) pic).
    Proof.
      destruct (pic_only P s l HD t) as (pic & all & A & B & C).
      assert (E : exists path, out_pdf file (L "cell_" ++ list_text (split_on "," t)) = Ok path).
      { unfold out_pdf, get_outfile, file. rewrite (rsplit1_last "." base suf HS). eexists. reflexivity. }
      destruct E as [path E]. exists path, pic, all. split; [|split; [exact B|exact C]]. apply main_py.
      unfold views, args_cell, nothing. cbn [cells surfaces cells_skip surfaces_skip cell surface pdf none negb andb orb each fold_right].
      unfold these_cells. rewrite A, E. reflexivity.
    Qed.
  End Run.

  (** ** Skipping *)
  Lemma skip_files file p t ns : numbers t ns ->
    @visualize_main P file p (args_cells_skip t true) = visualize_main file p (args_cells true) /\
    @visualize_main P file p (args_surfaces_skip t true) = visualize_main file p (args_surfaces true).
  Proof.
    intros H. unfold visualize_main. destruct p as [[s l]|e|e]; [|split; reflexivity..].
    assert (E : views P file s l (args_cells_skip t true) = views P file s l (args_cells true) /\
                views P file s l (args_surfaces_skip t true) = views P file s l (args_surfaces true)).
    { unfold views, nothing, args_cells_skip, args_surfaces_skip, args_cells, args_surfaces. cbn [cells surfaces cells_skip surfaces_skip cell surface pdf none negb andb orb each fold_right].
      unfold cells_but, surfaces_but. rewrite (ints_numbers t ns H). cbn [raised].
      change (save P (out_pdf file (L "cells")) (to_show_cells [] s l)) with (all_cells P file s l true).
      change (save P (out_pdf file (L "surfaces")) (to_show_surfaces [] s)) with (all_surfaces P file s true).
      unfold then_ at 2 3 4 5 6. cbn [fst snd app]. split.
      - destruct (all_cells P file s l true) as [x [[]|e|e]]; cbn; rewrite ?app_nil_r; reflexivity.
      - destruct (all_surfaces P file s true) as [x [[]|e|e]]; cbn; rewrite ?app_nil_r; reflexivity. }
    destruct E as [-> ->]. split; reflexivity.
  Qed.
  Lemma skip_like file s l1 n m l2 t ns : drawable (map fst s) l1 [] -> closed ns l1 -> numbers t ns -> among ns m -> ~ among ns n ->
    visualize_main file (Ok (shown_all P s, l1 ++ ELike n m :: l2)) (args_cells_skip t false) = ([], ([Disclaimer], Uncaught (inr KeyError))).
  Proof.
    intros HD HC HT HM HN. apply main_py.
    unfold views, nothing, args_cells_skip. cbn [cells surfaces cells_skip surfaces_skip cell surface pdf none negb andb orb each fold_right].
    unfold cells_but. rewrite (ints_numbers t ns HT). cbn [raised]. unfold to_show_cells. rewrite dict_shown. cbn [bind].
    destruct (cells_drawn P s l1 HD) as (out & E & _). unfold show_cells in E.
    destruct (draw_but_app P ns (surface_dict s) l1 (ELike n m :: l2) (drawable_no_cells _ _ _ HD) HC [] [] out) as (c2 & HM2 & E2); [intros k K; reflexivity|reflexivity|exact E|].
    rewrite E2. cbn [draw_but number_of shape_of]. destruct (skips ns n) eqn:ES; [apply skips_spec in ES; contradiction|].
    rewrite (HM2 m HM). reflexivity.
  Qed.
  Lemma skip_bad file s l t w p : In w (split_on "," t) -> (forall c, In c w -> is_digit c = false) ->
    @visualize_main P file (Ok (s, l)) (args_cells_skip t p) = ([], ([Disclaimer], Uncaught (inr ValueError))) /\
    @visualize_main P file (Ok (s, l)) (args_surfaces_skip t p) = ([], ([Disclaimer], Uncaught (inr ValueError))).
  Proof.
    intros I H. split; apply main_py; unfold views, nothing, args_cells_skip, args_surfaces_skip;
      cbn [cells surfaces cells_skip surfaces_skip cell surface pdf none negb andb orb each fold_right];
      unfold cells_but, surfaces_but; rewrite (ints_bad t w I H); reflexivity.
  Qed.
  (** A surface that is not shown. *)
  Lemma dict_fails s1 n e s2 : dict_of P (shown_all P s1 ++ (n, Py e) :: s2) = Py e.
  Proof.
    unfold dict_of. enough (E : mapM (fun x => bind (snd x) (fun g => Ok (fst x, g))) (shown_all P s1 ++ (n, Py e) :: s2) = Py e) by (rewrite E; reflexivity).
    unfold shown_all. induction s1 as [|[k g] s1 IH]; [reflexivity|]. cbn [map app mapM fst snd bind]. rewrite IH. reflexivity.
  Qed.
  Lemma surface_fails file s1 n e s2 l t :
    visualize_main file (Ok (shown_all P s1 ++ (n, Py e) :: s2, l)) (args_cell t false) = ([], ([Disclaimer], Uncaught (inr e))).
  Proof.
    apply main_py. unfold views, nothing, args_cell. cbn [cells surfaces cells_skip surfaces_skip cell surface pdf none negb andb orb each fold_right].
    unfold these_cells, to_show_cell. rewrite dict_fails. reflexivity.
  Qed.
  (** The complement of a cell that is skipped. *)
  Lemma skip_complement file s f m n g z : last_of s m f -> m = str_of_Z z -> n <> m ->
    visualize_main file (Ok (shown_all P s, [ECell m g; ECell n (GUnary "#" (GDigit m))])) (args_cells_skip m false) =
    ([Window [(n, f)]], ([Disclaimer; Done], Exit 0)).
  Proof.
    intros HF EM HN. apply main_ok. unfold views, nothing, args_cells_skip. cbn [cells surfaces cells_skip surfaces_skip cell surface pdf none negb andb orb each fold_right].
    unfold cells_but. rewrite (ints_numbers m [z]) by (split; [discriminate|now rewrite EM]). cbn [raised]. unfold to_show_cells. rewrite dict_shown. cbn [bind draw_but number_of shape_of].
    replace (skips [z] m) with true by (symmetry; apply skips_spec; now left).
    replace (skips [z] n) with false.
    2:{ symmetry. destruct (skips [z] n) eqn:E; [|reflexivity]. apply skips_spec in E as [E|[]]. congruence. }
    apply lookup_last in HF. unfold surface_dict. cbn [to_show lookup_dict]. cbn [ceqb]. change (ceqb "#" "+") with false. change (ceqb "#" "-") with false. cbv iota. rewrite HF. reflexivity.
  Qed.
End Others.
