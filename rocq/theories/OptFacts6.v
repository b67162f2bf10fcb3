(** Data cards with lists of options, and problems with such cards. *)

From Coq Require Import Ascii String NArith ZArith Bool Arith Lia List.
From Verif Require Import PyStr Regex RegexParse RegexFacts RegexLang PyNum PyNumFacts Types TypesSpec TypesFacts TypesFacts2 TypesFacts3 TypesFacts4 TypesFacts5 SubFacts CardText CardTextSpec CardTextFacts CardTextFacts2 CardTextFacts3 CardTextFacts4 CardTextFacts5 CardTextFacts6
  Cards Tables CardsSpec CardsFacts CardsFacts2 CardsFacts3 CardsFacts4 CardsFacts5 CardsFacts6 RegexDer Geometry Numbered Problem InpFile InpSpec InpSpec2 InpFacts InpFacts2 InpFacts3 InpFacts4 InpFacts5 InpFacts6 InpFacts7 InpFacts9 InpFacts10 OptSpec OptFacts OptFacts2 OptFacts3 OptFacts4 OptFacts5.
Import ListNotations.
Open Scope char_scope.
Open Scope list_scope.

Theorem listed_card_back c f n opt vs o : In (Known c) data_entries -> ~ In (c_name c) ambiguous_cards ->
  has_list c f n opt -> c_kind c = KCard -> list_values f n opt vs ->
  construct ext fam c (map to_arg vs) = Ok o -> length (head_text (c_kw c) (texts o)) <= 78 ->
  (exists r, row_ok r /\ row_text r = card_to_mcnp c o) /\ read_data_card (card_to_mcnp c o) = Ok (CData c o, []).
Proof.
  intros HI HA HF HK HV HC HL. split.
  - destruct (list_object c f n opt HF vs) as (hw & ws & N & H1 & H2 & H3 & (mo & HMO & _)); [unfold headed; auto|auto|].
    destruct (H3 o HC) as (_ & E1 & E2 & _). rewrite E1 in HL. pose proof (data_hash c hw ws mo HI HMO) as HH. pose proof (head_chars_clean hw N H1) as HW.
    assert (HS : strip (hw ++ [sp] ++ join [sp] ws) = join [sp] (hw :: ws)).
    { destruct ws as [|w ws].
      - cbn [app join]. apply strip_trailing; auto. now apply head_nospace.
      - change (hw ++ [sp] ++ join [sp] (w :: ws)) with (join [sp] (hw :: w :: ws)). rewrite <- !spaced_join. apply strip_ends; auto.
        eapply Forall_impl; [|exact H2]. intros v Hv. apply Hv. }
    unfold card_to_mcnp. rewrite HK, E2, HS. destruct (post_row hw ws) as (r & R1 & R2 & _); auto.
    + eapply Forall_impl; [|exact H2]. intros v Hv. apply Hv.
    + intros v k m' HV'. rewrite Forall_forall in H2. now apply H2.
    + eauto.
  - apply data_class_read; auto. exact (list_round_trip c f n opt HF vs o HK HV HC HL).
Qed.

Lemma listed_comes_back c : listed_data c -> comes_back read_data_card c.
Proof.
  intros (k & f & n & opt & vs & o & H1 & H2 & H3 & H4 & H5 & H6 & H7 & ->) t E. rewrite (data_written k o t E).
  exact (listed_card_back k f n opt vs o H1 H2 H3 H4 H5 H6 H7).
Qed.

Theorem problem_back_lists x s :
  i_message x = None ->
  (exists r, row_ok r /\ settled r /\ row_text r = i_title x) -> announces (i_title x) = false -> length (i_title x) < 80 ->
  match i_other x with Some o => exists l, other_ok l /\ Forall (fun y => match y with Some r => settled r | None => True end) l /\ rows_text l = o | None => True end ->
  i_cells x <> [] -> i_surfaces x <> [] -> i_data x <> [] -> existsb (fun c => negb (no_imp (fst c))) (i_cells x) = true ->
  Forall (fun c => plain_remark c \/ comes_back read_cell_card c) (i_cells x) ->
  Forall (fun c => plain_remark c \/ plain_surface c) (i_surfaces x) ->
  Forall (fun c => plain_remark c \/ plain_data c \/ listed_data c) (i_data x) ->
  inp_to_mcnp x = Ok s -> read_inp s = Ok x.
Proof.
  intros HM HTI HA HL HO NC NS ND HI HC HS HD HW. apply (problem_back x s); try assumption.
  2:{ revert HD. apply Forall_impl. intros c [H|[H|H]]; [left; exact H|right; exact (data_comes_back c H)|right; exact (listed_comes_back c H)]. }
  revert HS. apply Forall_impl. intros c [H|H]; [left; exact H|right; exact (surface_back c H)].
Qed.

(** The list by itself. *)
Theorem options_again n p os : In (n, p) option_patterns -> os <> [] -> Forall (plain_option (fam n)) os ->
  read_attr ext (Tup (TExt n p)) (Some (sp :: join [sp] (map write os))) = Ok (Some (VTup os)).
Proof.
  intros HP HN HO.
  assert (HAS : exists cs, assoc n families = Some cs).
  { destruct os as [|v os]; [congruence|]. inversion HO as [|? ? (k & _ & _ & _ & _ & HI & _) _]; subst. unfold fam in HI. destruct (assoc n families) as [cs|]; [eauto|destruct HI]. }
  destruct HAS as (cs & HAS). assert (EC : fam n = cs) by (unfold fam; now rewrite HAS). rewrite EC in HO.
  destruct (options_listed n cs p HAS HP os HN HO) as (ws & W1 & _ & _ & W4 & _ & W6 & _). rewrite W4, join_spaced; auto.
Qed.

Lemma list_forms l : Forall (fun c => exists n o, has_list c (decode c) n o) (filter listb l).
Proof. apply Forall_forall. intros c HC. apply filter_In in HC as [_ HC]. destruct (listb_ok c HC) as (n & o & _ & H). eauto. Qed.
