(** Property C70: cards with lists of options.  [card_from_mcnp]/[card_to_mcnp] are
    the reader and the writer of a card class, [read_attr] reads one attribute from
    the text of its group, [write] writes a value; [fam n] is the family [n] of option
    classes, [option_patterns] the patterns its lists are scanned with. *)

From Coq Require Import Ascii String NArith ZArith Bool Arith Lia List.
From Verif Require Import PyStr Regex RegexParse PyNum Types TypesSpec CardText CardTextSpec Cards Tables CardsSpec CardsFacts6 CardsFacts7 Geometry Numbered Problem
  InpFile InpSpec InpSpec2 OptSpec OptFacts4 OptFacts5 OptFacts6.
Import ListNotations.
Open Scope char_scope.
Open Scope list_scope.

(** ** C70 *)

(** Read a card and write it again. *)
Definition again (c : cls) (s : string) : result str := match card_from_mcnp ext fam c (L s) with Ok (o, _) => Ok (card_to_mcnp c o) | Lib e => Lib e | Py e => Py e end.
Definition cell_again (s : string) : result str := match cell_from_mcnp (L s) with Ok (CCell c, _) => cell_to_mcnp c | Ok _ => Lib InpError | Lib e => Lib e | Py e => Py e end.

(** Full statement: every option of a card comes back whole.  False of the code: a
    sequence of values in an option of a list is cut after its first value, and a
    filling keeps neither its lattice nor its transformation, without an error. *)
Theorem C70_refuted :
  again k_Fmesh "fmesh4:n geom xyz origin 0 0 0 imesh 1 2 3 iints 4 5 6" = Ok (L "fmesh4:n geom xyz origin 0 0 0 imesh 1 iints 4") /\
  again k_Mesh "mesh imesh 1 2 3 iints 4 5 6" = Ok (L "mesh imesh 1 iints 4") /\
  again k_Ssr "ssr old 1 2 3 new 4 5 6" = Ok (L "ssr old 1 new 4") /\
  again k_Pert "pert1:n cell 1 2 3 rho 2" = Ok (L "pert1:n cell 1 rho 2") /\
  cell_again "1 0 -1 tmp1 2 3 imp:n 1" = Ok (L "1 0  -1 tmp1 2 imp:n 1") /\
  cell_again "1 0 -1 fill 0:1 0:0 0:0 1 2 imp:n 1" = Ok (L "1 0  -1 fill 0:1 0:0 0:0 1 imp:n 1") /\
  cell_again "1 0 -1 fill 3 (4) imp:n 1" = Ok (L "1 0  -1 fill 3 imp:n 1").
Proof. repeat split; vm_compute; reflexivity. Qed.
Print Assumptions C70_refuted.

(** What holds.  A list of options, of any length, of any family of the library,
    written and scanned again, gives the options one by one, when each is of a class of
    regular form that no earlier class of the family shadows, with all of its fields
    given and no field a sequence of several values. *)
Theorem C70_list_partial : forall n p os, In (n, p) option_patterns -> os <> [] -> Forall (plain_option (fam n)) os ->
  read_attr ext (Tup (TExt n p)) (Some (sp :: join [sp] (map write os))) = Ok (Some (VTup os)).
Proof. exact options_again. Qed.
Print Assumptions C70_list_partial.

(** So does the card: keyword, number, designator, single values and the list. *)
Theorem C70_cards_partial : forall c f n opt vs o, has_list c f n opt -> c_kind c = KCard -> list_values f n opt vs ->
  construct ext fam c (map to_arg vs) = Ok o -> length (head_text (c_kw c) (texts o)) <= 78 ->
  card_from_mcnp ext fam c (card_to_mcnp c o) = Ok (o, []).
Proof. intros c f n opt vs o HL HK HV HC HN. exact (list_round_trip c f n opt HL vs o HK HV HC HN). Qed.
Print Assumptions C70_cards_partial.

(** [Inp] reads it as a card of its class. *)
Theorem C70_data_partial : forall c t, listed_data c -> card_text (fst c) = Ok t -> read_data_card t = Ok c.
Proof. intros c t H E. exact (proj2 (listed_comes_back c H t E)). Qed.
Print Assumptions C70_data_partial.

(** The classes of the library with such a list. *)
Definition list_classes : list cls := filter listb all_classes.
Theorem C70_coverage : map c_name list_classes =
  ["act_Dneb"; "act_Dgeb"; "Act"; "Bfld"; "dawwg_Block"; "Dawwg"; "Dd"; "Df_1"; "embed_Matcell"; "Embed"; "Embee"; "Files"; "Fmesh"; "Kopts"; "Kpert"; "Ksen"; "Ksrc"; "Mesh"; "mplot_Contour"; "Mplot";
   "Pert"; "Pikmt"; "ptrac_Filter"; "Ptrac"; "Rand"; "Sdef"; "Ssr"; "Stop"; "T_1"; "Tropt"; "Var"]%string /\
  length (filter (fun c => match c_kind c with KCard => true | _ => false end) list_classes) = 25 /\
  Forall (fun c => exists n o, has_list c (decode c) n o) list_classes.
Proof.
  split; [vm_compute; reflexivity|]. split; [vm_compute; reflexivity|exact (list_forms all_classes)].
Qed.
Print Assumptions C70_coverage.

(** A mesh with five options. *)
Definition real1 (n : N) : option val := Some (VReal (RVal (Fin false n 0))).
Definition opt_ (k : cls) (vs : list (option val)) : val := match construct ext fam k (map to_arg vs) with Ok o => obj_val k o | _ => VTup [] end.
Definition mesh_options : list val :=
  [opt_ k_fmesh_Origin [real1 1; real1 0; real1 25]; opt_ k_fmesh_Imesh [Some (VTup [VReal (RVal (Fin false 3 0))])];
   opt_ k_fmesh_Iints [Some (VTup [VInt (IVal 4)])]; opt_ k_fmesh_Factor [real1 2]; opt_ k_fmesh_Tr [Some (VInt (IVal 7))]].
Definition mesh_values : list (option val) := [Some (VInt (IVal 4)); Some (VDesig (L "n")); Some (VTup mesh_options)].
Definition mesh_object : obj := match construct ext fam k_Fmesh (map to_arg mesh_values) with Ok o => o | _ => [] end.
Lemma is_option n cs i k fl v o u : fam n = cs -> nth_error cs i = Some k -> existsb (String.eqb (c_name k)) shadowed_options = false -> regularb k = true -> c_kind k = KOption ->
  head_parts (decode k) = [] -> f_fields (decode k) = fl -> gapless fl v -> v <> [] -> Forall lone v -> construct ext fam k (map to_arg v) = Ok o -> u = obj_val k o -> plain_option (fam n) u.
Proof.
  intros <- HN HS HR HK HH <- HG HV HL HC ->. exists k, (decode k), [], v, o. split; [exact (nth_error_In _ _ HN)|]. split.
  - intros HI. assert (X : existsb (String.eqb (c_name k)) shadowed_options = true) by (apply existsb_exists; exists (c_name k); split; [exact HI|apply String.eqb_refl]). congruence.
  - split; [exact (regularb_ok k HR)|]. split; [exact HK|]. split; [rewrite HH; constructor|]. auto.
Qed.
Ltac option_ i k v :=
  eapply (is_option "fmesh_FmeshOption" _ i k _ v); [vm_compute; reflexivity|vm_compute; reflexivity|vm_compute; reflexivity|vm_compute; reflexivity|reflexivity|vm_compute; reflexivity|vm_compute; reflexivity|repeat (split; [first [exact eq_refl|split; [discriminate|repeat (constructor; try exact eq_refl)]]|]); exact I|discriminate|repeat (constructor; try exact I)|vm_compute; reflexivity|vm_compute; reflexivity].
Example C70_mesh_options : Forall (plain_option (fam "fmesh_FmeshOption")) mesh_options.
Proof.
  constructor; [option_ 1 k_fmesh_Origin [real1 1; real1 0; real1 25]|].
  constructor; [option_ 4 k_fmesh_Imesh [Some (VTup [VReal (RVal (Fin false 3 0))])]|].
  constructor; [option_ 5 k_fmesh_Iints [Some (VTup [VInt (IVal 4)])]|].
  constructor; [option_ 16 k_fmesh_Factor [real1 2]|].
  constructor; [option_ 18 k_fmesh_Tr [Some (VInt (IVal 7))]|]. constructor.
Qed.
Example C70_mesh : listed_data (CData k_Fmesh mesh_object, []) /\ card_to_mcnp k_Fmesh mesh_object = L "fmesh4:n origin 1 0 25 imesh 3 iints 4 factor 2 tr 7".
Proof.
  split; [|vm_compute; reflexivity].
  destruct (listb_ok k_Fmesh) as (n & opt & E & HL); [vm_compute; reflexivity|]. assert (EN : n = "fmesh_FmeshOption"%string /\ opt = true) by (vm_compute in E; injection E; auto). destruct EN as [-> ->].
  exists k_Fmesh, (decode k_Fmesh), "fmesh_FmeshOption"%string, true, mesh_values, mesh_object.
  split; [exact (nth_error_In data_entries 53 eq_refl)|]. split; [cbn; intuition discriminate|]. split; [exact HL|]. split; [reflexivity|].
  split; [|split; [vm_compute; reflexivity|split; [apply Nat.leb_le; vm_compute; reflexivity|reflexivity]]].
  exists (firstn 2 mesh_values), [], (Some (VTup mesh_options)). split; [reflexivity|]. split; [|split; [exact I|split; [discriminate|exact C70_mesh_options]]].
  constructor; [exists 4%N; split; vm_compute; reflexivity|]. constructor; [exists (L "n"); split; vm_compute; reflexivity|constructor].
Qed.
