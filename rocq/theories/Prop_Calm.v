(** C72: reading a card raises only errors of the library. *)

From Coq Require Import Ascii String NArith ZArith List Bool.
From Verif Require Import PyStr Regex RegexParse PyNum Types CardText Cards Tables CardsSpec InpFile Prop_Inp.
From Verif Require Import CalmSpec CalmFacts4.
Import ListNotations.

(** Each class of [raising] is a class of the library that raises an error of Python on its text: shorthands
    compared with numbers, not-a-number made an integer, a missing group. *)
Theorem C72_classes_refuted n t : In (n, t) raising -> exists c, In c all_classes /\ c_name c = n /\ reads_badly c (L t).
Proof.
  assert (H : forallb (fun x => existsb (fun c => if String.eqb (c_name c) (fst x) then
      (if is_card c then is_py (card_from_mcnp ext fam c (L (snd x))) else is_py (family_from_mcnp ext fam [c] (L (snd x)))) else false) all_classes) raising = true)
    by (vm_compute; reflexivity).
  intros HI. rewrite forallb_forall in H. specialize (H _ HI). apply existsb_exists in H as (c & HC & E).
  cbn [fst snd] in *. destruct (String.eqb (c_name c) n) eqn:E1; [rename E into E2|discriminate E]. exists c. split; [exact HC|]. split; [now apply String.eqb_eq|]. unfold reads_badly.
  destruct (is_card c); [destruct (card_from_mcnp ext fam c (L t)) as [x|x|x]|destruct (family_from_mcnp ext fam [c] (L t)) as [x|x|x]]; try discriminate E2; now exists x.
Qed.

(** No other class does, whatever the text. *)
Theorem C72_classes_partial c s : In c all_classes -> ~ In (c_name c) (map fst raising) -> ~ In (c_name c) undecided ->
  (forall e, card_from_mcnp ext fam c s <> Py e) /\ (forall e, family_from_mcnp ext fam [c] s <> Py e).
Proof.
  intros HI H1 H2. split; intros e E.
  - pose proof (quiet_card c s HI H1 H2) as P. rewrite E in P. discriminate P.
  - assert (P : is_py (family_from_mcnp ext fam [c] s) = false) by (apply quiet_family; intros d [<-|[]]; auto). rewrite E in P. discriminate P.
Qed.

(** Of the classes that do, most do so only on texts where a field is a shorthand. *)
Theorem C72_shorthands_partial c s e : In c all_classes -> ~ In (c_name c) raising_long -> card_from_mcnp ext fam c s = Py e ->
  exists i t, field c s i = Some t /\ shorthand t.
Proof. exact (quiet_fields c s e). Qed.

(** Reading the data block: an error of Python is that of one of the listed classes, on that same text. *)
Theorem C72_data_partial s e : read_data_card s = Py e ->
  exists c, In (Known c) data_entries /\ In (c_name c) (map fst raising) /\ card_from_mcnp ext fam c s = Py e.
Proof. exact (data_raises s e). Qed.

(** Files: one number replaced by a shorthand, or by [nan], ends the reading of the whole problem. *)
Definition jump_file : str := text_of ["a ball"; "1 1 -7.8 -1 imp:n 1"; ""; "1 so 5"; ""; "mode n"; "nps j"]%string.
Definition universe_file : str := text_of ["a ball"; "1 1 -7.8 -1 imp:n 1 u=j"; ""; "1 so 5"; ""; "mode n"; "nps 10"]%string.
Definition nan_file : str := text_of ["a ball"; "1 1 -7.8 -1 imp:n 1"; ""; "nan so 5"; ""; "mode n"; "nps 10"]%string.
Theorem C72_file_refuted : read_inp jump_file = Py TypeError /\ read_inp universe_file = Py TypeError /\ read_inp nan_file = Py ValueError.
Proof. repeat split; vm_compute; reflexivity. Qed.
Theorem C72_cards_refuted :
  read_data_card (L "kcode j 1 30 130 4500") = Py AttributeError /\
  read_data_card (L "f4:n (1 2 3) 4 t") = Py AssertionError /\ read_data_card (L "files nan a") = Py ValueError /\
  read_surface_card (L "nan so 1") = Py ValueError /\ read_cell_card (L "nan 0 1 ") = Py ValueError /\
  read_cell_card (L "1 0 1 u=j") = Py TypeError.
Proof. repeat split; vm_compute; reflexivity. Qed.

(** The hypotheses are met: of the 675 classes, 504 are not listed (so are quiet), and 629 are not in [raising_long]. *)
Definition count (f : cls -> bool) : nat := List.length (filter f all_classes).
Example how_many : (count (fun _ => true), count (fun c => negb (noisy c)), count (fun c => negb (listed raising_long (c_name c)))) = (675, 504, 629).
Proof. vm_compute. reflexivity. Qed.
Lemma by_place n c : nth_error all_classes n = Some c -> In c all_classes. Proof. apply nth_error_In. Qed.
Example quiet_classes : In k_Mode all_classes /\ ~ In (c_name k_Mode) (map fst raising) /\ ~ In (c_name k_Mode) undecided /\
  (exists x, card_from_mcnp ext fam k_Mode (L "mode n p") = Ok x) /\ card_from_mcnp ext fam k_Mode (L "mode") = Lib InpError.
Proof.
  split; [apply (by_place 269); vm_compute; reflexivity|]. split; [intros H; apply listed_in in H; vm_compute in H; discriminate|].
  split; [intros H; apply listed_in in H; vm_compute in H; discriminate|]. split; [eexists|]; vm_compute; reflexivity.
Qed.
(** A card that raises only on shorthands, and the shorthand. *)
Example short_nps : In k_Nps all_classes /\ ~ In (c_name k_Nps) raising_long /\ card_from_mcnp ext fam k_Nps (L "nps j") = Py TypeError /\
  field k_Nps (L "nps j") 1 = Some (L " j") /\ shorthand (L " j").
Proof.
  split; [apply (by_place 352); vm_compute; reflexivity|]. split; [intros H; apply listed_in in H; vm_compute in H; discriminate|].
  split; [vm_compute; reflexivity|]. split; [vm_compute; reflexivity|]. eexists. vm_compute. reflexivity.
Qed.

Print Assumptions C72_classes_refuted.
Print Assumptions C72_classes_partial.
Print Assumptions C72_shorthands_partial.
Print Assumptions C72_data_partial.
Print Assumptions C72_file_refuted.
Print Assumptions C72_cards_refuted.
