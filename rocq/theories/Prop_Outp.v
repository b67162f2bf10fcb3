(** Properties C41 and C63 to C66: OUTP files. *)

From Coq Require Import Ascii String Bool Arith List.
From Verif Require Import PyStr Types OutpTables Outp OutpSamples OutpSpec OutpFacts OutpFacts2 OutpFacts3 OutpFacts4 OutpFacts5.
Import ListNotations.
Open Scope list_scope.

(** * C41: every block that is recognised is kept, in order *)

(** Every text has no line that begins with a digit, and then has no blocks; or it is
    a header followed by pages, and every page some class reads is a block, in the
    order of the pages. *)
Theorem C41_every_page : forall s,
  (no_digit_line s /\ read_outp s = bind (table_from_mcnp t_Header s) (fun hd => Ok {| o_header := hd; o_blocks := [] |})) \/
  exists h q ps d t bs, s = h ++ q ++ concat (map page ps) /\ no_digit_line h /\ digit d /\ q ++ concat (map page ps) = nl :: d :: t /\
    no_page q /\ Forall no_page ps /\ keeps all_readers (q :: ps) bs /\
    read_outp s = bind (table_from_mcnp t_Header (h ++ [nl])) (fun hd => Ok {| o_header := hd; o_blocks := bs |}).
Proof. exact (outp_every (list str) block (table_from_mcnp t_Header) all_readers). Qed.
(** The pages decide the blocks. *)
Theorem C41_determined : forall ps bs bs', keeps all_readers ps bs -> keeps all_readers ps bs' -> bs = bs'.
Proof. intros ps bs bs' H H'. rewrite (keeps_unique _ _ _ _ H). symmetry. exact (keeps_unique _ _ _ _ H'). Qed.
Definition two_pages : str := removelast sample_HEADER ++ concat (map (fun s => nl :: s) [sample_NEUTRON_ACTIVITY; L "1unknown"; sample_TALLY_8B]).
Example C41_nontrivial : exists x v y, read_outp two_pages = Ok x /\ o_blocks x = [BTable t_NeutronActivity v; BTally y_Tally_8B y].
Proof. do 3 eexists. split; vm_compute; reflexivity. Qed.
(** Of the tallies with a number, [to_dataframe] has the last one, and nothing else. *)
Theorem C41_frames_partial : forall (x : outp (list str) block) k b,
  In (k, b) (dataframe (list str) block block_number x) <->
  exists l1 l2, o_blocks x = l1 ++ b :: l2 /\ block_number b = Some k /\ Forall (fun c => block_number c <> Some k) l2.
Proof. exact (dataframe_last (list str) block block_number). Qed.
(** So of two tallies with one number only one is reachable there. *)
Definition same_number : str := removelast sample_HEADER ++ concat (map (fun s => nl :: s) [sample_TALLY_8A; sample_TALLY_8B]).
Theorem C41_frames_refuted : exists x a b, read_outp same_number = Ok x /\ o_blocks x = [a; b] /\ a <> b /\
  block_number a = Some (L "18") /\ block_number b = Some (L "18") /\
  dataframe (list str) block block_number x = [(L "18", b)].
Proof. do 3 eexists. split; [vm_compute; reflexivity|]. split; [reflexivity|]. split; [discriminate|]. repeat split; vm_compute; reflexivity. Qed.

(** * C63: what is read from a table of strings is written back *)

Theorem C63_tables : forall t s v, In t [t_Mcnp; t_NeutronActivity; t_PhotonActivity; t_ProblemSummary] ->
  table_from_mcnp t s = Ok v -> table_to_mcnp t v = s.
Proof. exact table_exact. Qed.
(** In the other four one place is not kept. *)
Theorem C63_header_partial : forall s v, table_from_mcnp t_Header s = Ok v ->
  exists x b, x <> [] /\ Forall (fun c => is_space c = true) x /\ s = x ++ L "Code Name & Version" ++ b /\
    table_to_mcnp t_Header v = srepeat 10 [sp] ++ L "Code Name & Version" ++ b.
Proof. exact header_one. Qed.
Theorem C63_starting_partial : forall s v, table_from_mcnp t_StartingMcrun s = Ok v ->
  exists x b, s = L "1starting mcrun" ++ x :: b /\ table_to_mcnp t_StartingMcrun v = L "1starting mcrun" ++ "."%char :: b.
Proof. exact starting_one. Qed.
Theorem C63_analysis_partial : forall s v, table_from_mcnp t_AnalysisTallyFluctuation s = Ok v ->
  exists a x b, length x = 9 /\ s = a ++ L ")**2 = (" ++ x ++ b /\
    table_to_mcnp t_AnalysisTallyFluctuation v = a ++ L ")**2 = (" ++ nth 32 v ([] : str) ++ b.
Proof. exact analysis_one. Qed.
Theorem C63_density_partial : forall s v, table_from_mcnp t_UnnormedTallyDensity s = Ok v ->
  exists a x b, length x = 3 /\ s = a ++ L "(d=decade,slope= " ++ x ++ b /\
    table_to_mcnp t_UnnormedTallyDensity v = a ++ L "(d=decade,slope= " ++ L "0.0" ++ b.
Proof. exact unnormed_one. Qed.
Example C63_nontrivial :
  (exists v, table_from_mcnp t_Mcnp sample_MCNP = Ok v) /\ (exists v, table_from_mcnp t_NeutronActivity sample_NEUTRON_ACTIVITY = Ok v) /\
  (exists v, table_from_mcnp t_PhotonActivity sample_PHOTON_ACTIVITY = Ok v) /\ (exists v, table_from_mcnp t_ProblemSummary sample_PROBLEM_SUMMARY = Ok v) /\
  (exists v, table_from_mcnp t_Header sample_HEADER = Ok v) /\ (exists v, table_from_mcnp t_StartingMcrun sample_STARTING_MCRUN = Ok v) /\
  (exists v, table_from_mcnp t_AnalysisTallyFluctuation sample_ANALYSIS_TALLY_FLUCTUATION = Ok v) /\
  (exists v, table_from_mcnp t_UnnormedTallyDensity sample_UNNORMED_TALLY_DENSITY = Ok v).
Proof. repeat split; eexists; vm_compute; reflexivity. Qed.
(** The slope of the project's own example is lost. *)
Theorem C63_refuted : exists v, table_from_mcnp t_UnnormedTallyDensity sample_UNNORMED_TALLY_DENSITY = Ok v /\
  table_to_mcnp t_UnnormedTallyDensity v <> sample_UNNORMED_TALLY_DENSITY.
Proof. eexists. split; [vm_compute; reflexivity|]. vm_compute. discriminate. Qed.

(** * C64: a file made of such pages is written back *)

Theorem C64_file_partial : forall h hd ps bs, no_digit_line h -> ps <> [] -> Forall no_page ps ->
  table_from_mcnp t_Header (h ++ [nl]) = Ok hd -> (exists t, h = srepeat 10 [sp] ++ "C"%char :: t) ->
  Forall2 (fun p b => p <> [] /\ first_reader block all_readers ("1"%char :: p) = Some b /\ block_to_mcnp b = "1"%char :: p) ps bs ->
  read_outp (h ++ concat (map page ps)) = Ok {| o_header := hd; o_blocks := bs |} /\
  write_outp {| o_header := hd; o_blocks := bs |} = h ++ concat (map page ps).
Proof. exact file_kept. Qed.
Definition kept_pages : list str := map (@tl ascii) [sample_NEUTRON_ACTIVITY; sample_TALLY_8B; sample_PROBLEM_SUMMARY].
Example C64_nontrivial : exists hd bs, table_from_mcnp t_Header (removelast sample_HEADER ++ [nl]) = Ok hd /\
  (exists t, removelast sample_HEADER = srepeat 10 [sp] ++ "C"%char :: t) /\
  Forall2 (fun p b => p <> [] /\ first_reader block all_readers ("1"%char :: p) = Some b /\ block_to_mcnp b = "1"%char :: p) kept_pages bs.
Proof.
  do 2 eexists. split; [vm_compute; reflexivity|]. split; [eexists; vm_compute; reflexivity|].
  repeat (apply Forall2_cons; [split; [discriminate|]; split; vm_compute; reflexivity|]). apply Forall2_nil.
Qed.
(** A page no class reads is not in what is written. *)
Theorem C64_refuted : exists x, read_outp two_pages = Ok x /\ write_outp x <> two_pages /\
  write_outp x = removelast sample_HEADER ++ concat (map (fun s => nl :: s) [sample_NEUTRON_ACTIVITY; sample_TALLY_8B]).
Proof. eexists. split; [vm_compute; reflexivity|]. split; [vm_compute; discriminate | vm_compute; reflexivity]. Qed.

(** * C65: the lines of a tally are kept *)

(** One line, and any number of lines: each is found, and none else. *)
Theorem C65_line : forall b c e, word b -> word c -> word e ->
  line_from_mcnp (line_text (b, c, e)) = Ok [b; c; e] /\ table_to_mcnp t_Line [b; c; e] = line_text (b, c, e).
Proof. intros b c e B C E. exact (conj (line_read (b, c, e) (conj B (conj C E))) (line_write (b, c, e))). Qed.
Theorem C65_cell_subtally : forall w total ls, one_line w -> one_line total -> ls <> [] -> Forall line_ok ls ->
  let x := {| b_strings := [w; total]; b_lines := map (fun '(b, c, e) => [b; c; e]) ls |} in
  subtally_from_mcnp s_Subtally_4 (cell_text w total ls) = Ok x /\ subtally_to_mcnp s_Subtally_4 x = cell_text w total ls.
Proof. intros w total ls W T N F. exact (conj (cell_read (w, total, ls) (conj W (conj T (conj N F)))) (cell_write (w, total, ls))). Qed.
Theorem C65_surface_subtally : forall w total ls, one_line w -> one_line total -> ls <> [] -> Forall line_ok ls ->
  let x := {| b_strings := [w; total]; b_lines := map (fun '(b, c, e) => [b; c; e]) ls |} in
  subtally_from_mcnp s_Subtally_2 (surface_text w total ls) = Ok x /\ subtally_to_mcnp s_Subtally_2 x = surface_text w total ls.
Proof. intros w total ls W T N F. exact (conj (surface_read (w, total, ls) (conj W (conj T (conj N F)))) (surface_write (w, total, ls))). Qed.
Theorem C65_angle_subtally : forall w from to total ls, angle_ok (w, from, to, total, ls) ->
  let x := {| b_strings := [w; from; to; total]; b_lines := map (fun '(b, c, e) => [b; c; e]) ls |} in
  subtally_from_mcnp s_Subtally_1 (angle_text w from to total ls false) = Ok x /\
  subtally_to_mcnp s_Subtally_1 x = angle_text w from to total ls false.
Proof. intros w from to total ls O. exact (conj (angle_read (w, from, to, total, ls) O) (angle_write (w, from, to, total, ls))). Qed.
Definition some_lines : list (str * str * str) :=
  [(L "1.0000E-01", L "1.08900E-04", L "0.0303"); (L "1.1934E-01", L "8.30000E-06", L "0.1098"); (L "1.3867E-01", L "7.80000E-06", L "0.1132")].
Definition cell_12 : sub_data := (L "200" ++ srepeat 125 [sp], L "2.89500E-04 0.0186", some_lines).
Definition angle_12 : angle_data := (L " 2.1 ", L " 0.00000E+00", L "9.00000E+01", L "2.89500E-04 0.0186", some_lines).
Ltac no_break := match goal with |- ~ In nl ?s => let H := fresh in intros H; vm_compute in H; repeat (destruct H as [H|H]; [discriminate H|]); exact H end.
Example C65_nontrivial : sub_ok cell_12 /\ angle_ok angle_12.
Proof.
  assert (F : Forall line_ok some_lines).
  { repeat (apply Forall_cons; [repeat split; try discriminate; repeat (apply Forall_cons; [reflexivity|]); apply Forall_nil|]). apply Forall_nil. }
  split; (repeat split; try discriminate; try no_break; exact F).
Qed.
(** A line laid out in another way is left out without an error. *)
Theorem C65_refuted : exists x, subtally_from_mcnp s_Subtally_4
    (L " cell  1" ++ [nl] ++ L "      energy   " ++ [nl] ++ L "    1.0  2.0 0.1" ++ [nl] ++ line_text (L "2.0", L "3.0", L "0.2") ++ L "      total      5.0 0.1" ++ [nl; nl]) = Ok x /\
  b_lines x = [[L "2.0"; L "3.0"; L "0.2"]].
Proof. eexists. split; vm_compute; reflexivity. Qed.

(** * C66: the page of a tally is written back, with all its subtallies *)

Definition cell_values (ds : list sub_data) : list subtally :=
  map (fun '(w, total, ls) => {| b_strings := [w; total]; b_lines := map (fun '(b, c, e) => [b; c; e]) ls |}) ds.
Definition angle_values (ds : list angle_data) : list subtally :=
  map (fun '(w, from, to, total, ls) => {| b_strings := [w; from; to; total]; b_lines := map (fun '(b, c, e) => [b; c; e]) ls |}) ds.
Definition keeps_page (c : tally_class) (s : str) (x : tally) : Prop := tally_from_mcnp c s = Ok x /\ tally_to_mcnp c x = s.
Theorem C66_volumes : forall d ds, tally_ok d -> ds <> [] -> Forall sub_ok ds ->
  keeps_page y_Tally_4 (tally_text (volumes d) (concat (map cell_of ds)) (tally_good d) d)
    {| w_strings := [d_number d; d_nps d; d_type d; d_particles d; d_where d; d_size d; d_desired d; d_observed d; d_passed d; d_asymmetric d; d_symmetric d];
       w_message := None; w_subs := cell_values ds |}.
Proof. intros d ds O N F. exact (conj (tally4_read d ds O N F) (tally4_write d ds)). Qed.
Theorem C66_areas : forall d ds, tally_ok d -> ds <> [] -> Forall sub_ok ds ->
  keeps_page y_Tally_2 (tally_text (areas d) (concat (map surface_of ds)) (tally_good d) d)
    {| w_strings := [d_number d; d_nps d; d_type d; d_particles d; d_where d; d_size d; d_desired d; d_observed d; d_passed d; d_asymmetric d; d_symmetric d];
       w_message := None; w_subs := cell_values ds |}.
Proof. intros d ds O N F. exact (conj (tally2_read d ds O N F) (tally2_write d ds)). Qed.
Theorem C66_angles : forall d ds, tally_ok d -> ds <> [] -> Forall angle_ok ds ->
  keeps_page y_Tally_1A (angle_page d ds (tally_good d))
    {| w_strings := [d_number d; d_nps d; d_type d; d_particles d; d_desired d; d_observed d; d_passed d; d_asymmetric d; d_symmetric d];
       w_message := None; w_subs := angle_values ds |} /\
  keeps_page y_Tally_1B (angle_page d ds (tally_bad d))
    {| w_strings := [d_number d; d_nps d; d_type d; d_particles d; d_desired d; d_observed d; d_passed d; d_missed d];
       w_message := None; w_subs := angle_values ds |}.
Proof.
  intros d ds O N F. exact (conj (conj (tally1a_read d ds O N F) (tally1a_write d ds)) (conj (tally1b_read d ds O N F) (tally1b_write d ds))).
Qed.
(** Pulse heights: read with or without a line of their own, written back without. *)
Theorem C66_pulses_read : forall d ms ds, tally_ok d -> message_ok ms -> ds <> [] -> Forall sub_ok ds ->
  tally_from_mcnp y_Tally_8A (pulse_page d ms ds (tally_good d)) = Ok
    {| w_strings := [d_number d; d_nps d; d_type d; d_particles d; d_desired d; d_observed d; d_passed d; d_asymmetric d; d_symmetric d];
       w_message := option_map (cons nl) ms; w_subs := cell_values ds |} /\
  tally_from_mcnp y_Tally_8B (pulse_page d ms ds (tally_bad d)) = Ok
    {| w_strings := [d_number d; d_nps d; d_type d; d_particles d; d_desired d; d_observed d; d_passed d; d_missed d];
       w_message := option_map (cons nl) ms; w_subs := cell_values ds |}.
Proof. intros d ms ds O M N F. exact (conj (tally8a_read d ms ds O M N F) (tally8b_read d ms ds O M N F)). Qed.
Theorem C66_pulses_partial : forall d ds, tally_ok d -> ds <> [] -> Forall sub_ok ds ->
  keeps_page y_Tally_8A (pulse_page d None ds (tally_good d))
    {| w_strings := [d_number d; d_nps d; d_type d; d_particles d; d_desired d; d_observed d; d_passed d; d_asymmetric d; d_symmetric d];
       w_message := None; w_subs := cell_values ds |} /\
  keeps_page y_Tally_8B (pulse_page d None ds (tally_bad d))
    {| w_strings := [d_number d; d_nps d; d_type d; d_particles d; d_desired d; d_observed d; d_passed d; d_missed d];
       w_message := None; w_subs := cell_values ds |}.
Proof.
  intros d ds O N F. assert (M : message_ok None) by (intros m E; discriminate E).
  exact (conj (conj (tally8a_read d None ds O M N F) (tally8a_write d ds)) (conj (tally8b_read d None ds O M N F) (tally8b_write d ds))).
Qed.
Definition tally_18 : tally_data :=
  {| d_number := L "      18"; d_nps := L "   10000000"; d_type := L "8    pulse height distribution.                   units   number         "; d_particles := L "photons  ";
     d_where := L "      200 "; d_size := L "1.00000E+00"; d_desired := L " desired      random"; d_observed := L " observed     random"; d_passed := L " passed?        yes";
     d_asymmetric := L "2.8417E-04 to 2.9493E-04"; d_symmetric := L "2.8412E-04 to 2.9488E-04"; d_missed := L " 2" |}.
Example C66_nontrivial : tally_ok tally_18 /\ message_ok (Some (L "           with a note")).
Proof.
  split; [|intros m [= <-]; split; [no_break | discriminate]].
  repeat split; try discriminate; try no_break; (eexists; split; [reflexivity|]; split; [discriminate | no_break]).
Qed.
(** The line of its own is written as four lines, and that page is no longer read. *)
Theorem C66_refuted : exists x, tally_from_mcnp y_Tally_8A (pulse_page tally_18 (Some (L "           with a note")) [cell_12] (tally_good tally_18)) = Ok x /\
  tally_to_mcnp y_Tally_8A x = pulse_page tally_18 (Some (srepeat 11 [sp] ++ nl :: L "           with a note" ++ [nl])) [cell_12] (tally_good tally_18) /\
  tally_from_mcnp y_Tally_8A (tally_to_mcnp y_Tally_8A x) = Lib OutpError.
Proof. eexists. split; [vm_compute; reflexivity|]. split; vm_compute; reflexivity. Qed.
(** MCNP's own pages of angle bins have a blank in the line after the total; it is lost. *)
Theorem C66_angles_refuted : exists x, tally_from_mcnp y_Tally_1A sample_TALLY_1A = Ok x /\ tally_to_mcnp y_Tally_1A x <> sample_TALLY_1A.
Proof. eexists. split; [vm_compute; reflexivity|]. vm_compute. discriminate. Qed.

Print Assumptions C41_every_page.
Print Assumptions C41_determined.
Print Assumptions C41_frames_partial.
Print Assumptions C41_frames_refuted.
Print Assumptions C63_tables.
Print Assumptions C63_header_partial.
Print Assumptions C63_starting_partial.
Print Assumptions C63_analysis_partial.
Print Assumptions C63_density_partial.
Print Assumptions C63_refuted.
Print Assumptions C64_file_partial.
Print Assumptions C64_refuted.
Print Assumptions C65_line.
Print Assumptions C65_cell_subtally.
Print Assumptions C65_surface_subtally.
Print Assumptions C65_angle_subtally.
Print Assumptions C65_refuted.
Print Assumptions C66_volumes.
Print Assumptions C66_areas.
Print Assumptions C66_angles.
Print Assumptions C66_pulses_read.
Print Assumptions C66_pulses_partial.
Print Assumptions C66_refuted.
Print Assumptions C66_angles_refuted.
