(** Properties C40, C56, C57, C58: MESHTAL lines and files. *)

From Coq Require Import ZArith NArith Bool String List Lia.
From Verif Require Import PyStr RegexFacts PyNum Types PtracFacts PtracFacts2 Meshtal MeshtalSpec MeshtalFacts MeshtalFacts2 MeshtalFacts3.
Import ListNotations.
Open Scope string_scope.

(** * C40: a line that was read is written back as the same characters *)

(** The line end, if the line had one, is not part of what is written. *)
Theorem C40_tally_line s t : tally_from_mcnp s = Ok t -> s = tally_to_mcnp t \/ s = (tally_to_mcnp t ++ [nl])%list.
Proof. exact (tally_rewrite s t). Qed.

(** Every line of columns, whichever of the first five there are, is read and written
    back. *)
Theorem C40_every_line r : any_row_ok r -> exists t, tally_from_mcnp (any_row_text r) = Ok t /\ tally_to_mcnp t = any_row_text r.
Proof. exact (any_row_rewrite r). Qed.
Definition row0 : any_row :=
  {| a_energy := Some (L "1.234E-01"); a_time := None; a_x := Some (L "  -95.000"); a_y := Some (L "   -90.000"); a_z := None;
     a_result := L " 1.23456E-05"; a_error := L " 2.00000E-02" |}.
Example row0_ok : any_row_ok row0.
Proof. repeat split; try reflexivity; apply notin_notnl; repeat constructor. Qed.

Definition line1 : str := L "     1.234E-01      1.000  -95.000   -90.000    10.000 1.23456E-05 2.00000E-02".
Definition line2 : str := L "    -95.000   -95.000   -90.000 1.23456E-05 2.00000E-02".
Example C40_nontrivial : exists t, tally_from_mcnp line2 = Ok t /\ tally_to_mcnp t = line2.
Proof. eexists. split; vm_compute; reflexivity. Qed.

(** * C56: each column goes to its own attribute *)

(** All seven columns. *)
Theorem C56_columns_partial r : full_row_ok r -> tally_from_mcnp (full_row_text r) = Ok (full_row_value r).
Proof. exact (full_row_read r). Qed.

(** Lines with positions only: the x column is kept as the energy, the beginning of
    the y and z columns as the time, and the end of the z column as x. *)
Theorem C56_positions r : xyz_row_ok r -> exists t,
  tally_from_mcnp (xyz_row_text r) = Ok t /\ t_energy t = Some (q_x r) /\
  t_time t = Some (firstn 11 (q_y r ++ q_z r))%list /\ t_x t = Some (skipn 1 (q_z r)) /\ t_y t = None /\ t_z t = None /\
  t_result t = q_result r /\ t_error t = q_error r.
Proof. exact (xyz_row_read r). Qed.

Definition row1 : xyz_row :=
  {| q_x := L "  -95.000"; q_y := L "   -90.000"; q_z := L "    10.000"; q_result := L " 1.23456E-05"; q_error := L " 2.00000E-02" |}.
Example row1_ok : xyz_row_ok row1.
Proof. repeat split; try reflexivity; apply notin_notnl; repeat constructor. Qed.

(** A line with three positions is not read as three positions. *)
Theorem C56_refuted : ~ (forall r, xyz_row_ok r -> exists t, tally_from_mcnp (xyz_row_text r) = Ok t /\
  t_energy t = None /\ t_x t = Some (q_x r)).
Proof.
  intros H. destruct (H row1 row1_ok) as (t & E & F & _). vm_compute in E. injection E as <-. discriminate F.
Qed.

Definition row2 : full_row :=
  {| r_energy := L "1.234E-01"; r_time := L "      1.000"; r_x := L "  -95.000"; r_y := L "   -90.000"; r_z := L "    10.000";
     r_result := L " 1.23456E-05"; r_error := L " 2.00000E-02" |}.
Example row2_ok : full_row_ok row2.
Proof. repeat split; try reflexivity; apply notin_notnl; repeat constructor. Qed.

(** * C57: reading and writing a file *)

(** The header and every line come back; the end of the last line does not. *)
Theorem C57_file_partial f : fdata_ok f -> forall text, text = ftext f \/ text = ftext_open f -> exists m,
  meshtal_from_mcnp text = Ok m /\ mt_header m = hvalue (f_header f) /\ map tally_to_mcnp (mt_tallies m) = f_rows f /\
  meshtal_to_mcnp m = Ok (ftext_open f).
Proof. exact (meshtal_read f). Qed.

Definition head1 : hdata :=
  {| h_code := L "mcnp   "; h_version := L "6     "; h_ld := L "05/08/13  "; h_probid := L "  11/01/24 10:26:01 ";
     h_title := L "a mesh"; h_histories := 100000; h_number := 14; h_particle := L "neutron ";
     h_columns := L "        X         Y         Z     Result     Rel Error";
     h_x := Some (L "   -100.00    -90.00"); h_y := Some (L "   -100.00   -80.00"); h_z := Some (L "      0.00    20.00");
     h_time := None; h_energy := Some (L " 0.00E+00 1.00E+36") |}.
Definition file1 : fdata := {| f_header := head1; f_rows := [xyz_row_text row1; full_row_text row2] |}.
Example file1_ok : fdata_ok file1.
Proof. exact (fdatab_ok file1 eq_refl). Qed.

(** The text with every line ended is not what is written. *)
Theorem C57_refuted : ~ (forall f, fdata_ok f -> exists m, meshtal_from_mcnp (ftext f) = Ok m /\ meshtal_to_mcnp m = Ok (ftext f)).
Proof.
  intros H. destruct (H file1 file1_ok) as (m & E & F).
  destruct (C57_file_partial file1 file1_ok (ftext file1) (or_introl eq_refl)) as (m' & E' & _ & _ & F').
  rewrite E in E'. injection E' as <-. rewrite F in F'. injection F' as F'. apply (f_equal (@length _)) in F'. vm_compute in F'. discriminate F'.
Qed.

(** A line with energy, x, y and z but no time loses its last nine characters. *)
Definition row3 : str := L "  1.234E-01  -95.000   -90.000    10.000 1.23456E-05 2.00000E-02".
Theorem C57_energy_refuted : exists m, meshtal_from_mcnp (htext head1 ++ row3)%list = Ok m /\
  map tally_to_mcnp (mt_tallies m) = [firstn (length row3 - 9) row3].
Proof. eexists. split; vm_compute; reflexivity. Qed.

(** * C58: only library errors *)

Theorem C58_tally_line_partial s : is_py (tally_from_mcnp s) = false.
Proof. exact (tally_no_py s). Qed.

Definition bad_header : str := Eval vm_compute in
  (h_code head1 ++ L "version " ++ h_version head1 ++ L "ld=" ++ h_ld head1 ++ L "probid =" ++ h_probid head1 ++ nl ::
   L " a mesh" ++ nl :: L " Number of histories used for normalizing tallies =" ++ L "         Infinity" ++ nl :: nl ::
   L " Mesh Tally Number        14" ++ nl :: L " neutron  mesh tally." ++ nl :: nl :: L " Tally bin boundaries:" ++ nl ::
   L "    X direction:   -100.00    -90.00" ++ nl :: nl :: L "   X" ++ [nl])%list.
Theorem C58_refuted : mheader_from_mcnp bad_header = Py OverflowError.
Proof. vm_compute. reflexivity. Qed.

Print Assumptions C40_tally_line.
Print Assumptions C40_every_line.
Print Assumptions C56_columns_partial.
Print Assumptions C56_positions.
Print Assumptions C56_refuted.
Print Assumptions C57_file_partial.
Print Assumptions C57_refuted.
Print Assumptions C57_energy_refuted.
Print Assumptions C58_tally_line_partial.
Print Assumptions C58_refuted.
