(** MESHTAL files as MCNP writes them: columns of a line, the header, the file. *)

From Coq Require Import Ascii String NArith ZArith Bool Arith List.
From Verif Require Import PyStr RegexFacts PyNum Types Meshtal.
Import ListNotations.
Open Scope char_scope.

(** A text of [w] characters on one line. *)
Definition column (w : nat) (s : str) : Prop := length s = w /\ ~ In nl s.
Definition text_line (s : str) : Prop := s <> [] /\ ~ In nl s.

(** ** Lines *)

(** All seven columns. *)
Record full_row := { r_energy : str; r_time : str; r_x : str; r_y : str; r_z : str; r_result : str; r_error : str }.
Definition full_row_ok (r : full_row) : Prop :=
  column 9 (r_energy r) /\ column 11 (r_time r) /\ column 9 (r_x r) /\ column 10 (r_y r) /\ column 10 (r_z r) /\
  column 12 (r_result r) /\ column 12 (r_error r).
Definition full_row_text (r : full_row) : str :=
  L "  " ++ r_energy r ++ r_time r ++ r_x r ++ r_y r ++ r_z r ++ r_result r ++ r_error r.
Definition full_row_value (r : full_row) : tally :=
  {| t_energy := Some (r_energy r); t_time := Some (r_time r); t_x := Some (r_x r); t_y := Some (r_y r);
     t_z := Some (r_z r); t_result := r_result r; t_error := r_error r |}.

(** Position, result and error only: the layout without energy and time bins. *)
Record xyz_row := { q_x : str; q_y : str; q_z : str; q_result : str; q_error : str }.
Definition xyz_row_ok (r : xyz_row) : Prop :=
  column 9 (q_x r) /\ column 10 (q_y r) /\ column 10 (q_z r) /\ column 12 (q_result r) /\ column 12 (q_error r).
Definition xyz_row_text (r : xyz_row) : str :=
  L "  " ++ q_x r ++ q_y r ++ q_z r ++ q_result r ++ q_error r.

(** Any of the five coordinate columns, then result and error. *)
Record any_row := { a_energy : option str; a_time : option str; a_x : option str; a_y : option str; a_z : option str;
                    a_result : str; a_error : str }.
Definition some_column (w : nat) (o : option str) : Prop := match o with Some s => column w s | None => True end.
Definition any_row_ok (r : any_row) : Prop :=
  some_column 9 (a_energy r) /\ some_column 11 (a_time r) /\ some_column 9 (a_x r) /\ some_column 10 (a_y r) /\
  some_column 10 (a_z r) /\ column 12 (a_result r) /\ column 12 (a_error r).
Definition column_text (o : option str) : str := match o with Some s => s | None => [] end.
Definition any_row_text (r : any_row) : str :=
  L "  " ++ column_text (a_energy r) ++ column_text (a_time r) ++ column_text (a_x r) ++ column_text (a_y r) ++
  column_text (a_z r) ++ a_result r ++ a_error r.

(** A line of a file: blanks, [n] characters of coordinates, result and error. *)
Definition row_ok (s : str) : Prop :=
  exists t, s = L "  " ++ t /\ ~ In nl s /\ In (length t) [29 + 24; 39 + 24; 49 + 24].

(** ** Header *)

Record hdata := {
  h_code : str; h_version : str; h_ld : str; h_probid : str; h_title : str; h_histories : N; h_number : Z;
  h_particle : str; h_columns : str;
  h_x : option str; h_y : option str; h_z : option str; h_time : option str; h_energy : option str }.
Definition bin_ok (o : option str) : Prop := match o with Some s => text_line s | None => True end.
Definition hdata_ok (h : hdata) : Prop :=
  column 7 (h_code h) /\ column 6 (h_version h) /\ column 10 (h_ld h) /\ column 20 (h_probid h) /\
  text_line (h_title h) /\ length (str_of_N (h_histories h)) <= 14 /\ length (str_of_Z (h_number h)) <= 10 /\
  column 8 (h_particle h) /\ text_line (h_columns h) /\
  Forall bin_ok [h_x h; h_y h; h_z h; h_time h; h_energy h] /\
  exists s, In (Some s) [h_x h; h_y h; h_z h; h_time h; h_energy h].
Definition bin_text (name : string) (o : option str) : str :=
  match o with Some s => L "    " ++ L name ++ ":" :: s ++ [nl] | None => [] end.
Definition htext (h : hdata) : str :=
  h_code h ++ L "version " ++ h_version h ++ L "ld=" ++ h_ld h ++ L "probid =" ++ h_probid h ++ nl ::
  sp :: h_title h ++ nl ::
  L " Number of histories used for normalizing tallies =" ++ rjust 17 (str_of_N (h_histories h) ++ L ".00") ++ nl :: nl ::
  L " Mesh Tally Number" ++ rjust 10 (str_of_Z (h_number h)) ++ nl ::
  sp :: h_particle h ++ L " mesh tally." ++ nl :: nl ::
  L " Tally bin boundaries:" ++ nl ::
  (bin_text "X direction" (h_x h) ++ bin_text "Y direction" (h_y h) ++ bin_text "Z direction" (h_z h) ++
   bin_text "Time bin boundaries" (h_time h) ++ bin_text "Energy bin boundaries" (h_energy h)) ++
  nl :: h_columns h ++ [nl].
Definition hvalue (h : hdata) : header :=
  {| m_code := h_code h; m_version := h_version h; m_ld := h_ld h; m_probid := h_probid h; m_title := h_title h;
     m_histories := IVal (Z.of_N (h_histories h)); m_number := IVal (h_number h); m_particle := h_particle h;
     m_columns := h_columns h; m_bins_x := h_x h; m_bins_y := h_y h; m_bins_z := h_z h;
     m_bins_energy := h_energy h; m_bins_time := h_time h |}.

(** ** Files *)

Record fdata := { f_header : hdata; f_rows : list str }.
Definition fdata_ok (f : fdata) : Prop := hdata_ok (f_header f) /\ f_rows f <> [] /\ Forall row_ok (f_rows f).
(** Every line ended; or the last one not. *)
Definition ftext (f : fdata) : str := htext (f_header f) ++ concat (map (fun r => r ++ [nl]) (f_rows f)).
Definition ftext_open (f : fdata) : str := htext (f_header f) ++ join [nl] (f_rows f).
