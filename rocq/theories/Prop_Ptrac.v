(** Properties C37, C54 and C55: reading and writing PTRAC files.
    The texts and values are those of PtracSpec. *)

From Coq Require Import NArith ZArith Bool String List.
From Verif Require Import PyStr PyNum Types TypesSpec TypesFacts2 Ptrac PtracSpec PtracFacts2 PtracFacts3 PtracFacts4 PtracFacts5 PtracFacts6.
Import ListNotations.

(** ** C37 *)

(** Lines.  The text of the fields is read as their values, and the value is
    written as that text. *)
Theorem C37_j_line : forall j, j_data_ok j ->
  j_from_mcnp (jd_form j) (j_text j) = Ok (j_value j) /\ j_to_mcnp (j_value j) = j_text j.
Proof. exact (fun j H => conj (j_read j H) (j_write j (proj1 (proj2 (proj2 H))))). Qed.
Print Assumptions C37_j_line.

(** The event types accepted are those of the specification. *)
Theorem C37_event_types : forall s t, event_type_from_mcnp s = Ok t <-> In s event_types /\ t = s.
Proof. exact event_type_iff. Qed.
Print Assumptions C37_event_types.

Theorem C37_p_line : forall k l, k <= 1 -> p_data_ok k l ->
  p_from_mcnp k (p_text l) = Ok (p_value k l) /\ p_to_mcnp (p_value k l) = Ok (p_text l).
Proof. exact p_both. Qed.
Print Assumptions C37_p_line.

Theorem C37_n_line : forall l, n_data_ok l ->
  n_from_mcnp (n_text l) = Ok (n_value l) /\ n_to_mcnp (n_value l) = n_text l.
Proof. exact (fun l H => conj (n_read l H) (n_write l)). Qed.
Print Assumptions C37_n_line.

(** I lines: the reading holds in general, the writing when no field is zero. *)
Theorem C37_i_line_partial : forall i, i_data_ok i ->
  i_from_mcnp (i_text i) = Ok (i_value i) /\ (i_nonzero i -> i_to_mcnp (i_value i) = Ok (i_text i)).
Proof. exact (fun i H => conj (i_read i H) (i_write i H)). Qed.
Print Assumptions C37_i_line_partial.

(** V lines: rows of ten. *)
Theorem C37_v_line_partial : forall rows, v_data_ok rows ->
  v_from_mcnp (v_text rows) = Ok (v_value rows) /\ v_to_mcnp (v_value rows) = Ok (v_text rows).
Proof. exact (fun r H => conj (v_read r H) (v_write r H)). Qed.
Print Assumptions C37_v_line_partial.

(** L lines: rows of thirty, the last one shorter, numbers below four characters. *)
Theorem C37_l_line_partial : forall rows last, l_data_ok rows last ->
  l_from_mcnp (l_text rows last) = Ok (l_value rows last) /\ l_to_mcnp (l_value rows last) = l_text rows last.
Proof. exact (fun r l H => conj (l_read r l H) (l_write r l H)). Qed.
Print Assumptions C37_l_line_partial.

(** Events, histories, headers and files. *)
Theorem C37_event : forall k e, In k [0; 1] -> e_data_ok k e ->
  event_from_mcnp (e_text e) = Ok (e_value k e) /\ event_to_mcnp (e_value k e) = Ok (e_text e).
Proof. exact (fun k e HK H => conj (event_read k e HK H) (event_write k e HK H)). Qed.
Print Assumptions C37_event.

Theorem C37_history : forall h, h_data_ok h ->
  history_from_mcnp (h_text h) = Ok (h_value h) /\ history_to_mcnp (h_value h) = Ok (h_text h).
Proof. exact (fun h H => conj (history_read h H) (history_write h H)). Qed.
Print Assumptions C37_history.

Theorem C37_header : forall k, header_data_ok k ->
  header_from_mcnp (header_text k) = Ok (header_value k) /\ header_to_mcnp (header_value k) = Ok (header_text k).
Proof. exact (fun k H => conj (header_read k H) (header_write k H)). Qed.
Print Assumptions C37_header.

Theorem C37_file : forall f, file_data_ok f ->
  ptrac_from_mcnp (file_text f) = Ok (file_value f) /\ ptrac_to_mcnp (file_value f) = Ok (file_text f).
Proof. exact (fun f H => conj (file_read f H) (file_write f H)). Qed.
Print Assumptions C37_file.

Open Scope string_scope.
Definition s3 (n : bool) (m : N) (e : Z) : sci := {| sneg := n; mant := m; expo := e |}.
Definition ex_j0 : jdata := {| jd_form := 0; jd_next := L "4000"; jd_ints := [4; -7; 40; 1]%Z |}.
Definition ex_j1 : jdata := {| jd_form := 1; jd_next := L "-2030"; jd_ints := [1234567890; 5; 3; 40; 1]%Z |}.
Definition ex_j7 : jdata := {| jd_form := 7; jd_next := L "9000"; jd_ints := [5; 3; 40; 1; 0; -999999999; 12]%Z |}.
Definition ex_p0 : list sci := [s3 false 12345 2; s3 true 99999 (-99); s3 false 0 0].
Definition ex_p1 : list sci := ex_p0 ++ ex_p0 ++ [s3 false 10000 99; s3 true 0 0; s3 true 70001 0].
Definition ex_h0 : hdata := {|
  hd_i := {| id_nps := 12; id_type := L "1000"; id_number := Some 3%Z; id_tfc := Some (s3 false 100000 1) |};
  hd_events := [(0, {| ed_j := ex_j0; ed_p := ex_p0 |}); (0, {| ed_j := ex_j1; ed_p := ex_p0 |});
                (0, {| ed_j := ex_j7; ed_p := ex_p0 |})] |}.
Definition ex_h1 : hdata := {|
  hd_i := {| id_nps := 13; id_type := L "3000"; id_number := None; id_tfc := None |};
  hd_events := [(0, {| ed_j := ex_j1; ed_p := ex_p0 |})] |}.
Definition ex_row : list sci := repeat (s3 false 12345 3) 10.
Definition ex_header : header_data := {|
  kd_code := L "mcnp    "; kd_version := L "6                        "; kd_date := L "05/08/13 ";
  kd_run := L "11/17/26 09:30:00 "; kd_title := srepeat 8 (L "a title.. "); kd_v := [ex_row; ex_row];
  kd_n := [5; 3; 6; 3; 6; 3; 6; 3; 6; 3; 4; 0; 0; 0; 0; 0; 0; 0; 0; -9999]%Z;
  kd_l := [repeat 17%Z 30]; kd_last := [1; 2; -99]%Z |}.
Definition ex_file : file_data := {| fd_header := ex_header; fd_histories := [ex_h0; ex_h1; ex_h0] |}.

Definition ex_h2 : hdata := {| hd_i := hd_i ex_h0; hd_events := [(1, {| ed_j := ex_j0; ed_p := ex_p1 |})] |}.
Definition ex_h3 : hdata := {| hd_i := hd_i ex_h1; hd_events := [(1, {| ed_j := ex_j0; ed_p := ex_p1 |})] |}.

Example C37_case : file_data_ok ex_file /\ Forall h_data_ok [ex_h0; ex_h1; ex_h2; ex_h3] /\
  e_text {| ed_j := ex_j1; ed_p := ex_p0 |} =
  (L "      -20301234567890         5         3        40         1" ++ nl ::
   L "   0.12345E+02 -0.99999E-99  0.00000E+00" ++ [nl])%list.
Proof.
  split; [apply fileb_ok; vm_compute; reflexivity|]. split; [|vm_compute; reflexivity].
  repeat (constructor; [apply hb_ok; vm_compute; reflexivity|]). constructor.
Qed.

(** Where the full claim fails: [count] zeros on an L line with count a multiple
    of thirty, four-character numbers on an L line (read as one number), a V line of another count, a zero
    field of an I line, and an exponent of three digits. *)
Theorem C37_refuted :
  (exists v, l_from_mcnp (l_row (repeat 0%Z 30)) = Ok v /\ l_to_mcnp v <> l_row (repeat 0%Z 30)) /\
  l_from_mcnp (l_row [1000; 2000]%Z) = Ok [IVal 10002000] /\
  (exists s v t, v_from_mcnp s = Ok v /\ v_to_mcnp v = Ok t /\ t <> s) /\
  (exists i t, i_data_ok i /\ i_from_mcnp (i_text i) = Ok (i_value i) /\ i_to_mcnp (i_value i) = Ok t /\ t <> i_text i) /\
  (exists s v t, p_from_mcnp 0 s = Ok v /\ p_to_mcnp v = Ok t /\ length t <> length s).
Proof.
  split; [|split; [|split; [|split]]].
  - eexists. split; [vm_compute; reflexivity|vm_compute; discriminate].
  - vm_compute. reflexivity.
  - exists (sp :: P_field 4 (s3 false 12345 1) ++ [nl])%list. eexists. eexists.
    split; [vm_compute; reflexivity|]. split; [vm_compute; reflexivity|vm_compute; discriminate].
  - exists {| id_nps := 1; id_type := L "1000"; id_number := Some 0%Z; id_tfc := None |}. eexists.
    split; [apply ib_ok; vm_compute; reflexivity|]. split; [vm_compute; reflexivity|].
    split; [vm_compute; reflexivity|vm_compute; discriminate].
  - exists (sp :: concat (repeat (L "  0.12345+123") 3))%list. eexists. eexists.
    split; [vm_compute; reflexivity|]. split; [vm_compute; reflexivity|vm_compute; discriminate].
Qed.
Print Assumptions C37_refuted.

(** ** C54 *)

(** An unknown event type, an integer field reading inf, and a shorthand in a
    coordinate make the readers fail with an error outside the library's. *)
Theorem C54_library_errors_refuted :
  event_from_mcnp (j_text {| jd_form := 0; jd_next := L "1234"; jd_ints := [1; 2; 3; 4]%Z |} ++ nl :: p_text ex_p0 ++ [nl])%list
    = Py UnboundLocalError /\
  j_from_mcnp 0 (sp :: rjust 10 (L "4000") ++ concat (repeat (L "       inf") 4))%list = Py OverflowError /\
  events_from_mcnp (j_text ex_j0 ++ nl :: sp :: concat (repeat (L "000000000003I") 3) ++ [nl])%list = Py AttributeError.
Proof. split; [|split]; vm_compute; reflexivity. Qed.
Print Assumptions C54_library_errors_refuted.

(** P, V and L lines: whatever the text. *)
Theorem C54_p_line_partial : forall k s, k <= 1 -> is_py (p_from_mcnp k s) = false.
Proof. exact p_no_py. Qed.
Print Assumptions C54_p_line_partial.
Theorem C54_v_line_partial : forall s, is_py (v_from_mcnp s) = false.
Proof. exact v_no_py. Qed.
Print Assumptions C54_v_line_partial.
Theorem C54_l_line_partial : forall s, is_py (l_from_mcnp s) = false.
Proof. exact l_no_py. Qed.
Print Assumptions C54_l_line_partial.
Example C54_case :
  p_from_mcnp 0 (L "abc") = Lib PtracError /\ v_from_mcnp (L "1.5 x --2 y" ++ [nl])%list = Lib TypesError /\
  l_from_mcnp (L " 1 2--3 " ++ [nl])%list = Lib PtracError.
Proof. split; [|split]; vm_compute; reflexivity. Qed.

(** ** C55 *)

(** A file with nine numbers per event is well formed, as C37_history reads each of its
    histories; the file is rejected, or read without its history. *)
Theorem C55_directions_refuted :
  (exists f, file_any f /\ (forall h, In h (fd_histories f) -> history_from_mcnp (h_text h) = Ok (h_value h)) /\
     ptrac_from_mcnp (file_text f) = Lib PtracError) /\
  (exists f p, file_any f /\ fd_histories f <> [] /\ ptrac_from_mcnp (file_text f) = Ok p /\ histories p = []).
Proof.
  split.
  - exists {| fd_header := ex_header; fd_histories := [ex_h2] |}.
    assert (H : file_any {| fd_header := ex_header; fd_histories := [ex_h2] |}) by (apply file_any_ok; vm_compute; reflexivity).
    split; [exact H|]. split; [|vm_compute; reflexivity]. intros h [<-|[]]. apply history_read, hb_ok. vm_compute. reflexivity.
  - exists {| fd_header := ex_header; fd_histories := [ex_h3] |}. eexists.
    split; [apply file_any_ok; vm_compute; reflexivity|]. split; [discriminate|]. split; [vm_compute; reflexivity|reflexivity].
Qed.
Print Assumptions C55_directions_refuted.

(** What holds: files whose events carry positions only. *)
Theorem C55_positions_partial : forall f, file_any f ->
  Forall (fun h => Forall (fun x => fst x = 0) (hd_events h)) (fd_histories f) ->
  ptrac_from_mcnp (file_text f) = Ok (file_value f).
Proof. exact any_read. Qed.
Print Assumptions C55_positions_partial.
Example C55_case : file_any ex_file /\ Forall (fun h => Forall (fun x => fst x = 0) (hd_events h)) (fd_histories ex_file).
Proof. split; [apply file_any_ok; vm_compute; reflexivity|repeat constructor]. Qed.
