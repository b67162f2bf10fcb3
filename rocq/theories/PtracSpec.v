(** PTRAC files as MCNP writes them: FORTRAN fixed-width records.  The data of a
    record, its text, and the value the reader should build from it. *)

From Coq Require Import Ascii String NArith ZArith Bool Arith List.
From Verif Require Import PyStr RegexFacts PyNum Types Ptrac.
Import ListNotations.
Open Scope char_scope.

(** ** Edit descriptors *)

(** [Iw]: the number, right justified. *)
Definition int_field (w : nat) (z : Z) : str := rjust w (str_of_Z z).
Definition fits (w : nat) (z : Z) : Prop := length (str_of_Z z) <= w.

(** A number in scientific notation: sign, mantissa digits, exponent. *)
Record sci := { sneg : bool; mant : N; expo : Z }.

Definition digit (n : N) : ascii := chr (48 + n).
(** Sign and two digits. *)
Definition exp_field (e : Z) : str :=
  let n := Z.abs_N e in (if (e <? 0)%Z then "-" else "+") :: [digit (n / 10); digit (n mod 10)].
Definition digits_field (n : nat) (m : N) : str := zpad n (str_of_N m).

(** [Ew.d], w = d + 8: a blank, the sign, 0.ddd, the exponent. *)
Definition E_field (d : nat) (x : sci) : str :=
  sp :: (if sneg x then "-" else sp) :: L "0." ++ digits_field d (mant x) ++ "E" :: exp_field (expo x).
(** [1PEw.d], w = d + 8: one digit before the point. *)
Definition P_field (d : nat) (x : sci) : str :=
  let ds := digits_field (S d) (mant x) in
  sp :: (if sneg x then "-" else sp) :: firstn 1 ds ++ "." :: skipn 1 ds ++ "E" :: exp_field (expo x).

(** Normalised with [n] digits and a two-digit exponent, or zero. *)
Definition normal (n : nat) (x : sci) : Prop :=
  ((10 ^ (N.of_nat n - 1) <= mant x < 10 ^ N.of_nat n)%N /\ (-99 <= expo x <= 99)%Z)
  \/ (mant x = 0%N /\ expo x = 0%Z).

(** The Decimal a field denotes; [d] digits after the point. *)
Definition sci_value (d : nat) (x : sci) : realv :=
  RVal (Fin (sneg x) (mant x) (expo x - Z.of_nat d)).
Definition int_value (real : bool) (z : Z) : fval :=
  if real then FR (RVal (Fin (z <? 0)%Z (Z.abs_N z) 0)) else FI (IVal z).

(** ** Event types *)

(** Source, surface, collision, terminal, flush; a banked particle is +-20nn. *)
Definition event_types : list str :=
  map L ["1000"; "3000"; "4000"; "5000"; "9000"]%string ++
  flat_map (fun n => let t := str_of_N (2000 + N.of_nat n) in [t; "-" :: t]) (seq 1 26 ++ seq 30 5).

(** ** Lines *)

(** The numbers of a J line after the event type, true for the one kept as a Real:
    the second of forms 1, 2, 4 and 6. *)
Definition j_types (k : nat) : list bool :=
  match k with
  | 0 => [false; false; false; false]
  | 1 | 2 | 4 => [false; true; false; false; false]
  | 3 | 5 => [false; false; false; false; false; false]
  | 6 => [false; true; false; false; false; false]
  | _ => [false; false; false; false; false; false; false]
  end.
(** x y z; or with u v w, energy, weight, time. *)
Definition p_numbers (k : nat) : nat := match k with 0 => 3 | _ => 9 end.

Record jdata := { jd_form : nat; jd_next : str; jd_ints : list Z }.
Definition j_data_ok (j : jdata) : Prop :=
  jd_form j <= 7 /\ In (jd_next j) event_types /\
  length (jd_ints j) = length (j_types (jd_form j)) /\ Forall (fits 10) (jd_ints j).
Definition j_text (j : jdata) : str :=
  sp :: rjust 10 (jd_next j) ++ concat (map (int_field 10) (jd_ints j)).
Definition j_value (j : jdata) : jline :=
  {| jform := jd_form j; next_type := jd_next j;
     jvals := map (fun kz => int_value (fst kz) (snd kz)) (combine (j_types (jd_form j)) (jd_ints j)) |}.

(** Three coordinates, or nine numbers. *)
Definition p_data_ok (k : nat) (l : list sci) : Prop := length l = p_numbers k /\ Forall (normal 5) l.
Definition p_text (l : list sci) : str := sp :: concat (map (E_field 5) l).
Definition p_value (k : nat) (l : list sci) : pline := {| pform := k; pvals := map (sci_value 5) l |}.

Record idata := { id_nps : Z; id_type : str; id_number : option Z; id_tfc : option sci }.
Definition i_data_ok (i : idata) : Prop :=
  fits 10 (id_nps i) /\ In (id_type i) event_types /\
  match id_number i with Some z => fits 10 z | None => True end /\
  match id_tfc i with Some x => normal 6 x | None => True end.
Definition i_text (i : idata) : str :=
  sp :: int_field 10 (id_nps i) ++ rjust 10 (id_type i) ++
  match id_number i with Some z => int_field 10 z | None => [] end ++
  match id_tfc i with Some x => P_field 5 x | None => [] end.
Definition i_value (i : idata) : iline :=
  {| nps := IVal (id_nps i); event_type := id_type i;
     inumber := option_map IVal (id_number i); tfc := option_map (sci_value 5) (id_tfc i) |}.
(** Fields that are zero are not written. *)
Definition i_nonzero (i : idata) : Prop :=
  id_number i <> Some 0%Z /\ match id_tfc i with Some x => mant x <> 0%N | None => True end.

Definition n_data_ok (l : list Z) : Prop := length l = 20 /\ Forall (fits 5) l.
Definition n_text (l : list Z) : str := sp :: concat (map (int_field 5) l) ++ [nl].
Definition n_value (l : list Z) : list fval := map (fun z => FI (IVal z)) l.

(** V lines: rows of ten. *)
Definition v_data_ok (rows : list (list sci)) : Prop :=
  rows <> [] /\ Forall (fun row => length row = 10 /\ Forall (normal 5) row) rows.
Definition v_text (rows : list (list sci)) : str :=
  concat (map (fun row => sp :: concat (map (P_field 4) row) ++ [nl]) rows).
Definition v_value (rows : list (list sci)) : list realv := map (sci_value 4) (concat rows).

(** L lines: rows of thirty and a shorter last row; numbers of at most three
    characters, so that neighbours are separated by a blank. *)
Definition l_data_ok (rows : list (list Z)) (last : list Z) : Prop :=
  Forall (fun row => length row = 30) rows /\ 1 <= length last <= 29 /\
  Forall (Forall (fits 3)) (rows ++ [last]).
Definition l_row (row : list Z) : str := sp :: concat (map (int_field 4) row) ++ [nl].
Definition l_text (rows : list (list Z)) (last : list Z) : str :=
  concat (map l_row rows) ++ l_row last.
Definition l_value (rows : list (list Z)) (last : list Z) : list intv := map IVal (concat rows ++ last).

(** ** Blocks *)

(** The readers of events choose the form of a J line by its length: 4, 5, 6 or
    7 numbers. *)
Record edata := { ed_j : jdata; ed_p : list sci }.
Definition e_data_ok (k : nat) (e : edata) : Prop :=
  j_data_ok (ed_j e) /\ In (jd_form (ed_j e)) [0; 1; 3; 7] /\ p_data_ok k (ed_p e).
Definition e_text (e : edata) : str := j_text (ed_j e) ++ nl :: p_text (ed_p e) ++ [nl].
Definition e_value (k : nat) (e : edata) : event :=
  {| j_line := j_value (ed_j e); p_line := p_value k (ed_p e) |}.

Record hdata := { hd_i : idata; hd_events : list (nat * edata) }.
Definition h_data_ok (h : hdata) : Prop :=
  i_data_ok (hd_i h) /\ i_nonzero (hd_i h) /\ hd_events h <> [] /\
  Forall (fun x => In (fst x) [0; 1] /\ e_data_ok (fst x) (snd x)) (hd_events h).
Definition h_text (h : hdata) : str :=
  i_text (hd_i h) ++ nl :: concat (map (fun x => e_text (snd x)) (hd_events h)).
Definition h_value (h : hdata) : history :=
  {| i_line := i_value (hd_i h); events := map (fun x => e_value (fst x) (snd x)) (hd_events h) |}.

Definition oneline (s : str) : Prop := allc (fun c => negb (ceqb c nl)) s.
Record header_data := {
  kd_code : str; kd_version : str; kd_date : str; kd_run : str; kd_title : str;
  kd_v : list (list sci); kd_n : list Z; kd_l : list (list Z); kd_last : list Z }.
Definition header_data_ok (k : header_data) : Prop :=
  length (kd_code k) = 8 /\ length (kd_version k) = 25 /\ length (kd_date k) = 9 /\
  length (kd_run k) = 18 /\ length (kd_title k) = 80 /\
  Forall oneline [kd_code k; kd_version k; kd_date k; kd_run k; kd_title k] /\
  v_data_ok (kd_v k) /\ n_data_ok (kd_n k) /\ l_data_ok (kd_l k) (kd_last k).
Definition header_text (k : header_data) : str :=
  L "   -1" ++ nl :: kd_code k ++ kd_version k ++ kd_date k ++ kd_run k ++ nl :: kd_title k ++ nl ::
  v_text (kd_v k) ++ n_text (kd_n k) ++ l_text (kd_l k) (kd_last k).
Definition header_value (k : header_data) : header :=
  {| code_name := kd_code k; version := kd_version k; code_date := kd_date k;
     run_datetime := kd_run k; htitle := kd_title k; v_line := v_value (kd_v k);
     n_line := n_value (kd_n k); l_line := l_value (kd_l k) (kd_last k) |}.

Record file_data := { fd_header : header_data; fd_histories : list hdata }.
Definition file_any (f : file_data) : Prop :=
  header_data_ok (fd_header f) /\ fd_histories f <> [] /\ Forall h_data_ok (fd_histories f).
(** A file whose events carry positions only. *)
Definition file_data_ok (f : file_data) : Prop :=
  header_data_ok (fd_header f) /\ fd_histories f <> [] /\
  Forall (fun h => h_data_ok h /\ Forall (fun x => fst x = 0) (hd_events h)) (fd_histories f).
Definition file_text (f : file_data) : str :=
  header_text (fd_header f) ++ concat (map h_text (fd_histories f)).
Definition file_value (f : file_data) : ptrac :=
  {| pheader := header_value (fd_header f); histories := map h_value (fd_histories f) |}.
