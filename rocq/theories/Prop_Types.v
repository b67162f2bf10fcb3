(** Properties C01-C13: the scalar types and sequences (pymcnp/types).
    [Ok v] is a returned value, [Lib _] a pymcnp error, [Py _] any other
    Python exception. *)

From Coq Require Import Ascii String NArith ZArith Bool Arith List.
From Verif Require Import PyStr Regex RegexParse RegexFacts PyNum PyNumFacts Types TypesSpec
  TypesFacts TypesFacts2 TypesFacts3 TypesFacts4 TypesFacts5.
Import ListNotations.
Open Scope char_scope.

(** ** C01 *)

(** Every integer whose digits fit a Decimal (10^18 of them). *)
Theorem C01_integer_round_trip : forall z : Z,
  (Z.of_nat (length (str_of_N (Z.abs_N z))) - 1 <= 999999999999999999)%Z ->
  integer_from_mcnp (integer_to_mcnp (IVal z)) = Ok (IVal z).
Proof. exact integer_round_trip. Qed.
Print Assumptions C01_integer_round_trip.

Example C01_case : integer_from_mcnp (integer_to_mcnp (IVal (-12345678901234567890123))) = Ok (IVal (-12345678901234567890123)).
Proof. vm_compute. reflexivity. Qed.

(** ** C02 *)

(** Sign, digits and exponent come back; [dec_ok] is the range of Decimal itself. *)
Theorem C02_real_round_trip : forall (neg : bool) (digits : N) (exponent : Z),
  dec_ok digits exponent = true ->
  real_from_mcnp (real_to_mcnp (RVal (Fin neg digits exponent))) = Ok (RVal (Fin neg digits exponent)).
Proof. exact real_roundtrip. Qed.
Print Assumptions C02_real_round_trip.

Example C02_case : dec_ok 1500 (-30) = true /\ real_to_mcnp (RVal (Fin true 1500 (-30))) = L "-1.500E-27".
Proof. split; vm_compute; reflexivity. Qed.

(** ** C03 *)

(** All five spellings of an exponent ([e], [E], [d], [D], bare sign) denote the
    same Decimal: digits of the mantissa scaled by the exponent. *)
Theorem C03_exponent_forms : forall form sign int_part point frac_part exp_sgn exp_digits,
  digits int_part -> digits frac_part -> (point = false -> frac_part = []) -> int_part ++ frac_part <> [] ->
  digits exp_digits -> exp_digits <> [] -> (form = FSign -> exp_sgn <> None) ->
  real_from_mcnp (mant_text sign int_part point frac_part ++ exp_text form exp_sgn exp_digits)
  = match denotes sign int_part frac_part exp_sgn exp_digits with
    | Some d => Ok (RVal d) | None => Lib TypesError end.
Proof. exact real_exponent_forms. Qed.
Print Assumptions C03_exponent_forms.

Example C03_case :
  map real_from_mcnp [L "1.5+3"; L "1.5d3"; L "1.5D+3"; L "1.5e3"; L "1.5E3"]
  = repeat (Ok (RVal (Fin false 15 2))) 5 /\ denotes None (L "1") (L "5") None (L "3") = Some (Fin false 15 2).
Proof. split; vm_compute; reflexivity. Qed.

(** ** C04 *)

(** The full claim fails: a fraction is dropped. *)
Theorem C04_integer_exact_refuted : exists s,
  real_from_mcnp s = Ok (RVal (Fin false 15 (-1))) /\ integer_from_mcnp s = Ok (IVal 1).
Proof. exists (L "1.5"). split; vm_compute; reflexivity. Qed.
Print Assumptions C04_integer_exact_refuted.

(** What holds: the result is the source number rounded towards zero; it is
    exact when the decimal has no fraction.  Missing: rejection of fractions. *)
Theorem C04_integer_truncates_partial : forall s z, integer_from_mcnp s = Ok (IVal z) ->
  exists neg c e, real_from_mcnp s = Ok (RVal (Fin neg c e)) /\
  ((0 <= e -> z = (if neg then -1 else 1) * Z.of_N c * 10 ^ e) /\
   (e < 0 -> exists r, 0 <= r < 10 ^ (- e) /\ Z.of_N c = Z.abs z * 10 ^ (- e) + r /\
             z = (if neg then -1 else 1) * Z.abs z))%Z.
Proof. exact integer_truncates. Qed.
Print Assumptions C04_integer_truncates_partial.

Example C04_case : integer_from_mcnp (L "1.2+2") = Ok (IVal 120) /\ integer_from_mcnp (L "-12.9") = Ok (IVal (-12)).
Proof. split; vm_compute; reflexivity. Qed.

(** ** C05 *)

(** The full claim fails for each of these readers. *)
Theorem C05_library_errors_refuted :
  integer_from_mcnp (L "") = Py IndexError /\ integer_from_mcnp (L "inf") = Py OverflowError /\
  integer_from_mcnp (L "nan") = Py ValueError /\ real_from_mcnp (L "") = Py IndexError /\
  index_from_mcnp (L "inf:1") = Py OverflowError /\
  transf_from_mcnp 4 (L "1 2 ") = Py IndexError.
Proof. repeat split; vm_compute; reflexivity. Qed.
Print Assumptions C05_library_errors_refuted.

(** What holds.  Real: every non-empty text.  Integer: every non-empty text
    without the letter n, and every text of the number pattern the card
    patterns splice in.  Zaid, Substance, Distribution, Designator: every text. *)
Theorem C05_real_partial : forall s, s <> [] -> is_py (real_from_mcnp s) = false.
Proof. exact real_no_py. Qed.
Print Assumptions C05_real_partial.
Theorem C05_integer_partial : forall s, s <> [] ->
  (forall c, In c s -> c <> "n" /\ c <> "N") -> is_py (integer_from_mcnp s) = false.
Proof. exact integer_no_py_n. Qed.
Print Assumptions C05_integer_partial.
Theorem C05_number_pattern_partial : forall s,
  re_match (compile true pat_number) s <> None -> is_py (integer_from_mcnp s) = false.
Proof. exact number_no_py. Qed.
Print Assumptions C05_number_pattern_partial.
Theorem C05_zaid : forall s, is_py (zaid_from_mcnp s) = false.
Proof. exact zaid_no_py. Qed.
Print Assumptions C05_zaid.
Theorem C05_substance : forall s, is_py (substance_from_mcnp s) = false.
Proof. exact substance_no_py. Qed.
Print Assumptions C05_substance.
Theorem C05_distribution : forall s, is_py (distribution_from_mcnp s) = false.
Proof. exact distribution_no_py. Qed.
Print Assumptions C05_distribution.
Theorem C05_designator : forall s, is_py (designator_from_mcnp s) = false.
Proof. exact designator_no_py. Qed.
Print Assumptions C05_designator.

Example C05_case :
  real_from_mcnp (L "1.2.3") = Lib TypesError /\ integer_from_mcnp (L "--1") = Lib TypesError /\
  re_match (compile true pat_number) (L "+-.e") <> None /\ integer_from_mcnp (L "+-.e") = Lib TypesError /\
  zaid_from_mcnp (L "1x") = Lib TypesError.
Proof. repeat split; try (vm_compute; reflexivity). vm_compute. discriminate. Qed.

(** ** C06 *)

(** Every kind and count except a zero count of r, i, log and a zero factor. *)
Theorem C06_shorthand_round_trip_partial : forall h, horiz_ok h = true ->
  own_from_mcnp h (horiz_to_mcnp h) = Ok h /\
  integer_from_mcnp (integer_to_mcnp (IHor h)) = Ok (IHor h) /\
  real_from_mcnp (real_to_mcnp (RHor h)) = Ok (RHor h).
Proof. exact horiz_all_roundtrip. Qed.
Print Assumptions C06_shorthand_round_trip_partial.

(** The count zero is lost for every one of those kinds. *)
Theorem C06_zero_count_refuted :
  repeat_from_mcnp (horiz_to_mcnp (HRepeat (Some 0%N))) = Ok (HRepeat None) /\
  insert_from_mcnp (horiz_to_mcnp (HInsert (Some 0%N))) = Ok (HInsert None) /\
  log_from_mcnp (horiz_to_mcnp (HLog (Some 0%N))) = Ok (HLog None).
Proof. repeat split; vm_compute; reflexivity. Qed.
Print Assumptions C06_zero_count_refuted.

Example C06_case : horiz_ok (HLog (Some 120%N)) = true /\ horiz_to_mcnp (HLog (Some 120%N)) = L "120log".
Proof. split; vm_compute; reflexivity. Qed.

(** ** C07 *)

Theorem C07_distribution_round_trip_partial : forall n, (n <= 9)%N ->
  distribution_from_mcnp (distribution_to_mcnp (IVal (Z.of_N n))) = Ok (IVal (Z.of_N n)).
Proof. exact distribution_rt. Qed.
Print Assumptions C07_distribution_round_trip_partial.

(** Every larger number is read back as some number below ten, never itself. *)
Theorem C07_distribution_refuted : forall n, (10 <= n)%N ->
  exists k, (k <= 9)%N /\
  distribution_from_mcnp (distribution_to_mcnp (IVal (Z.of_N n))) = Ok (IVal (Z.of_N k)).
Proof. exact distribution_truncates. Qed.
Print Assumptions C07_distribution_refuted.

Example C07_case : distribution_from_mcnp (L "d123") = Ok (IVal 1) /\ distribution_from_mcnp (L "d7") = Ok (IVal 7).
Proof. split; vm_compute; reflexivity. Qed.

(** ** C08 *)

Theorem C08_zaid_round_trip : forall z a abx,
  (z <= 999)%N -> (a <= 999)%N ->
  match abx with Some t => t <> [] /\ Forall (fun c => is_space c = false) t | None => True end ->
  zaid_from_mcnp (zaid_to_mcnp {| zz := z; za := a; zabx := abx |}) = Ok {| zz := z; za := a; zabx := abx |}.
Proof. exact zaid_rt_fields. Qed.
Print Assumptions C08_zaid_round_trip.
Theorem C08_zaid_stable : forall s x, zaid_from_mcnp s = Ok x -> zaid_from_mcnp (zaid_to_mcnp x) = Ok x.
Proof. exact zaid_stable. Qed.
Print Assumptions C08_zaid_stable.

Example C08_case : zaid_from_mcnp (L "92235.80c") = Ok {| zz := 92; za := 235; zabx := Some (L "80c") |}
  /\ zaid_to_mcnp {| zz := 92; za := 235; zabx := Some (L "80c") |} = L "092235.80c".
Proof. split; vm_compute; reflexivity. Qed.

(** ** C09 *)

Theorem C09_index_round_trip : forall lo hi, int_ok lo = true -> int_ok hi = true ->
  index_from_mcnp (index_to_mcnp (lo, hi)) = Ok (lo, hi).
Proof. exact index_rt. Qed.
Print Assumptions C09_index_round_trip.
Theorem C09_substance_round_trip : forall z r, zaid_ok z -> real_ok r = true ->
  substance_from_mcnp (substance_to_mcnp (z, r)) = Ok (z, r).
Proof. exact substance_rt. Qed.
Print Assumptions C09_substance_round_trip.

Example C09_case : int_ok (IVal (-5)) = true /\ index_to_mcnp (IVal (-5), IVal 12) = L "-5:12" /\
  zaid_ok {| zz := 1; za := 1; zabx := Some (L "80c") |} /\ real_ok (RVal (Fin false 6667 (-4))) = true /\
  substance_to_mcnp ({| zz := 1; za := 1; zabx := Some (L "80c") |}, RVal (Fin false 6667 (-4))) = L "001001.80c 0.6667".
Proof. repeat split; try (vm_compute; reflexivity); try discriminate. repeat constructor. Qed.

(** ** C10 *)

(** Comma lists of symbols other than the minus sign are accepted unchanged.
    Missing: the minus sign, and rejection of other letters (see below). *)
Theorem C10_designator_accepts_partial : forall s,
  comma_list (fun c => particle c && negb (ceqb c "-"))%bool s -> designator_from_mcnp s = Ok s.
Proof. exact designator_accepts. Qed.
Print Assumptions C10_designator_accepts_partial.
(** The exact language: symbols, minus sign excluded, all letters included. *)
Theorem C10_designator_exact_partial : forall s,
  let ok c := ((particle c && negb (ceqb c "-")) || ((95 <=? code (lower c)) && (code (lower c) <=? 126)))%N%bool in
  (comma_list ok s -> designator_from_mcnp s = Ok s) /\
  (~ comma_list ok s -> designator_from_mcnp s = Lib TypesError).
Proof. exact designator_exact. Qed.
Print Assumptions C10_designator_exact_partial.
Theorem C10_designator_refuted :
  (exists s, comma_list particle s /\ designator_from_mcnp s = Lib TypesError) /\
  (exists s, ~ comma_list particle s /\ designator_from_mcnp s = Ok s).
Proof. exact designator_refuted. Qed.
Print Assumptions C10_designator_refuted.

Example C10_case : comma_list (fun c => particle c && negb (ceqb c "-"))%bool (L "n,p,|") /\
  designator_from_mcnp (L "n,p,|") = Ok (L "n,p,|") /\ designator_from_mcnp (L "-") = Lib TypesError /\
  designator_from_mcnp (L "j") = Ok (L "j") /\ designator_from_mcnp (L "np") = Lib TypesError.
Proof.
  repeat split; try (vm_compute; reflexivity). exists "n", (L "p|").
  repeat split; try (vm_compute; reflexivity). repeat constructor.
Qed.

(** ** C11 *)

Theorem C11_transformation_round_trip : forall k t, transf_ok k t ->
  transf_from_mcnp k (transf_to_mcnp t) = Ok t.
Proof. exact transf_rt. Qed.
Print Assumptions C11_transformation_round_trip.

Example C11_case :
  let t := {| tvals := [RVal (Fin false 15 (-1)); RVal (Fin true 2 0); RVal (Fin false 0 0)]; tm := Some (IVal (-1)) |} in
  transf_ok 4 t /\ transf_to_mcnp t = L "1.5 -2 0 -1".
Proof. split; [|vm_compute; reflexivity]. unfold transf_ok. repeat split; auto. Qed.

(** ** C12 *)

(** Sequences of numbers and uncounted shorthand, words, zaids, substances,
    small distribution numbers; any length.  Missing: counted shorthand
    (refuted below) and distribution numbers above 9 (C07). *)
Theorem C12_integers_partial : forall l, forallb int_seq l = true ->
  tuple_from_mcnp pat_number integer_from_mcnp (tuple_to_mcnp integer_to_mcnp l) = Ok l.
Proof. exact (fun l H => proj1 (tuple_integer_rt l H)). Qed.
Print Assumptions C12_integers_partial.
Theorem C12_reals_partial : forall l, forallb real_seq l = true ->
  tuple_from_mcnp pat_number real_from_mcnp (tuple_to_mcnp real_to_mcnp l) = Ok l.
Proof. exact (fun l H => proj1 (tuple_real_rt l H)). Qed.
Print Assumptions C12_reals_partial.
Theorem C12_strings : forall l, Forall (fun w => w <> [] /\ nospace w) l ->
  tuple_from_mcnp pat_string string_from_mcnp (tuple_to_mcnp (fun s => s) l) = Ok l.
Proof. exact (fun l H => proj1 (tuple_string_rt l H)). Qed.
Print Assumptions C12_strings.
Theorem C12_zaids : forall l, Forall zaid_ok l ->
  tuple_from_mcnp pat_zaid zaid_from_mcnp (tuple_to_mcnp zaid_to_mcnp l) = Ok l.
Proof. exact (fun l H => proj1 (tuple_zaid_rt l H)). Qed.
Print Assumptions C12_zaids.
Theorem C12_substances : forall l, Forall (fun x => zaid_ok (fst x) /\ real_ok (snd x) = true) l ->
  tuple_from_mcnp pat_substance substance_from_mcnp (tuple_to_mcnp substance_to_mcnp l) = Ok l.
Proof. exact (fun l H => proj1 (tuple_substance_rt l H)). Qed.
Print Assumptions C12_substances.
Theorem C12_distributions_partial : forall l, Forall (fun n => (n <= 9)%N) l ->
  let vs := map (fun n => IVal (Z.of_N n)) l in
  tuple_from_mcnp pat_distribution distribution_from_mcnp (tuple_to_mcnp distribution_to_mcnp vs) = Ok vs.
Proof. exact (fun l H => proj1 (tuple_distribution_rt l H)). Qed.
Print Assumptions C12_distributions_partial.

(** A counted repeat is split in two elements. *)
Theorem C12_counted_shorthand_refuted :
  exists l, forallb int_ok l = true /\
  tuple_from_mcnp pat_number integer_from_mcnp (tuple_to_mcnp integer_to_mcnp l)
  = Ok [IVal 1; IVal 12; IHor (HRepeat None)] /\ length l = 2.
Proof. exists [IVal 1; IHor (HRepeat (Some 12%N))]. repeat split; vm_compute; reflexivity. Qed.
Print Assumptions C12_counted_shorthand_refuted.

Example C12_case : forallb real_seq [RVal (Fin true 15 (-1)); RHor (HJump None); RVal (Fin false 2 20); RHor (HMultiply 3)] = true /\
  tuple_to_mcnp real_to_mcnp [RVal (Fin true 15 (-1)); RHor (HJump None); RVal (Fin false 2 20); RHor (HMultiply 3)] = L "-1.5 j 2E+20 3m".
Proof. split; vm_compute; reflexivity. Qed.

(** ** C13 *)

Theorem C13_sequence_skips_text_refuted :
  tuple_from_mcnp pat_number integer_from_mcnp (L "1 x 2") = Ok [IVal 1; IVal 2].
Proof. vm_compute. reflexivity. Qed.
Print Assumptions C13_sequence_skips_text_refuted.

(** What holds: sequences of words keep every non-blank character in order. *)
Theorem C13_words_complete_partial : forall s, exists l,
  tuple_from_mcnp pat_string string_from_mcnp s = Ok l /\
  concat l = filter (fun c => negb (is_space c)) s.
Proof. exact tuple_string_total. Qed.
Print Assumptions C13_words_complete_partial.

Example C13_case : tuple_from_mcnp pat_string string_from_mcnp (L "  ab c") = Ok [L "ab"; L "c"].
Proof. vm_compute. reflexivity. Qed.
