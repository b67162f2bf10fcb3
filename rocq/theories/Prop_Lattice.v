(** C20: lattice specifications. *)

From Coq Require Import Ascii String NArith ZArith Bool Arith List.
From Verif Require Import PyStr Regex Geometry GeometrySpec Lattice LatticeSpec LatticeFacts LatticeFacts2 LatticeFacts3.
Import ListNotations.
Open Scope list_scope.

(** The reader accepts the grammar, no less and no more, and gives the tree of the
    derivation. *)
Theorem C20_grammar : forall s l, lat_from_mcnp s = Ok l <-> exists ts, spread ts s /\ g_bins ts l.
Proof. exact lat_from_texts. Qed.
Print Assumptions C20_grammar.
(** A single bin comes back as the same tree from the same tokens. Missing: several
    bins, for which it is false. *)
Theorem C20_round_trip_partial : forall s ts l, spread ts s -> g_chain ts l ->
  lat_from_mcnp s = Ok l /\ spread ts (lat_to_mcnp l) /\ lat_from_mcnp (lat_to_mcnp l) = Ok l.
Proof. exact chain_round_trip'. Qed.
Print Assumptions C20_round_trip_partial.
(** In general the text comes back, with the same items in the same order. *)
Theorem C20_items_partial : forall s l, lat_from_mcnp s = Ok l ->
  exists l', lat_from_mcnp (lat_to_mcnp l) = Ok l' /\ lat_to_mcnp l' = lat_to_mcnp l /\ items l' = items l.
Proof. exact bins_round_trip. Qed.
Print Assumptions C20_items_partial.
Ltac digit := constructor; first [solve [left; split; [discriminate|repeat constructor]]
  | right; exists "-"%char, (L "2"); repeat split; [discriminate|repeat constructor|cbn; auto]].
Example C20_case : exists ts l, spread ts (L " (3 < 4[0:1 -2:2 5]) <7") /\ g_chain ts l /\ lat_to_mcnp l = L "(3<4[0:1 -2:2 5])<7".
Proof.
  eexists _, (LEmb (LParen (LEmb (LDigit (L "3")) (LRange (LDigit (L "4")) (LIndex (LDigit (L "0")) (LDigit (L "1")))
    (LIndex (LDigit (L "-2")) (LDigit (L "2"))) (LDigit (L "5"))))) (LDigit (L "7"))).
  split; [apply tokens_spread; vm_compute; reflexivity|]. split.
  - apply (chain_more ([L "("; L "3"; L "<"; L "4"; L "["; L "0"; L ":"; L "1"; L "-2"; L ":"; L "2"; L "5"; L "]"; L ")"]) _ [L "7"]); [|constructor; digit].
    apply chain_one. apply (item_paren [L "3"; L "<"; L "4"; L "["; L "0"; L ":"; L "1"; L "-2"; L ":"; L "2"; L "5"; L "]"]).
    apply (chain_more [L "3"] _ [L "4"; L "["; L "0"; L ":"; L "1"; L "-2"; L ":"; L "2"; L "5"; L "]"]); [do 2 constructor; digit|].
    apply (item_range [L "4"] _ [L "0"; L ":"; L "1"] _ [L "-2"; L ":"; L "2"] _ [L "5"]); [digit|apply (place_range [_] _ [_]); digit|apply (place_range [_] _ [_]); digit|constructor; digit|discriminate].
  - reflexivity.
Qed.
(** [1 2], two bins, is read and written as [1<2], one; and [1<2 3<4] does not come
    back as the same tree. *)
Theorem C20_round_trip_refuted :
  (exists l, lat_from_mcnp (L "1 2") = Ok l /\ lat_from_mcnp (L "1<2") = Ok l /\ lat_to_mcnp l = L "1<2") /\
  (exists l, lat_from_mcnp (L "1<2 3<4") = Ok l /\ lat_from_mcnp (lat_to_mcnp l) <> Ok l).
Proof.
  split.
  - eexists. split; [vm_compute; reflexivity|]. split; vm_compute; reflexivity.
  - eexists. split; [vm_compute; reflexivity|]. vm_compute. discriminate.
Qed.
Print Assumptions C20_round_trip_refuted.
(** Other than TypesError, only AssertionError and IndexError escape; they do, the
    first from a well-formed text. *)
Theorem C20_errors_partial : forall s, match lat_from_mcnp s with
  | Ok _ => True | Lib e => e = TypesError | Py e => e = AssertionError \/ e = IndexError end.
Proof. exact lat_from_raises. Qed.
Print Assumptions C20_errors_partial.
Theorem C20_errors_refuted : lat_from_mcnp (L "5[0 1 2:3]") = Py AssertionError /\ lat_from_mcnp (L "(1") = Py IndexError.
Proof. split; vm_compute; reflexivity. Qed.
Print Assumptions C20_errors_refuted.
