(** C15-C19: geometries. *)

From Coq Require Import Ascii String NArith ZArith Bool Arith List.
From Verif Require Import PyStr Regex Geometry GeometrySpec GeometryFacts GeometryFacts2 GeometryFacts4 GeometryFacts5 GeometryFacts6.
Import ListNotations.
Open Scope list_scope.

(** ** C15 *)

(** Read, write, read again: the same tree. *)
Theorem C15_round_trip : forall s g, geo_from_mcnp s = Ok g -> geo_from_mcnp (geo_to_mcnp g) = Ok g.
Proof. exact geometry_round_trip. Qed.
Print Assumptions C15_round_trip.
Example C15_case : exists g, geo_from_mcnp (L " #(1 : -2.3)(4  5):6 ") = Ok g /\ geo_to_mcnp g = L "#(1:-2.3) (4 5):6".
Proof. eexists. split; vm_compute; reflexivity. Qed.

(** The reader accepts the grammar, no less and no more, and gives the tree of the
    derivation. *)
Theorem C15_grammar : forall s g, geo_from_mcnp s = Ok g <-> exists a t b, s = a ++ t ++ b /\ blanks a /\ blanks b /\ t_inter t g.
Proof. exact texts_iff. Qed.
Print Assumptions C15_grammar.

(** ** C16 *)

(** Where blanks and colons do not meet outside parentheses, the tree denotes what
    MCNP makes of the text. Missing: mixed texts, for which it is false. *)
Theorem C16_precedence_partial : forall s g, geo_from_mcnp s = Ok g -> unmixed g = true ->
  forall (P : Type) (surf cell : str -> P -> Prop) p, mcnp_denote surf cell g p <-> denote surf cell g p.
Proof. intros s g _. apply unmixed_mcnp. Qed.
Print Assumptions C16_precedence_partial.
Example C16_case : exists g, geo_from_mcnp (L "(1:2) -3 #(4 5)") = Ok g /\ unmixed g = true.
Proof. eexists. split; vm_compute; reflexivity. Qed.

(** And its tokens have the same tree in MCNP's own grammar. *)
Theorem C16_grammar_partial : forall s g, geo_from_mcnp s = Ok g -> unmixed g = true ->
  exists ts, geo_tokens s = Some ts /\ k_union ts g.
Proof. exact unmixed_read. Qed.
Print Assumptions C16_grammar_partial.
(** [1:2 3] has another tree there, for another point set. *)
Theorem C16_grammar_refuted : exists s ts g g', geo_from_mcnp s = Ok g /\ geo_tokens s = Some ts /\ k_union ts g' /\
  exists (P : Type) (surf cell : str -> P -> Prop) p, denote surf cell g' p /\ ~ denote surf cell g p.
Proof.
  exists (L "1:2 3"), [L "1"; L ":"; L "2"; L " "; L "3"], (GInter (GUnion (GDigit (L "1")) (GDigit (L "2"))) (GDigit (L "3"))),
    (GUnion (GDigit (L "1")) (GInter (GDigit (L "2")) (GDigit (L "3")))).
  split; [vm_compute; reflexivity|]. split; [vm_compute; reflexivity|].
  assert (D : forall d, is_digit d = true -> number [d]) by (intros d H; left; split; [discriminate|auto]).
  split.
  - apply (k_colon [L "1"] _ [L "2"; L " "; L "3"]).
    + apply k_factors, k_one, k_plain, k_digit, D. reflexivity.
    + apply (k_blank [L "2"] _ _ [L "3"]); [|now right|]; try apply k_one; apply k_plain, k_digit, D; reflexivity.
  - exists unit, (fun s _ => s = L "1"), (fun _ _ => False), tt. split; [now left|]. intros [_ H]. discriminate.
Qed.
Print Assumptions C16_grammar_refuted.
(** [1:2 3] is read as the intersection of a union. *)
Theorem C16_precedence_refuted : exists s g (P : Type) (surf cell : str -> P -> Prop) p,
  geo_from_mcnp s = Ok g /\ geo_to_mcnp g = s /\ mcnp_denote surf cell g p /\ ~ denote surf cell g p.
Proof.
  exists (L "1:2 3"), (GInter (GUnion (GDigit (L "1")) (GDigit (L "2"))) (GDigit (L "3"))), unit,
    (fun s _ => s = L "1"), (fun _ _ => False), tt.
  repeat split; try (vm_compute; reflexivity).
  - unfold mcnp_denote, in_some. cbn. left. auto.
  - cbn. intros [_ H]. discriminate.
Qed.
Print Assumptions C16_precedence_refuted.

(** ** C17 *)

(** The text of [a | b] denotes the intersection. *)
Theorem C17_or : forall a b, readable a -> readable b ->
  exists g, geo_from_mcnp (geo_to_mcnp (geo_or a b)) = Ok g /\
  forall (P : Type) (surf cell : str -> P -> Prop) p, denote surf cell g p <-> denote surf cell a p /\ denote surf cell b p.
Proof. exact or_meets. Qed.
Print Assumptions C17_or.
(** The text of [a & b] denotes the union, if neither operand has a blank outside
    parentheses. Missing: operands that do, for which it is false. *)
Theorem C17_and_partial : forall a b, readable a -> readable b -> is_inter a = false -> is_inter b = false ->
  exists g, geo_from_mcnp (geo_to_mcnp (geo_and a b)) = Ok g /\
  forall (P : Type) (surf cell : str -> P -> Prop) p, denote surf cell g p <-> denote surf cell a p \/ denote surf cell b p.
Proof. exact and_unites. Qed.
Print Assumptions C17_and_partial.
(** [-a], [+a] and [~a] are read back if the operand is a number or in parentheses. *)
Theorem C17_unary_partial : forall op a, In op ["+"; "-"; "#"]%char -> readable a -> is_prim a = true -> readable (GUnary op a).
Proof. exact unary_kept. Qed.
Print Assumptions C17_unary_partial.
Example C17_case : readable (GUnion (GDigit (L "1")) (GUnary "-"%char (GDigit (L "2")))) /\
  is_inter (GUnion (GDigit (L "1")) (GUnary "-"%char (GDigit (L "2")))) = false /\ readable (GParen (GDigit (L "3"))).
Proof. repeat split; vm_compute; reflexivity. Qed.

(** [(1 2) & 3] is written [1 2:3] and read as 1 and (2 or 3). *)
Theorem C17_and_refuted : exists a b g (P : Type) (surf cell : str -> P -> Prop) p,
  readable a /\ readable b /\ geo_from_mcnp (geo_to_mcnp (geo_and a b)) = Ok g /\
  (denote surf cell a p \/ denote surf cell b p) /\ ~ denote surf cell g p.
Proof.
  exists (GInter (GDigit (L "1")) (GDigit (L "2"))), (GDigit (L "3")),
    (GInter (GDigit (L "1")) (GUnion (GDigit (L "2")) (GDigit (L "3")))), unit, (fun s _ => s = L "3"), (fun _ _ => False), tt.
  repeat split; try (vm_compute; reflexivity).
  - right. reflexivity.
  - cbn. intros [H _]. discriminate.
Qed.
Print Assumptions C17_and_refuted.
(** [-(1 2)] is written [-1 2], and [-(-1)] cannot be read. *)
Theorem C17_unary_refuted :
  (exists a g (P : Type) (surf cell : str -> P -> Prop) p, readable a /\ geo_from_mcnp (geo_to_mcnp (geo_neg a)) = Ok g /\
     ~ denote surf cell a p /\ ~ denote surf cell g p) /\
  (exists a, readable a /\ geo_from_mcnp (geo_to_mcnp (geo_neg a)) = Py AssertionError).
Proof.
  split.
  - exists (GInter (GDigit (L "1")) (GDigit (L "2"))), (GInter (GUnary "-"%char (GDigit (L "1"))) (GDigit (L "2"))), unit,
      (fun s _ => s = L "1"), (fun _ _ => False), tt.
    repeat split; try (vm_compute; reflexivity); cbn; intros [H1 H2]; discriminate.
  - exists (GUnary "-"%char (GDigit (L "1"))). split; vm_compute; reflexivity.
Qed.
Print Assumptions C17_unary_refuted.

(** ** C18 *)

(** Other than TypesError, only AssertionError and IndexError escape; and a
    character that cannot occur in a geometry always gives TypesError. Missing: the
    two escapes, which do occur. *)
Theorem C18_errors_partial : forall s, match geo_from_mcnp s with
  | Ok _ => True | Lib e => e = TypesError | Py e => e = AssertionError \/ e = IndexError end.
Proof. exact from_raises. Qed.
Print Assumptions C18_errors_partial.
Theorem C18_foreign : forall s c, In c s ->
  ~ (is_space c = true \/ is_digit c = true \/ In c [":"; "."; "("; ")"; "+"; "-"; "#"]%char) -> geo_from_mcnp s = Lib TypesError.
Proof.
  intros s c HI HN. apply (foreign_rejected s c HI). unfold geo_char. destruct (is_space c); [tauto|]. destruct (is_digit c); [tauto|].
  cbn [orb]. destruct (existsb (ceqb c) _) eqn:E; auto. exfalso. apply HN. right. right. apply existsb_exists in E as (x & HX & E).
  apply Ascii.eqb_eq in E. now subst.
Qed.
Print Assumptions C18_foreign.
Example C18_case : geo_from_mcnp (L "1 a") = Lib TypesError /\ geo_from_mcnp (L "(1") = Lib TypesError.
Proof. split; vm_compute; reflexivity. Qed.
Theorem C18_errors_refuted :
  geo_from_mcnp (L "( 1 )") = Py AssertionError /\ geo_from_mcnp (L "1-2") = Py AssertionError /\ geo_from_mcnp (L "1:") = Py IndexError.
Proof. repeat split; vm_compute; reflexivity. Qed.
Print Assumptions C18_errors_refuted.

(** ** C19 *)

(** Without [#n], the drawn shape is the point set of the tree; and it is drawn
    exactly when every surface named has a shape. *)
Theorem C19_drawing_partial : forall (P : Type) (surfaces cells : str -> option (P -> bool)) g f,
  no_cell g = true -> to_show P surfaces cells g = Ok f ->
  forall p, f p = true <->
    denote (fun s p => match surfaces s with Some f => f p = true | None => False end)
           (fun s p => match cells s with Some f => f p = true | None => False end) g p.
Proof. exact drawn. Qed.
Print Assumptions C19_drawing_partial.
Theorem C19_drawable : forall (P : Type) (surfaces cells : str -> option (P -> bool)) g, no_cell g = true ->
  (exists f, to_show P surfaces cells g = Ok f) <-> Forall (fun s => surfaces s <> None) (names g).
Proof. exact drawable. Qed.
Print Assumptions C19_drawable.
Example C19_case : exists g, geo_from_mcnp (L "-1 #(2:3)") = Ok g /\ no_cell g = true /\ names g = [L "1"; L "2"; L "3"].
Proof.
  exists (GInter (GUnary "-"%char (GDigit (L "1"))) (GUnary "#"%char (GParen (GUnion (GDigit (L "2")) (GDigit (L "3")))))).
  repeat split; vm_compute; reflexivity.
Qed.
(** [#n] is drawn as cell n itself, at every point. *)
Theorem C19_drawing_refuted : forall (P : Type) (surfaces cells : str -> option (P -> bool)) n c p, cells n = Some c ->
  exists f, to_show P surfaces cells (GUnary "#"%char (GDigit n)) = Ok f /\
  ~ (f p = true <->
     denote (fun s p => match surfaces s with Some f => f p = true | None => False end)
            (fun s p => match cells s with Some f => f p = true | None => False end) (GUnary "#"%char (GDigit n)) p).
Proof.
  intros P surfaces cells n c p H. exists c. cbn. rewrite H. split; [reflexivity|]. tauto.
Qed.
Print Assumptions C19_drawing_refuted.
