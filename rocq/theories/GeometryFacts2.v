(** The fuel of the reader is enough, and which exceptions it can raise. *)

From Coq Require Import Ascii String NArith ZArith Bool Arith List Lia.
From Verif Require Import PyStr Regex RegexParse RegexFacts RegexLang PyNumFacts Types TypesFacts SubFacts CardsFacts2 Geometry GeometrySpec GeometryFacts.
Import ListNotations.
Open Scope list_scope.

Definition raises_only (r : parsed) : Prop :=
  match r with
  | None => False
  | Some (Ok _) => True
  | Some (Lib _) => False
  | Some (Py e) => In e [AssertionError; IndexError; SyntaxErr]
  end.
Lemma pbind_raises x k : raises_only x -> (forall g ts, x = Some (Ok (g, ts)) -> raises_only (k g ts)) -> raises_only (pbind x k).
Proof. destruct x as [[[g ts]| |]|]; cbn; auto. Qed.
Lemma digit_raises ts : raises_only (p_digit ts).
Proof. unfold p_digit. destruct ts as [|t ts]; [cbn; auto|]. destruct (re_match re_gdigit t); cbn; auto. Qed.

Lemma prim_len : forall ts g, r_prim ts g -> 1 <= length ts.
Proof. intros ts g H. destruct H; cbn; lia. Qed.
Lemma atom_len ts g : r_atom ts g -> 1 <= length ts.
Proof. intros H. destruct H; [now apply prim_len in H|cbn; lia]. Qed.
Lemma union_len ts g : r_union ts g -> 1 <= length ts.
Proof. intros H. destruct H; [now apply atom_len in H|rewrite app_length; cbn; lia]. Qed.

Lemma parse_fuel f :
  (forall ts, 8 * length ts + 4 <= f -> raises_only (p_inter f ts)) /\
  (forall l ts, 8 * length ts + 4 <= f -> raises_only (p_inter_loop f l ts)) /\
  (forall ts, 8 * length ts + 3 <= f -> raises_only (p_union f ts)) /\
  (forall l ts, 8 * length ts + 1 <= f -> raises_only (p_union_loop f l ts)) /\
  (forall ts, 8 * length ts + 2 <= f -> raises_only (p_atom f ts)) /\
  (forall ts, 8 * length ts + 1 <= f -> raises_only (p_unary f ts)) /\
  (forall ts, 8 * length ts + 1 <= f -> raises_only (p_paren f ts)).
Proof.
  induction f as [|f (A & B & C & D & E & F & G)]; [repeat split; intros; lia|].
  destruct (read_grammar f) as (RA & RB & RC & RD & RE & RF & RG).
  split; [|split; [|split; [|split; [|split; [|split]]]]].
  - intros ts H. rewrite inter_eq. apply pbind_raises; [apply C; lia|]. intros g t1 H1. apply B.
    apply RC in H1 as (u & -> & R). apply union_len in R. rewrite app_length in H. lia.
  - intros l ts H. rewrite inter_loop_eq. destruct ts as [|t ts]; [exact I|]. cbn [length] in H.
    destruct (_ || _)%bool; [|exact I]. apply pbind_raises; [destruct (tok_is "(" t); apply C; cbn; lia|].
    intros g t1 H1. apply B. destruct (tok_is "(" t); apply RC in H1 as (u & E1 & R); apply union_len in R.
    + apply (f_equal (@length str)) in E1. rewrite app_length in E1. cbn in E1. lia.
    + apply (f_equal (@length str)) in E1. rewrite app_length in E1. lia.
  - intros ts H. rewrite union_eq. destruct ts as [|t ts]; [cbn; auto|]. apply pbind_raises; [apply E; lia|]. intros g t1 H1. apply D.
    apply RE in H1 as (u & E1 & R). apply atom_len in R. apply (f_equal (@length str)) in E1. rewrite app_length in E1. cbn in *. lia.
  - intros l ts H. rewrite union_loop_eq. destruct ts as [|t [|t2 ts]]; [exact I|destruct (tok_is ":" t); cbn; auto|]. cbn [length] in H.
    destruct (tok_is ":" t); [|exact I]. apply pbind_raises; [apply E; cbn; lia|]. intros g t1 H1. apply D.
    apply RE in H1 as (u & E1 & R). apply atom_len in R. apply (f_equal (@length str)) in E1. rewrite app_length in E1. cbn in *. lia.
  - intros ts H. rewrite atom_eq. destruct ts as [|t ts]; [cbn; auto|]. destruct (tok_op t); [apply F; lia|]. destruct (tok_is "(" t); [apply G; lia|apply digit_raises].
  - intros ts H. rewrite unary_eq. destruct ts as [|[|op u] ts]; try (cbn; auto; fail). cbn [length] in H. apply pbind_raises; [|intros; exact I].
    destruct ts as [|t ts]; [apply digit_raises|]. destruct (tok_is "(" t); [apply G; lia|apply digit_raises].
  - intros ts H. rewrite paren_eq. destruct ts as [|t ts]; [cbn; auto|]. cbn [length] in H. apply pbind_raises; [apply A; lia|].
    intros g t1 _. destruct t1 as [|t2 t1]; [cbn; auto|]. destruct (tok_is ")" t2); cbn; auto.
Qed.

(** The reader on tokens is the grammar. *)
Lemma inter_iff ts g : p_inter (fuel_for ts) ts = Some (Ok (g, [])) <-> r_inter ts g.
Proof.
  split.
  - intros H. apply read_grammar in H as (u & -> & R). now rewrite app_nil_r.
  - intros R. destruct grammar_read as (_ & _ & _ & GR). specialize (GR ts g R [] (Ok (g, [])) I).
    rewrite app_nil_r in GR. destruct GR as [f H].
    { exists 1. intros k HK. destruct k; [lia|reflexivity]. }
    destruct (parse_fuel (fuel_for ts)) as (A & _). specialize (A ts). unfold fuel_for in *.
    destruct (p_inter (8 * length ts + 8) ts) as [r|] eqn:E; [|cbn in A; exfalso; apply A; lia].
    apply gives_inter in E. f_equal. eapply gives_det; [exact E|]. exists f. exact H.
Qed.
Lemma from_iff s g : geo_from_mcnp s = Ok g <-> exists ts, geo_tokens s = Some ts /\ r_inter ts g.
Proof.
  unfold geo_from_mcnp. split.
  - intros H. destruct (geo_tokens s) as [ts|]; [|discriminate]. exists ts. split; auto. apply inter_iff.
    destruct (p_inter (fuel_for ts) ts) as [[[g' [|]]|e|e]|]; try discriminate; [congruence|destruct e; discriminate].
  - intros (ts & -> & R). apply inter_iff in R. now rewrite R.
Qed.
Lemma from_raises s : match geo_from_mcnp s with
  | Ok _ => True | Lib e => e = TypesError | Py e => e = AssertionError \/ e = IndexError end.
Proof.
  unfold geo_from_mcnp. destruct (geo_tokens s) as [ts|]; [|reflexivity]. destruct (parse_fuel (fuel_for ts)) as (A & _).
  specialize (A ts). unfold fuel_for in *. assert (H : raises_only (p_inter (8 * length ts + 8) ts)) by (apply A; lia).
  destruct (p_inter _ ts) as [[[g' [|]]|e|e]|]; cbn in H; auto; try tauto. destruct H as [<-|[<-|[<-|[]]]]; auto.
Qed.
