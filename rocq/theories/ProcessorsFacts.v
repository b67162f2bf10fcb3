(** Lemmas for [Prop_Processors]. *)

From Coq Require Import Ascii String Bool List Lia.
From Verif Require Import PyStr Types SubFacts EqualityFacts Ptrac Processors ProcessorsSpec.
Import ListNotations.

Lemma seqb_dec t u : seqb t u = true <-> t = u.
Proof. split; [apply seqb_eq'|intros ->]. induction u; cbn; auto. rewrite ceqb_refl. auto. Qed.

Lemma categorize_spec t : in_category t (categorize t).
Proof.
  unfold categorize.
  destruct (seqb t SOURCE) eqn:E1; [apply seqb_dec in E1; subst; constructor|].
  destruct (seqb t SURFACE) eqn:E2; [apply seqb_dec in E2; subst; constructor|].
  destruct (seqb t COLLISION) eqn:E3; [apply seqb_dec in E3; subst; constructor|].
  destruct (seqb t TERMINAL) eqn:E4; [apply seqb_dec in E4; subst; constructor|].
  constructor. intros H. cbn [map In] in H.
  destruct H as [<-|[<-|[<-|[<-|[]]]]]; vm_compute in *; discriminate.
Qed.

Lemma in_category_fun t c : in_category t c -> c = categorize t.
Proof.
  intros H. inversion H as [| | | |t' N]; subst; try reflexivity.
  pose proof (categorize_spec t) as C. inversion C; subst; auto; exfalso; apply N; cbn; auto.
Qed.

Definition tag (x : str * event) : category * event := (categorize (fst x), snd x).

Lemma classified_map l : classified l (map tag l).
Proof. induction l as [|[t e] l IH]; cbn; constructor; auto. apply categorize_spec. Qed.
Lemma classified_fun l l' : classified l l' -> l' = map tag l.
Proof.
  induction 1 as [|t c e l l' H _ IH]; cbn; auto. apply in_category_fun in H. subst. reflexivity.
Qed.

Section F.
  Context {S : Type} (keep : category -> event -> bool).
  Let check (c : category) (e : event) (s : S) : result bool * S := (Ok (keep c e), s).

  Lemma filter_events_pure es : forall k s,
    filter_events check k es s =
    (map snd (filter (fun x => keep (fst x) (snd x))
       (map tag (combine (k :: map (fun e => next_type (j_line e)) es) es))), s, Ok tt).
  Proof.
    induction es as [|e es IH]; intros k s; auto.
    cbn [filter_events]. unfold check at 1. rewrite IH. cbn [combine map tag fst snd filter].
    destruct (keep (categorize k) e); reflexivity.
  Qed.

  Lemma filter_pure p s : ptrac_filter check p s =
    (map snd (filter (fun x => keep (fst x) (snd x)) (map tag (typed_events p))), s, Ok tt).
  Proof.
    unfold ptrac_filter, typed_events. induction (histories p) as [|h hs IH]; auto.
    cbn [filter_histories map concat]. rewrite filter_events_pure, IH.
    rewrite map_app, filter_app, map_app. reflexivity.
  Qed.
End F.

Lemma filter_exact {S} keep p (s : S) l : classified (typed_events p) l ->
  ptrac_filter (fun c e s => (Ok (keep c e), s)) p s =
  (map snd (filter (fun x => keep (fst x) (snd x)) l), s, Ok tt).
Proof. intros H. apply classified_fun in H. subst. apply filter_pure. Qed.

(** ** Recording *)

Section R.
  Context {A : Type} (bad : call A -> option pyerr).
  Let rec := record_or_raise bad.
  Definition stop (c : call A) : bool := match bad c with Some _ => true | None => false end.

  (** what a run of the calls [l] leaves *)
  Fixpoint outcome (l : list (call A)) : result unit :=
    match l with [] => Ok tt | c :: t => match bad c with Some x => Py x | None => outcome t end end.

  Lemma outcome_app l1 l2 :
    outcome (l1 ++ l2) = match outcome l1 with Ok _ => outcome l2 | r => r end.
  Proof. induction l1 as [|c l IH]; cbn; auto. destruct (bad c); auto. Qed.
  Lemma upto_app l1 l2 :
    upto stop (l1 ++ l2) = match outcome l1 with Ok _ => l1 ++ upto stop l2 | _ => upto stop l1 end.
  Proof.
    induction l1 as [|c l IH]; cbn; auto. unfold stop. destruct (bad c); auto.
    fold stop. rewrite IH. destruct (outcome l); auto.
  Qed.
  Lemma upto_ok l : outcome l = Ok tt -> upto stop l = l.
  Proof.
    induction l as [|c l IH]; cbn; auto. unfold stop. destruct (bad c); [discriminate|].
    fold stop. intros H. rewrite IH; auto.
  Qed.
  Lemma outcome_res l : outcome l = Ok tt \/ exists x, outcome l = Py x.
  Proof. induction l as [|c l IH]; cbn; auto. destruct (bad c); eauto. Qed.

  Definition runs (a : @act (list (call A))) (l : list (call A)) : Prop :=
    forall log, a log = (outcome l, log ++ upto stop l).
  Lemma runs_one c : runs (rec c) [c].
  Proof. intros log. unfold rec, record_or_raise. cbn. unfold stop. destruct (bad c); reflexivity. Qed.
  Lemma runs_skip : runs skip [].
  Proof. intros log. cbn. now rewrite app_nil_r. Qed.
  Lemma runs_then a b l1 l2 : runs a l1 -> runs b l2 -> runs (andthen a b) (l1 ++ l2).
  Proof.
    intros HA HB log. unfold andthen. rewrite HA, outcome_app, upto_app.
    destruct (outcome_res l1) as [E|[x E]]; rewrite E; auto.
    rewrite (upto_ok l1 E), HB, app_assoc. reflexivity.
  Qed.
End R.

Lemma process_events_runs bad es : forall k,
  runs bad (process_events (fun c e => record_or_raise bad (Item (c, e))) k es)
    (map Item (map tag (combine (k :: map (fun e => next_type (j_line e)) es) es))).
Proof.
  induction es as [|e es IH]; intros k; [apply runs_skip|].
  cbn [process_events combine map tag fst snd]. apply (runs_then bad _ _ [_]); [apply runs_one|apply IH].
Qed.
Lemma processor_runs bad p l : classified (typed_events p) l ->
  runs bad (ptrac_processor (fun c e => record_or_raise bad (Item (c, e)))
              (record_or_raise bad Pre) (record_or_raise bad Post) p)
    (Pre :: map Item l ++ [Post]).
Proof.
  intros H. apply classified_fun in H. subst. unfold ptrac_processor, typed_events.
  apply (runs_then bad _ _ [Pre]); [apply runs_one|]. apply runs_then; [|apply runs_one].
  induction (histories p) as [|h hs IH]; [apply runs_skip|].
  cbn [process_histories map concat]. rewrite !map_app. apply runs_then; auto. apply process_events_runs.
Qed.
Lemma meshtal_runs {T} bad (ts : list T) :
  runs bad (meshtal_processor (record_or_raise bad Pre) (record_or_raise bad Post)
              (fun t => record_or_raise bad (Item t)) ts)
    (Pre :: map Item ts ++ [Post]).
Proof.
  unfold meshtal_processor. apply (runs_then bad _ _ [Pre]); [apply runs_one|].
  apply runs_then; [|apply runs_one].
  induction ts as [|t ts IH]; [apply runs_skip|].
  cbn [process_tallies map]. apply (runs_then bad _ _ [Item t]); auto. apply runs_one.
Qed.

Lemma outcome_none {A} (l : list (call A)) : outcome (fun _ => None) l = Ok tt.
Proof. induction l; cbn; auto. Qed.

Lemma record_none {A} (c : call A) log : record_or_raise (fun _ => None) c log = record c log.
Proof. reflexivity. Qed.

Lemma processor_trace p l : classified (typed_events p) l ->
  ptrac_processor (fun c e => record (Item (c, e))) (record Pre) (record Post) p []
  = (Ok tt, Pre :: map Item l ++ [Post]).
Proof.
  intros H. pose proof (processor_runs (fun _ => None) p l H []) as R.
  rewrite outcome_none in R. rewrite upto_ok in R; [|apply outcome_none]. exact R.
Qed.
Lemma meshtal_trace {T} (ts : list T) :
  meshtal_processor (record Pre) (record Post) (fun t => record (Item t)) ts []
  = (Ok tt, Pre :: map Item ts ++ [Post]).
Proof.
  pose proof (meshtal_runs (fun _ => None) ts []) as R.
  rewrite outcome_none in R. rewrite upto_ok in R; [|apply outcome_none]. exact R.
Qed.

(** A raising call ends the run. *)
Lemma processor_stops bad p l : classified (typed_events p) l ->
  let calls := Pre :: map Item l ++ [Post] in
  snd (ptrac_processor (fun c e => record_or_raise bad (Item (c, e)))
        (record_or_raise bad Pre) (record_or_raise bad Post) p [])
  = upto (fun c => match bad c with Some _ => true | None => false end) calls.
Proof. intros H. now rewrite (processor_runs bad p l H []). Qed.
Lemma meshtal_stops {T} bad (ts : list T) :
  let calls := Pre :: map Item ts ++ [Post] in
  snd (meshtal_processor (record_or_raise bad Pre) (record_or_raise bad Post)
        (fun t => record_or_raise bad (Item t)) ts [])
  = upto (fun c => match bad c with Some _ => true | None => false end) calls.
Proof. cbv zeta. now rewrite (meshtal_runs bad ts []). Qed.

(** Checks are called once per event, in order. *)
Lemma filter_calls keep p l : classified (typed_events p) l ->
  ptrac_filter (fun c e log => (Ok (keep c e), log ++ [(c, e)])) p [] =
  (map snd (filter (fun x => keep (fst x) (snd x)) l), l, Ok tt).
Proof.
  intros H. apply classified_fun in H. subst. unfold ptrac_filter, typed_events.
  assert (G : forall hs log,
    filter_histories (fun c e log => (Ok (keep c e), log ++ [(c, e)])) hs log =
    (map snd (filter (fun x => keep (fst x) (snd x))
       (map tag (concat (map (fun h => combine (announced h) (events h)) hs)))),
     log ++ map tag (concat (map (fun h => combine (announced h) (events h)) hs)), Ok tt)).
  { assert (E : forall es k log,
      filter_events (fun c e log => (Ok (keep c e), log ++ [(c, e)])) k es log =
      (map snd (filter (fun x => keep (fst x) (snd x))
         (map tag (combine (k :: map (fun e => next_type (j_line e)) es) es))),
       log ++ map tag (combine (k :: map (fun e => next_type (j_line e)) es) es), Ok tt)).
    { induction es as [|e es IH]; intros k log; [cbn; now rewrite app_nil_r|].
      cbn [filter_events]. rewrite IH. cbn [combine map tag fst snd filter].
      rewrite <- app_assoc. destruct (keep (categorize k) e); reflexivity. }
    induction hs as [|h hs IH]; intros log; [cbn; now rewrite app_nil_r|].
    cbn [filter_histories map concat]. rewrite E, IH, !map_app, filter_app, map_app, <- app_assoc.
    reflexivity. }
  now rewrite G.
Qed.
