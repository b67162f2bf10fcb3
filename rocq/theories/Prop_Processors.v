(** Properties C38 and C39: PtracFilter, PtracProcessor, MeshtalProcessor. *)

From Coq Require Import ZArith Bool String List.
From Verif Require Import PyStr PyNum Types Ptrac Processors ProcessorsSpec ProcessorsFacts.
Import ListNotations.

(** ** C38 *)

(** Every event belongs to exactly one category, decided by the announced type. *)
Theorem C38_classification : forall p, exists! l, classified (typed_events p) l.
Proof.
  exact (fun p => ex_intro _ _ (conj (classified_map _) (fun l H => eq_sym (classified_fun _ l H)))).
Qed.
Print Assumptions C38_classification.

(** The events yielded are those the predicate of their category accepts, in
    file order; each predicate is called once per event of its category. *)
Theorem C38_filter : forall (keep : category -> event -> bool) p l,
  classified (typed_events p) l ->
  ptrac_filter (fun c e log => (Ok (keep c e), log ++ [(c, e)])) p []
  = (map snd (filter (fun x => keep (fst x) (snd x)) l), l, Ok tt).
Proof. exact filter_calls. Qed.
Print Assumptions C38_filter.

Open Scope string_scope.
Definition ev (t : string) : event :=
  {| j_line := {| jform := 0; next_type := L t; jvals := [] |}; p_line := {| pform := 0; pvals := [] |} |}.
Definition two_histories : ptrac :=
  let il t := {| nps := IVal 1%Z; event_type := L t; inumber := None; tfc := None |} in
  {| pheader := {| code_name := []; version := []; code_date := []; run_datetime := []; htitle := [];
                   v_line := []; n_line := []; l_line := [] |};
     histories := [ {| i_line := il "1000"; events := [ev "4000"; ev "2003"; ev "9000"] |};
                    {| i_line := il "3000"; events := [ev "5000"; ev "9000"] |} ] |}.
Example C38_case :
  classified (typed_events two_histories)
    [(Source, ev "4000"); (Collision, ev "2003"); (Bank, ev "9000"); (Surface, ev "5000"); (Terminal, ev "9000")] /\
  fst (ptrac_filter (fun c e (s : unit) => (Ok match c with Source | Terminal => true | _ => false end, s))
    two_histories tt) = ([ev "4000"; ev "9000"], tt).
Proof. split; [apply (classified_map (typed_events two_histories))|reflexivity]. Qed.

(** ** C39 *)

Theorem C39_ptrac_processor : forall p l, classified (typed_events p) l ->
  ptrac_processor (fun c e => record (Item (c, e))) (record Pre) (record Post) p []
  = (Ok tt, Pre :: map Item l ++ [Post]).
Proof. exact processor_trace. Qed.
Print Assumptions C39_ptrac_processor.

Theorem C39_meshtal_processor : forall (T : Type) (tallies : list T),
  meshtal_processor (record Pre) (record Post) (fun t => record (Item t)) tallies []
  = (Ok tt, Pre :: map Item tallies ++ [Post]).
Proof. exact @meshtal_trace. Qed.
Print Assumptions C39_meshtal_processor.

(** When a hook raises, the calls made are those up to and including it: the
    post-hook does not run after a failing item. *)
Theorem C39_ptrac_processor_raising : forall bad p l, classified (typed_events p) l ->
  snd (ptrac_processor (fun c e => record_or_raise bad (Item (c, e)))
        (record_or_raise bad Pre) (record_or_raise bad Post) p [])
  = upto (fun c => match bad c with Some _ => true | None => false end) (Pre :: map Item l ++ [Post]).
Proof. exact processor_stops. Qed.
Print Assumptions C39_ptrac_processor_raising.
Theorem C39_meshtal_processor_raising : forall (T : Type) bad (tallies : list T),
  snd (meshtal_processor (record_or_raise bad Pre) (record_or_raise bad Post)
        (fun t => record_or_raise bad (Item t)) tallies [])
  = upto (fun c => match bad c with Some _ => true | None => false end) (Pre :: map Item tallies ++ [Post]).
Proof. exact @meshtal_stops. Qed.
Print Assumptions C39_meshtal_processor_raising.

Example C39_case :
  ptrac_processor (fun c e => record (Item (c, e))) (record Pre) (record Post) two_histories []
  = (Ok tt, [Pre; Item (Source, ev "4000"); Item (Collision, ev "2003"); Item (Bank, ev "9000");
             Item (Surface, ev "5000"); Item (Terminal, ev "9000"); Post]) /\
  upto (fun c => match c with Item 2 => true | _ => false end) (Pre :: map Item [1; 2; 3] ++ [Post])
  = [Pre; Item 1; Item 2].
Proof. split; reflexivity. Qed.
