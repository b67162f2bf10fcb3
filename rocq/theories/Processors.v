(** Model of the file walkers: /repo/src/pymcnp/PtracFilter.py,
    /repo/src/pymcnp/PtracProcessor.py, /repo/src/pymcnp/MeshtalProcessor.py.

    The hooks are methods a user overrides: arbitrary state transformers that
    return or raise.  [S] is whatever state they read and write. *)

From Coq Require Import Ascii String Bool List.
From Verif Require Import PyStr Types Ptrac.
Import ListNotations.

Inductive category := Source | Bank | Surface | Collision | Terminal.

(** The [match kind] statement, PtracFilter.py:99-109, PtracProcessor.py:86-96.
    A case is an equality of event types, which compares their texts
    (_symbol.py:40-41). *)
Definition categorize (kind : str) : category :=
  if seqb kind SOURCE then Source
  else if seqb kind SURFACE then Surface
  else if seqb kind COLLISION then Collision
  else if seqb kind TERMINAL then Terminal
  else Bank.

Section Walk.
  Context {S : Type}.

  (** One history of PtracFilter.__call__, PtracFilter.py:96-116.  The result is
      the list of yielded events, the state left behind, and whether a check
      raised (nothing is yielded after that).  [kind] is the loop variable. *)
  Variable check : category -> event -> S -> result bool * S.
  Fixpoint filter_events (kind : str) (es : list event) (s : S) : list event * S * result unit :=
    match es with
    | [] => ([], s, Ok tt)
    | e :: es' =>
        match check (categorize kind) e s with
        | (Ok keep, s') =>
            let '(out, s'', r) := filter_events (next_type (j_line e)) es' s' in
            ((if keep then [e] else []) ++ out, s'', r)
        | (Lib x, s') => ([], s', Lib x)
        | (Py x, s') => ([], s', Py x)
        end
    end.

  (** The generator drained by its consumer, PtracFilter.py:94-118. *)
  Fixpoint filter_histories (hs : list history) (s : S) : list event * S * result unit :=
    match hs with
    | [] => ([], s, Ok tt)
    | h :: hs' =>
        match filter_events (event_type (i_line h)) (events h) s with
        | (out, s', Ok tt) => let '(out', s'', r) := filter_histories hs' s' in (out ++ out', s'', r)
        | bad => bad
        end
    end.
  Definition ptrac_filter (p : ptrac) (s : S) : list event * S * result unit :=
    filter_histories (histories p) s.

  (** A statement: returns or raises, and changes the state. *)
  Definition act := S -> result unit * S.
  Definition andthen (a b : act) : act := fun s =>
    match a s with (Ok tt, s') => b s' | bad => bad end.
  Definition skip : act := fun s => (Ok tt, s).

  (** PtracProcessor.__call__, PtracProcessor.py:74-101 *)
  Variable process : category -> event -> act.
  Fixpoint process_events (kind : str) (es : list event) : act :=
    match es with
    | [] => skip
    | e :: es' => andthen (process (categorize kind) e) (process_events (next_type (j_line e)) es')
    end.
  Fixpoint process_histories (hs : list history) : act :=
    match hs with
    | [] => skip
    | h :: hs' => andthen (process_events (event_type (i_line h)) (events h)) (process_histories hs')
    end.
  Variables prehook posthook : act.
  Definition ptrac_processor (p : ptrac) : act :=
    andthen prehook (andthen (process_histories (histories p)) posthook).

  (** MeshtalProcessor.__call__, MeshtalProcessor.py:34-47.  Tallies are opaque. *)
  Context {T : Type}.
  Variable process_tally : T -> act.
  Fixpoint process_tallies (ts : list T) : act :=
    match ts with [] => skip | t :: ts' => andthen (process_tally t) (process_tallies ts') end.
  Definition meshtal_processor (tallies : list T) : act :=
    andthen prehook (andthen (process_tallies tallies) posthook).
End Walk.
