(** Model of the PTRAC reader and writer: /repo/src/pymcnp/Ptrac.py and
    /repo/src/pymcnp/ptrac.  Values of J, P, I, N, V and L lines are kept in the
    order of the attributes. *)

From Coq Require Import Ascii String NArith ZArith Bool Arith List.
From Verif Require Import PyStr Regex RegexParse PyNum Types.
Import ListNotations.
Open Scope char_scope.

(** ** Event types *)

(** ptrac/history/event/j/EventType.py:10-77: the values of the enumeration. *)
Definition event_codes : list str := map L
  ["1000"; "2001"; "-2001"; "2002"; "-2002"; "2003"; "-2003"; "2004"; "-2004"; "2005";
   "-2005"; "2006"; "-2006"; "2007"; "-2007"; "2008"; "-2008"; "2009"; "-2009"; "2010";
   "-2010"; "2011"; "-2011"; "2012"; "-2012"; "2013"; "-2013"; "2014"; "-2014"; "2015";
   "-2015"; "2016"; "-2016"; "2017"; "-2017"; "2018"; "-2018"; "2019"; "-2019"; "2020";
   "-2020"; "2021"; "-2021"; "2022"; "-2022"; "2023"; "-2023"; "2024"; "-2024"; "2025";
   "-2025"; "2026"; "-2026"; "2030"; "-2030"; "2031"; "-2031"; "2032"; "-2032"; "2033";
   "-2033"; "2034"; "-2034"; "3000"; "4000"; "5000"; "9000"]%string.

(** The members the filter and the processor dispatch on, EventType.py:10, 74-77. *)
Definition SOURCE : str := L "1000".
Definition SURFACE : str := L "3000".
Definition COLLISION : str := L "4000".
Definition TERMINAL : str := L "5000".

(** EventType.from_mcnp, EventType.py:79-96.  A member is its value. *)
Definition event_type_from_mcnp (s : str) : result str :=
  if existsb (seqb s) event_codes then Ok s else Lib PtracError.

(** ** Numbers in fixed-width fields *)

(** Real.__format__ with a specification [W.Pa], types/Real.py:137-156.
    A shorthand has no [adjusted].  [as_tuple] of an infinity has the digits
    (0,), of a NaN its payload; [adjusted] of both is 0. *)
Definition real_format (w p : nat) (x : realv) : result str :=
  match x with
  | RHor _ => Py AttributeError
  | RVal d =>
      let '(neg, ds, adj) :=
        match d with
        | Fin neg c e => (neg, str_of_N c, (e + Z.of_nat (ndigits c) - 1)%Z)
        | Inf neg => (neg, L "0", 0%Z)
        | NaN neg _ diag => (neg, diag, 0%Z)
        end in
      let e := (adj + Z.of_nat p)%Z in
      let s := if neg then ["-"] else [sp] in
      let ds := firstn (w - p + 1) ds in
      if seqb ds (L "0") then Ok (s ++ L "0." ++ srepeat w (L "0") ++ L "E+00")
      else
        let ds := srepeat p (L "0") ++ ds in
        Ok (s ++ firstn 1 ds ++ L "." ++ skipn 1 ds ++ L "E" ++ fmt_plus03 e)
  end.

(** [if self.tfc] and [if self.number]: Real.__bool__, Integer.__bool__. *)
Definition real_bool (x : realv) : result bool :=
  match x with
  | RHor _ => Py AttributeError
  | RVal (Fin _ c _) => Ok (negb (c =? 0)%N)
  | RVal _ => Ok true
  end.
Definition int_bool (x : intv) : result bool :=
  match x with IHor _ => Py AttributeError | IVal z => Ok (negb (z =? 0)%Z) end.

(** A numeric attribute. *)
Inductive fval := FI (i : intv) | FR (r : realv).

(** [types.Integer.from_mcnp(tokens[n])] or [types.Real.from_mcnp(tokens[n])]. *)
Definition fval_from_mcnp (real : bool) (s : str) : result fval :=
  if real then bind (real_from_mcnp s) (fun r => Ok (FR r))
  else bind (integer_from_mcnp s) (fun i => Ok (FI i)).
Definition fval_str (v : fval) : str :=
  match v with FI i => integer_to_mcnp i | FR r => real_to_mcnp r end.

(** The groups [i], [i+1], ... read one after the other. *)
Fixpoint read_fields (o : mobj) (i : nat) (kinds : list bool) : result (list fval) :=
  match kinds with
  | [] => Ok []
  | k :: ks =>
      bind (fval_from_mcnp k (grp i o)) (fun v =>
      bind (read_fields o (S i) ks) (fun vs => Ok (v :: vs)))
  end.

Fixpoint groups_pat (n : nat) (g : str) : str :=
  match n with O => [] | S n' => g ++ groups_pat n' g end.

(** ** J lines: ptrac/history/event/J_0.py ... J_7.py *)

(** Which of the attributes after [next_type] are read as Real (true) or
    Integer (false): J_0.py:85-89, J_1.py:93-98, J_2.py:93-98, J_3.py:100-106,
    J_4.py:93-98, J_5.py:101-107, J_6.py:100-106, J_7.py:107-114. *)
Definition j_kinds (k : nat) : list bool :=
  match k with
  | 0 => [false; false; false; false]
  | 1 | 2 | 4 => [false; true; false; false; false]
  | 3 | 5 => [false; false; false; false; false; false]
  | 6 => [false; true; false; false; false; false]
  | _ => [false; false; false; false; false; false; false]
  end.

(** J_k._REGEX: J_0.py:22, J_1.py:23, J_2.py:23, J_3.py:24, J_4.py:23,
    J_5.py:24, J_6.py:24, J_7.py:25. *)
Definition pat_j (k : nat) : str :=
  L "\A\s" ++ groups_pat (S (length (j_kinds k))) (L "(.{10})") ++ L "\Z".
Definition re_j (k : nat) : re := compile true (pat_j k).

Record jline := { jform : nat; next_type : str; jvals : list fval }.

(** J_k.from_mcnp: J_0.py:67-98, J_1.py:74-107, J_2.py:74-107, J_3.py:81-116,
    J_4.py:74-107, J_5.py:82-117, J_6.py:81-116, J_7.py:88-124. *)
Definition j_from_mcnp (k : nat) (s : str) : result jline :=
  match re_match (re_j k) s with
  | None => Lib PtracError
  | Some o =>
      bind (event_type_from_mcnp (strip (grp 1 o))) (fun t =>
      bind (read_fields o 2 (j_kinds k)) (fun vs =>
      Ok {| jform := k; next_type := t; jvals := vs |}))
  end.

(** J_k.to_mcnp: J_0.py:108, J_1.py:117, J_2.py:117, J_3.py:126, J_4.py:117,
    J_5.py:127, J_6.py:126, J_7.py:126. *)
Definition j_to_mcnp (j : jline) : str :=
  sp :: rjust 10 (next_type j) ++ concat (map (fun v => rjust 10 (fval_str v)) (jvals j)).

(** ** P lines: ptrac/history/event/P_0.py, P_1.py *)

(** Number of coordinates: P_0.py:19, P_1.py:25. *)
Definition p_count (k : nat) : nat := match k with 0 => 3 | _ => 9 end.
Definition pat_p (k : nat) : str := L "\A\s" ++ groups_pat (p_count k) (L "(.{13})") ++ L "\Z".
Definition re_p (k : nat) : re := compile true (pat_p k).

Record pline := { pform : nat; pvals : list realv }.

Definition reals_of (l : list fval) : list realv :=
  concat (map (fun v => match v with FR r => [r] | FI _ => [] end) l).

(** P_0.py:52-79, P_1.py:94-133 *)
Definition p_from_mcnp (k : nat) (s : str) : result pline :=
  match re_match (re_p k) s with
  | None => Lib PtracError
  | Some o =>
      bind (read_fields o 1 (repeat true (p_count k))) (fun vs =>
      Ok {| pform := k; pvals := reals_of vs |})
  end.

(** P_0.py:81-93, P_1.py:135-153: two blanks, then the numbers separated by one. *)
Definition p_to_mcnp (p : pline) : result str :=
  bind (mapM (real_format 5 1) (pvals p)) (fun l => Ok (sp :: sp :: join [sp] l)).

(** ** Events: ptrac/history/Event.py *)

Record event := { j_line : jline; p_line : pline }.

(** Event._REGEX, Event.py:19-22; [.pattern[2:-2]] strips the anchors. *)
Definition pat_event : str :=
  L "\A((?:" ++ join (L ")|(?:") (map (fun k => slice 2 2 (pat_j k)) [0; 1; 2; 3; 4; 5; 6; 7]) ++
  L "))\n((?:" ++ slice 2 2 (pat_p 0) ++ L ")|(?:" ++ slice 2 2 (pat_p 1) ++ L "))\n\Z".
Definition re_event : re := compile true pat_event.

(** [for variation in ...: try: x = variation.from_mcnp(...); break; except
    errors.PtracError: pass], Event.py:69-81: [Ok None] leaves the name unbound. *)
Fixpoint first_form {A} (read : nat -> result A) (ks : list nat) : result (option A) :=
  match ks with
  | [] => Ok None
  | k :: ks' =>
      match read k with
      | Ok a => Ok (Some a)
      | Lib PtracError => first_form read ks'
      | Lib e => Lib e
      | Py e => Py e
      end
  end.

(** Event.from_mcnp, Event.py:49-86. *)
Definition event_from_mcnp (s : str) : result event :=
  match re_match re_event s with
  | None => Lib PtracError
  | Some o =>
      bind (first_form (fun k => j_from_mcnp k (grp 1 o)) [0; 1; 2; 3; 4; 5; 6; 7]) (fun j =>
      bind (first_form (fun k => p_from_mcnp k (grp 54 o)) [0; 1]) (fun p =>
      match j, p with
      | Some j, Some p => Ok {| j_line := j; p_line := p |}
      | _, _ => Py UnboundLocalError
      end))
  end.

(** Event.to_mcnp, Event.py:87-95. *)
Definition event_to_mcnp (e : event) : result str :=
  bind (p_to_mcnp (p_line e)) (fun p => Ok (j_to_mcnp (j_line e) ++ nl :: p ++ [nl])).

(** ** I lines: ptrac/history/I.py *)

Record iline := { nps : intv; event_type : str; inumber : option intv; tfc : option realv }.

(** I.py:21 *)
Definition re_i : re := compile true (L "\A\s(.{10})(.{10})(.{10})?(.{13})?\Z").

Definition opt_field {A} (f : str -> result A) (t : option str) : result (option A) :=
  match truthy t with None => Ok None | Some s => bind (f s) (fun a => Ok (Some a)) end.

(** I.from_mcnp, I.py:54-83 *)
Definition i_from_mcnp (s : str) : result iline :=
  match re_match re_i s with
  | None => Lib PtracError
  | Some o =>
      bind (integer_from_mcnp (grp 1 o)) (fun n =>
      bind (event_type_from_mcnp (strip (grp 2 o))) (fun t =>
      bind (opt_field integer_from_mcnp (group 3 o)) (fun c =>
      bind (opt_field real_from_mcnp (group 4 o)) (fun r =>
      Ok {| nps := n; event_type := t; inumber := c; tfc := r |}))))
  end.

(** I.to_mcnp, I.py:85-103 *)
Definition i_to_mcnp (i : iline) : result str :=
  bind (match tfc i with
        | None => Ok []
        | Some r => bind (real_bool r) (fun b =>
                    if b then bind (real_format 5 0 r) (fun t => Ok (sp :: t)) else Ok [])
        end) (fun t =>
  bind (match inumber i with
        | None => Ok []
        | Some n => bind (int_bool n) (fun b => Ok (if b then rjust 10 (integer_to_mcnp n) else []))
        end) (fun c =>
  Ok (sp :: rjust 10 (integer_to_mcnp (nps i)) ++ rjust 10 (event_type i) ++ c ++ t))).

(** ** Histories: ptrac/History.py *)

Record history := { i_line : iline; events : list event }.

(** History._REGEX, History.py:19 *)
Definition pat_history : str := L "\A(.+)\n((?:" ++ slice 2 2 pat_event ++ L ")+)\Z".
Definition re_history : re := compile true pat_history.

(** [types.Generator(history.Event).from_mcnp] (types/Generator.py:46-64) and
    [None in events] of History.__init__ (History.py:39): the membership test
    reads the events one by one and compares each with None, which writes it
    (_symbol.py:62-63). *)
Definition events_from_mcnp (s : str) : result (list event) :=
  mapM (fun o => bind (event_from_mcnp (mtext o)) (fun e => bind (event_to_mcnp e) (fun _ => Ok e)))
       (finditer (compile true (slice 2 2 pat_event)) s).

(** History.from_mcnp, History.py:46-69 *)
Definition history_from_mcnp (s : str) : result history :=
  match re_match re_history s with
  | None => Lib PtracError
  | Some o =>
      bind (i_from_mcnp (grp 1 o)) (fun i =>
      bind (events_from_mcnp (grp 2 o)) (fun es => Ok {| i_line := i; events := es |}))
  end.

(** History.to_mcnp, History.py:71-79 *)
Definition history_to_mcnp (h : history) : result str :=
  bind (i_to_mcnp (i_line h)) (fun i =>
  bind (mapM event_to_mcnp (events h)) (fun es => Ok (i ++ nl :: concat es))).

(** ** Header lines: ptrac/header/N.py, V.py, L.py *)

(** N.py:36, 171-233 *)
Definition re_n : re := compile true (L "\A\s" ++ groups_pat 20 (L "(.{5})") ++ L "\n\Z").
Definition n_from_mcnp (s : str) : result (list fval) :=
  match re_match re_n s with
  | None => Lib PtracError
  | Some o => read_fields o 1 (repeat false 20)
  end.
(** N.py:234-267 *)
Definition n_to_mcnp (l : list fval) : str := sp :: concat (map (fun v => rjust 5 (fval_str v)) l) ++ [nl].

(** V.py:17, 35-58.  V.__init__ raises nothing: a Real differs from None. *)
Definition re_v : re := compile true (L "\A((?:.{5,121}?\n)+)\Z").
Definition v_from_mcnp (s : str) : result (list realv) :=
  match re_match re_v s with
  | None => Lib PtracError
  | Some o => tuple_from_mcnp pat_number real_from_mcnp (grp 1 o)
  end.
(** V.py:68-77: the loop from index [i]; the last character is cut off. *)
Fixpoint v_loop (i : nat) (l : list realv) : result str :=
  match l with
  | [] => Ok []
  | v :: vs =>
      bind (real_format 4 0 v) (fun t =>
      bind (v_loop (S i) vs) (fun r =>
      Ok (sp :: t ++ (if ((S i mod 10 =? 0) && negb (i =? 0))%nat then [nl; sp] else []) ++ r)))
  end.
Definition v_to_mcnp (l : list realv) : result str :=
  bind (v_loop 0 l) (fun t => Ok (removelast (sp :: t))).

(** L.py:17, 35-58 *)
Definition re_l : re := compile true (L "\A((?:\s(?:.{4})+\n)+)\Z").
Definition l_from_mcnp (s : str) : result (list intv) :=
  match re_match re_l s with
  | None => Lib PtracError
  | Some o => tuple_from_mcnp pat_number integer_from_mcnp (grp 1 o)
  end.
(** L.py:68-76 *)
Fixpoint l_loop (i : nat) (l : list intv) : str :=
  match l with
  | [] => []
  | v :: vs =>
      rjust 4 (integer_to_mcnp v) ++
      (if ((S i mod 30 =? 0) && negb (i =? 0))%nat then [nl; sp] else []) ++ l_loop (S i) vs
  end.
Definition l_to_mcnp (l : list intv) : str := sp :: l_loop 0 l ++ [nl].

(** ** Header: ptrac/Header.py *)

Record header := {
  code_name : str; version : str; code_date : str; run_datetime : str; htitle : str;
  v_line : list realv; n_line : list fval; l_line : list intv }.

(** Header.py:27 *)
Definition re_header : re := compile true
  (L "\A   -1\n(.{8})(.{25})(.{9})(.{18})\n(.{80})\n((?:\s.{120}\n)+)(\s.{100}\n)((?:\s(?:.{4})+\n)+)\Z").

(** Header.py:90-119 *)
Definition header_from_mcnp (s : str) : result header :=
  match re_match re_header s with
  | None => Lib PtracError
  | Some o =>
      bind (v_from_mcnp (grp 6 o)) (fun v =>
      bind (n_from_mcnp (grp 7 o)) (fun n =>
      bind (l_from_mcnp (grp 8 o)) (fun l =>
      Ok {| code_name := grp 1 o; version := grp 2 o; code_date := grp 3 o; run_datetime := grp 4 o;
            htitle := grp 5 o; v_line := v; n_line := n; l_line := l |})))
  end.

(** Header.py:121-129 *)
Definition header_to_mcnp (h : header) : result str :=
  bind (v_to_mcnp (v_line h)) (fun v =>
  Ok (L "   -1" ++ nl :: ljust 8 (code_name h) ++ ljust 25 (version h) ++ ljust 9 (code_date h) ++
      ljust 18 (run_datetime h) ++ nl :: ljust 80 (htitle h) ++ nl :: v ++
      n_to_mcnp (n_line h) ++ l_to_mcnp (l_line h))).

(** ** Files: Ptrac.py *)

Record ptrac := { pheader : header; histories : list history }.

(** Ptrac.py:19-22 *)
Definition re_ptrac : re := compile true
  (L "\A(   -1\n.{60}\n[^\n]{80}\n(?:\s[^\n]{120}\n)+\s[^\n]{100}\n(?:\s(?:[^\n]{4})+\n)+?)((?:[^\n]+\n(?:(?:(?:(?:\s[^\n]{50})|(?:\s[^\n]{60})|(?:\s[^\n]{60})|(?:\s[^\n]{70})|(?:\s[^\n]{60})|(?:\s[^\n]{70})|(?:\s[^\n]{70})|(?:\s[^\n]{80}))\n(?:\s[^\n]{39})|(?:\s[^\n]{117}))\n)+)+)\Z").

(** Ptrac.from_mcnp, Ptrac.py:48-71.  [types.Tuple(ptrac.History)(list)] tests
    [None in list], which writes every history (_symbol.py:62-63). *)
Definition ptrac_from_mcnp (s : str) : result ptrac :=
  match re_match re_ptrac s with
  | None => Lib PtracError
  | Some o =>
      bind (header_from_mcnp (grp 1 o)) (fun h =>
      bind (mapM (fun x => history_from_mcnp (mtext x))
                 (finditer (compile false (slice 2 2 pat_history)) (grp 2 o))) (fun hs =>
      bind (mapM history_to_mcnp hs) (fun _ =>
      Ok {| pheader := h; histories := hs |})))
  end.

(** Ptrac.to_mcnp, Ptrac.py:73-81 *)
Definition ptrac_to_mcnp (p : ptrac) : result str :=
  bind (header_to_mcnp (pheader p)) (fun h =>
  bind (mapM history_to_mcnp (histories p)) (fun hs => Ok (h ++ concat hs))).
