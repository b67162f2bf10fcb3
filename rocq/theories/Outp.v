(** Model of OUTP files (/repo/src/pymcnp/Outp.py) and of their string tables
    (/repo/src/pymcnp/outp). *)

From Coq Require Import Ascii String NArith ZArith Bool Arith List.
From Verif Require Import PyStr Regex RegexParse Types OutpTables.
Import ListNotations.
Open Scope list_scope.

(** * Tables that hold only strings *)

(** [from_mcnp] of such a table, e.g. StartingMcrun.py:54-80: the fields in the order
    of the constructor.  [String.from_mcnp] (String.py:37-52) takes any text, but not
    the [None] of a group that did not take part.  The constructors check for [None]
    only, and no field is. *)
Definition table_from_mcnp (t : table) (s : str) : result (list str) :=
  match re_match (compile false (t_pat t)) s with
  | None => Lib OutpError
  | Some o => mapM (fun i => match group i o with Some x => Ok x | None => Lib TypesError end) (t_groups t)
  end.
(** A piece of the text: [f'{x:w}'] of a string fills it up on the right. *)
Definition piece_text (v : list str) (p : piece) : str :=
  match p with
  | T s => s
  | NL => [nl]
  | F f w => ljust w (nth f v [])
  end.
(** [to_mcnp], e.g. StartingMcrun.py:82-99: [f"..."[1:-cut]]. *)
Definition table_to_mcnp (t : table) (v : list str) : str :=
  slice 1 (t_cut t) (concat (map (piece_text v) (t_out t))).

(** * Tallies *)

(** The elements a [Tuple] or a [Generator] is read from (Tuple.py:68, Generator.py:63):
    every place the pattern of the element, without its first and last two
    characters, matches. *)
Definition parts (t : table) (s : str) : list str := map mtext (finditer (compile true (slice 2 2 (t_pat t))) s).

(** The fields of a line of a tally (Line.py:53-77). *)
Definition line_from_mcnp (s : str) : result (list str) :=
  match re_match (compile true (t_pat t_Line)) s with
  | None => Lib OutpError
  | Some o => mapM (fun i => match group i o with Some x => Ok x | None => Lib TypesError end) (t_groups t_Line)
  end.
(** A subtally: its strings and its lines. *)
Record subtally := { b_strings : list str; b_lines : list (list str) }.
(** e.g. Subtally_1.py:66-94.  The lines are a [Generator]; the constructor's
    [None in lines] (Subtally_1.py:53) goes through all of them, so what reading a
    line raises is raised here. *)
Definition subtally_from_mcnp (c : sub_class) (s : str) : result subtally :=
  match re_match (compile true (t_pat (s_table c))) s with
  | None => Lib OutpError
  | Some o =>
      bind (mapM (fun i => match group i o with Some x => Ok x | None => Lib TypesError end) (t_groups (s_table c))) (fun v =>
      bind (mapM line_from_mcnp (parts t_Line (grp (s_group c) o))) (fun ls =>
      Ok {| b_strings := v; b_lines := ls |}))
  end.
(** e.g. Subtally_1.py:96-110: [''.join(map(str, self.lines))] is the field after the strings. *)
Definition subtally_to_mcnp (c : sub_class) (x : subtally) : str :=
  table_to_mcnp (s_table c) (b_strings x ++ [concat (map (table_to_mcnp t_Line) (b_lines x))]).

Record tally := { w_strings : list str; w_message : option str; w_subs : list subtally }.
(** e.g. Tally_8A.py:118-159 *)
Definition tally_from_mcnp (c : tally_class) (s : str) : result tally :=
  match re_match (compile false (t_pat (y_table c))) s with
  | None => Lib OutpError
  | Some o =>
      bind (mapM (fun i => match group i o with Some x => Ok x | None => Lib TypesError end) (t_groups (y_table c))) (fun v =>
      bind (mapM (subtally_from_mcnp (y_sub c)) (parts (s_table (y_sub c)) (grp (y_group c) o))) (fun bs =>
      Ok {| w_strings := v;
            w_message := match y_message c with
                         | Some i => match group i o with Some ((_ :: _) as t) => Some t | _ => None end
                         | None => None
                         end;
            w_subs := bs |}))
  end.
(** e.g. Tally_8A.py:161-198.  An empty [String] is false. *)
Definition tally_to_mcnp (c : tally_class) (x : tally) : str :=
  let ms := match y_message c with
            | None => []
            | Some _ => [match w_message x with
                         | Some ((_ :: _) as t) => nl :: srepeat 11 [sp] ++ t ++ [nl]
                         | _ => []
                         end]
            end in
  table_to_mcnp (y_table c) (w_strings x ++ ms ++ [concat (map (subtally_to_mcnp (y_sub c)) (w_subs x))]).

(** * Files *)

Section File.
  Variable H B : Type.
  Variable header : str -> result H.               (* Header.from_mcnp *)
  Variable header_text : H -> str.                 (* Header.to_mcnp *)
  (** The subclasses of [Block] in the order of [__subclasses__()]: what [from_mcnp]
      gives, [None] for any exception (Outp.py:80-85).  A block is never false. *)
  Variable readers : list (str -> option B).
  Variable block_text : B -> str.                  (* to_mcnp of a block *)

  (** The loop over the subclasses (Outp.py:79-87). *)
  Fixpoint first_reader (l : list (str -> option B)) (s : str) : option B :=
    match l with
    | [] => None
    | r :: l' => match r s with Some b => Some b | None => first_reader l' s end
    end.
  Definition recognise (s : str) : option B := first_reader readers s.

  (** The loop over the pieces (Outp.py:73-89). *)
  Fixpoint blocks_of (l : list str) : list B :=
    match l with
    | [] => []
    | s :: l' =>
        match s with
        | [] => blocks_of l'
        | _ => match recognise ("1"%char :: s) with
               | Some b => b :: blocks_of l'
               | None => blocks_of l'
               end
        end
    end.

  Record outp := { o_header : H; o_blocks : list B }.

  (** [re.split(r'(\n\d)', source)], which keeps what the group matched, cut into
      the text before the first match and the join of the rest (Outp.py:63-70);
      [None] if there is no match. *)
  Definition split_header (s : str) : str * option str :=
    match search (compile false (L "(\n\d)")) [] s with
    | Some o => (rev (mpre o), Some (mtext o ++ mrest o))
    | None => (s, None)
    end.
  (** Outp.py:53-96.  [types.Tuple] takes any list without [None]. *)
  Definition outp_from_mcnp (s : str) : result outp :=
    let (h, t) := split_header s in
    bind (header (match t with Some _ => h ++ [nl] | None => h end)) (fun hd =>
    Ok {| o_header := hd;
          o_blocks := blocks_of (resplit (compile false (L "\n1")) (match t with Some t => t | None => [] end)) |}).
  (** Outp.py:98-106 *)
  Definition outp_to_mcnp (x : outp) : str :=
    header_text (o_header x) ++ join [nl] (map block_text (o_blocks x)).

  (** [to_dataframe] (Outp.py:108-119) without the frames themselves: for the blocks
      that have one, under which number the dictionary has which block. [number]
      is [block.number.value.strip()] for a tally, [None] for a block without a
      [to_dataframe]. *)
  Variable number : B -> option str.
  Fixpoint frame_set (d : list (str * B)) (k : str) (b : B) : list (str * B) :=
    match d with
    | [] => [(k, b)]
    | (k', b') :: d' => if seqb k' k then (k', b) :: d' else (k', b') :: frame_set d' k b
    end.
  Definition dataframe (x : outp) : list (str * B) :=
    fold_left (fun d b => match number b with Some k => frame_set d k b | None => d end) (o_blocks x) [].
End File.
Arguments o_header {H B}. Arguments o_blocks {H B}.

(** * The blocks of the library *)

Inductive block := BTable (t : table) (v : list str) | BTally (c : tally_class) (x : tally).
Definition some_ok {A} (r : result A) : option A := match r with Ok x => Some x | _ => None end.
Definition table_reader (t : table) (s : str) : option block := option_map (BTable t) (some_ok (table_from_mcnp t s)).
Definition tally_reader (c : tally_class) (s : str) : option block := option_map (BTally c) (some_ok (tally_from_mcnp c s)).
(** [Block.__subclasses__()]: the classes in the order outp/__init__.py:1-16 imports
    them. [Tally_8.py] is not imported. *)
Definition all_readers : list (str -> option block) :=
  [table_reader t_Header; table_reader t_Mcnp; table_reader t_NeutronActivity; table_reader t_PhotonActivity;
   table_reader t_AnalysisTallyFluctuation; table_reader t_ProblemSummary; table_reader t_StartingMcrun;
   tally_reader y_Tally_1A; tally_reader y_Tally_1B; tally_reader y_Tally_2; tally_reader y_Tally_4;
   tally_reader y_Tally_8A; tally_reader y_Tally_8B; table_reader t_UnnormedTallyDensity].
Definition block_to_mcnp (b : block) : str :=
  match b with BTable t v => table_to_mcnp t v | BTally c x => tally_to_mcnp c x end.
(** [block.number.value.strip()] of the blocks with a [to_dataframe], the tallies. *)
Definition block_number (b : block) : option str :=
  match b with BTable _ _ => None | BTally _ x => Some (strip (nth 0 (w_strings x) [])) end.
Definition read_outp : str -> result (outp (list str) block) := outp_from_mcnp _ _ (table_from_mcnp t_Header) all_readers.
Definition write_outp : outp (list str) block -> str := outp_to_mcnp _ _ (table_to_mcnp t_Header) block_to_mcnp.
