(** Whole INP files (/repo/src/pymcnp/Inp.py): preparing the text, cutting it into
    blocks, reading the cards of each block, the constructor, writing. *)

From Coq Require Import Ascii String NArith ZArith Bool Arith List.
From Verif Require Import PyStr Regex RegexParse PyNum Types CardText Cards Tables Geometry Numbered Problem.
Import ListNotations.
Open Scope char_scope.
Open Scope list_scope.

(** * Preparing the text: [Inp._preprocess] (Inp.py:278-333) *)

Definition re_emptied : re := compile false (L "\n +\n").                        (* :287 *)
Definition re_vertical : re := compile false (L "\n(#(?: \S+)+\n(?: *\d\S*(?: +\S+)+\n)+)").   (* :290 *)
Definition re_table : re := compile false (L "#((?: \S+)+)\n((?: *\d\S*(?: +\S+)+\n)+)").      (* :293 *)
Definition re_space1 : re := compile false (L "\s+").                            (* :294, 299 *)
Definition re_amp : re := compile false (L "& *\n *").                           (* :306 *)
Definition re_indented : re := compile false (L "\s+.+").                        (* :323 *)

(** [re.split] for a pattern with one group: the texts between the matches, and the
    groups, in turn. *)
Fixpoint split_keep_f (fuel : nat) (r : re) (p s cur : str) : list str :=
  match fuel with
  | O => [rev cur ++ s]
  | S n =>
      match match_at r p s with
      | Some o => rev cur :: grp 1 o :: split_keep_f n r (rev (mtext o) ++ p) (mrest o) []
      | None =>
          match s with
          | [] => [rev cur]
          | c :: t => split_keep_f n r (c :: p) t (c :: cur)
          end
      end
  end.
Definition split_keep (r : re) (s : str) : list str := split_keep_f (S (length s)) r [] s [].

(** [for parameter, row in zip(parameters, rows): row.append(parameter)] (:300-301). *)
Fixpoint append_to (ps : list str) (rows : list (list str)) : list (list str) :=
  match ps, rows with
  | p :: ps', row :: rows' => (row ++ [p]) :: append_to ps' rows'
  | _, _ => rows
  end.
(** The body of the loop over the tokens (Inp.py:292-305). *)
Definition untable (t : str) : str :=
  match re_match re_table t with
  | Some o =>
      let cards := tl (resplit re_space1 (grp 1 o)) in
      let rows := fold_left (fun rows line => append_to (resplit re_space1 line) rows)
                            (removelast (split_on nl (grp 2 o))) (map (fun c => [c]) cards) in
      [nl] ++ join [nl] (map (join [sp]) rows) ++ [nl]
  | None => t
  end.

(** The loop over the lines (Inp.py:309-332): a line, the lines after it that are
    indented, and then their comments. [cs] are the comments so far, [out] the text. *)
Fixpoint gather (ls : list str) : str * list str * list str :=
  match ls with
  | l :: ls' =>
      match re_match re_indented l with
      | Some _ =>
          let '(a, c) := split1 "$" l in
          let '(text, cs, rest) := gather ls' in
          (a ++ text, match c with Some c => c :: cs | None => cs end, rest)
      | None => ([], [], ls)
      end
  | [] => ([], [], [])
  end.
Fixpoint join_lines (fuel : nat) (ls : list str) : str :=
  match fuel, ls with
  | S f, l :: ls' =>
      let '(a, c) := split1 "$" l in
      let '(text, cs, rest) := gather ls' in
      a ++ text ++ join (L " $") ([] :: match c with Some c => c :: cs | None => cs end) ++ [nl] ++ join_lines f rest
  | _, _ => []
  end.

Definition inp_preprocess (s : str) : str :=
  let s := sub re_emptied (fun _ => [nl; nl]) s in
  let s := concat (map untable (split_keep re_vertical s)) in
  let s := sub re_amp (fun _ => nl :: srepeat 4 [sp]) s in
  let ls := split_on nl s in
  let s := join_lines (length ls) ls in
  let s := sub re_blanks (fun _ => [sp]) s in
  let s := sub re_open (fun _ => ["("]) s in
  let s := sub re_close (fun _ => [")"]) s in
  let s := sub re_blankline (fun _ => [nl; nl]) s in
  let s := sub re_equals (fun _ => [sp]) s in
  let s := sub re_tab (fun _ => [sp; sp; sp; sp]) s in
  strip s.

(** * Blocks *)

(** [Inp._REGEX] (Inp.py:173). *)
Definition re_file : re :=
  compile true (L "\A((?:message:).+\n)?(.+)(?:\n)([\s\S]+?(?:\n\n))([\s\S]+?(?:\n\n))([\s\S]+?(?:\n\n|\Z))([\S\s]+)?\Z").
Record blocks := { b_message : option str; b_title : str; b_cells : list str; b_surfaces : list str; b_data : list str; b_other : option str }.
Definition card_lines (s : str) : list str := split_on nl (strip s).
(** Inp.py:222-234. *)
Definition cut_blocks (s : str) : option blocks :=
  match re_match re_file s with
  | None => None
  | Some o => Some
      {| b_message := truthy (group 1 o); b_title := grp 2 o; b_cells := card_lines (grp 3 o); b_surfaces := card_lines (grp 4 o);
         b_data := card_lines (grp 5 o); b_other := truthy (group 6 o) |}
  end.

(** * Cards *)

(** A card with the comments set aside when it was read ([card.comments],
    _card.py:34); none for a card that was made otherwise. *)
Definition remarked := (card * list str)%type.

(** Card.from_mcnp (_card.py:13-35) with the attributes of Cell (Cell.py:20-28). *)
Definition pat_cell : str :=
  L "\A(\S+)( \S+)((?<! 0) \S+|(?<= 0))( [^a-z]+)((?: (?:" ++ slice 2 2 pat_cell_CellOption ++ L "))+?)?\Z".
Definition re_cell : re := compile true pat_cell.
Definition options_ty : aty := Tup (TExt "cell_CellOption" pat_cell_CellOption).
Definition cell_from_mcnp (s : str) : result remarked :=
  let '(t, comments) := card_preprocess s in
  match re_match re_cell t with
  | None => Lib InpError
  | Some o =>
      bind (read_attr ext (One TInt) (group 1 o)) (fun number =>
      bind (read_attr ext (One TInt) (group 2 o)) (fun material =>
      bind (read_attr ext (One TReal) (group 3 o)) (fun density =>
      bind (match truthy (group 4 o) with Some g => bind (geo_from_mcnp (strip g)) (fun g => Ok (GGeo (CTree g))) | None => Ok GNone end) (fun geometry =>
      bind (read_attr ext options_ty (group 5 o)) (fun options =>
      bind (snd (cell_new first_number {| ca_number := to_arg number; ca_material := MArg (to_arg material); ca_density := to_arg density;
                                          ca_geometry := geometry; ca_options := to_arg options |}))
        (fun c => Ok (CCell c, comments)))))))
  end.

(** Like.py:14-45, and its setters (69-190): all attributes through the generic reader. *)
Definition k_Like : cls :=
  {| c_name := "Like"; c_kind := KCard; c_kw := [];
     c_pat := L "\A(\S+) like (\S+) but((?: (?:" ++ slice 2 2 pat_like_LikeOption ++ L "))+?)?\Z";
     c_attrs := [{| a_name := "number"; a_ty := One TInt; a_checks := [range_test 1 99999999] |};
                 {| a_name := "cell"; a_ty := One TInt; a_checks := [range_test 1 99999999] |};
                 {| a_name := "options"; a_ty := Tup (TExt "like_LikeOption" pat_like_LikeOption); a_checks := [] |}] |}.
Definition like_from_mcnp (s : str) : result remarked :=
  bind (card_from_mcnp ext fam k_Like s) (fun x => Ok (CLike (fst x), snd x)).
Definition attr_of (n : string) (o : obj) : option val := match assoc n o with Some v => v | None => None end.
(** Like.py:47-58. *)
Definition like_to_mcnp (o : obj) : str :=
  postprocess (write_opt (attr_of "number" o) ++ L " like " ++ write_opt (attr_of "cell" o) ++ L " but " ++ or_empty (attr_of "options" o)).

(** Card.from_mcnp with the attributes of Surface (Surface.py:18-25). *)
Definition pat_surface : str := L "\A(\+|\*)?(\S+)( \S+)?( (" ++ slice 2 2 pat_surface_SurfaceOption ++ L "))\Z".
Definition re_surface : re := compile true pat_surface.
Definition surface_from_mcnp (s : str) : result remarked :=
  let '(t, comments) := card_preprocess s in
  match re_match re_surface t with
  | None => Lib InpError
  | Some o =>
      bind (read_attr ext (One TStr) (group 1 o)) (fun prefix =>
      bind (read_attr ext (One TInt) (group 2 o)) (fun number =>
      bind (read_attr ext (One TInt) (group 3 o)) (fun transform =>
      bind (read_attr ext (One (TExt "surface_SurfaceOption" pat_surface_SurfaceOption)) (group 4 o)) (fun option =>
      bind (snd (surf_new first_number {| sa_option := to_arg option; sa_number := to_arg number; sa_transform := to_arg transform;
                                          sa_prefix := to_arg prefix |}))
        (fun c => Ok (CSurface c, comments))))))
  end.

(** Comment.py:14-29, 47-64: one attribute, no test. *)
Definition k_Comment : cls :=
  {| c_name := "Comment"; c_kind := KCard; c_kw := []; c_pat := L "\Ac(?: (.*))?\Z";
     c_attrs := [{| a_name := "text"; a_ty := One TStr; a_checks := [] |}] |}.
Definition comment_from_mcnp (s : str) : result remarked :=
  bind (card_from_mcnp ext fam k_Comment s) (fun x => Ok (CComment (match attr_of "text" (fst x) with Some (VStr t) => Some t | _ => None end), snd x)).
(** Comment.py:31-41. *)
Definition comment_to_mcnp (t : option str) : str :=
  postprocess (L "c" ++ match truthy t with Some t => sp :: t | None => [] end).

(** [types.Union(...).from_mcnp] (Union.py:29-52): the first class that reads the text
    without an error of the library. *)
Fixpoint first_of {A} (l : list (str -> result A)) (s : str) : result A :=
  match l with
  | [] => Lib TypesError
  | r :: l' => match r s with Lib _ => first_of l' s | x => x end
  end.
(** Inp.py:10-11. *)
Definition read_cell_card : str -> result remarked := first_of [cell_from_mcnp; like_from_mcnp; comment_from_mcnp].
Definition read_surface_card : str -> result remarked := first_of [surface_from_mcnp; comment_from_mcnp].

(** The data cards (Inp.py:12-164), in the order in which they are tried: the classes of
    Tables.v, M_0 and Comment. *)
Inductive entry := Known (c : cls) | Remark.
Definition data_entries : list entry :=
  [Known k_Act; Known k_Area; Known k_Awtab; Known k_Bbrem; Known k_Bflcl; Known k_Bfld; Known k_C;
   Known k_Cf; Known k_Cm; Known k_Cosy; Known k_Cosyp; Known k_Ctme; Known k_Cut; Known k_Dawwg;
   Known k_Dbcn; Known k_Dd; Known k_De; Known k_Df_0; Known k_Df_1; Known k_Dm; Known k_Drxs; Known k_Ds_0;
   Known k_Ds_1; Known k_Ds_2; Known k_Ds_3;
   Known k_Dxc; Known k_Dxt; Known k_E; Known k_Elpt; Known k_Em; Known k_Embdb; Known k_Embdf;
   Known k_Embeb; Known k_Embed; Known k_Embee; Known k_Embem; Known k_Embtb; Known k_Embtm; Known k_Esplt;
   Known k_Ext; Known k_F_0; Known k_F_1; Known k_F_2; Known k_F_3;
   Known k_F_4; Known k_Fc; Known k_Fcl; Known k_Fic; Known k_Files;
   Known k_Fill; Known k_Fip; Known k_Fir; Known k_Fm; Known k_Fmesh; Known k_Fmult; Known k_Fq; Known k_Fs;
   Known k_Ft; Known k_Fu; Known k_Histp; Known k_Hsrc; Known k_Idum; Known k_Imp; Known k_Kcode;
   Known k_Kopts; Known k_Kpert; Known k_Ksen; Known k_Ksrc; Known k_Lat; Known k_Lca; Known k_Lcb;
   Known k_Lcc; Known k_Lea; Known k_Leb; Known k_Lost; Known k_M_0; Known k_M_1; Known k_Mesh;
   Known k_Mgopt; Known k_Mode; Known k_Mphys; Known k_Mplot; Known k_Mt; Known k_Mx; Known k_Nonu;
   Known k_Notrn; Known k_Nps; Known k_Otfdb; Known k_Pd; Known k_Pert; Known k_Phys_0; Known k_Phys_1;
   Known k_Phys_2; Known k_Phys_3; Known k_Phys_4; Known k_Pikmt; Known k_Prdmp;
   Known k_Print; Known k_Ptrac; Known k_Pwt; Known k_Rand; Known k_Rdum; Known k_Sb_0;
   Known k_Sb_1; Known k_Sc; Known k_Sd; Known k_Sdef; Known k_Sf; Known k_Si_0; Known k_Si_1;
   Known k_Si_2; Known k_Sp_0; Known k_Sp_1; Known k_Spdtl; Known k_Ssr; Known k_Ssw; Known k_Stop;
   Known k_T_0; Known k_T_1; Known k_Talnp; Known k_Tf_0; Known k_Tf_1; Known k_Thtme; Known k_Tm;
   Known k_Tmp; Known k_Totnu; Known k_Tr_0; Known k_Tr_1; Known k_Tr_2; Known k_Tr_3; Known k_Tr_4;
   Known k_Tropt; Known k_Tsplt; Known k_U; Known k_Unc; Known k_Uran; Known k_Var; Known k_Void;
   Known k_Vol; Known k_Wwe; Known k_Wwg; Known k_Wwge; Known k_Wwgt; Known k_Wwn; Known k_Wwp; Known k_Wwt;
   Known k_Xs; Known k_Za; Known k_Zb; Known k_Zc; Known k_Zd; Remark].
Definition read_entry (e : entry) (s : str) : result remarked :=
  match e with
  | Known c => bind (card_from_mcnp ext fam c s) (fun x => Ok (CData c (fst x), snd x))
  | Remark => comment_from_mcnp s
  end.
Definition read_data_card : str -> result remarked := first_of (map read_entry data_entries).

(** [str(card)]. *)
Definition card_text (c : card) : result str :=
  match c with
  | CCell c => cell_to_mcnp c
  | CLike o => Ok (like_to_mcnp o)
  | CSurface s => Ok (surf_to_mcnp s)
  | CComment t => Ok (comment_to_mcnp t)
  | CData k o => Ok (card_to_mcnp k o)
  end.

(** * Files *)

(** The attributes of an INP object; the cards with their comments. *)
Record inp := mkinp { i_title : str; i_cells : list remarked; i_surfaces : list remarked; i_data : list remarked;
                      i_message : option str; i_other : option str }.

(** [isinstance(cell, inp.Cell) and (not cell.options or not any(isinstance(option,
    inp.cell.Imp) ...))] (Inp.py:423): a cell without an importance of its own.  A Tuple
    is always true. *)
Definition is_imp (v : val) : bool := match v with VObj k _ => String.eqb (c_name k) "cell_Imp" | _ => false end.
Definition no_imp (c : card) : bool :=
  match c with
  | CCell x => match ce_options x with Some (VTup l) => negb (existsb is_imp l) | _ => true end
  | _ => false
  end.

Section Files.
  Variables (read_cell read_surface read_data : str -> result remarked).

  (** [Inp.__init__] (Inp.py:175-206) with String and Tuple arguments: the title
      (Inp.py:367), and the test of the cells while there are no data yet
      (Inp.py:423-426).  The test [None in cells] compares the texts of the cards with
      None; it is not modelled. *)
  Definition inp_new (title : str) (cells surfaces data : list remarked) (message other : option str) : result inp :=
    if negb (Nat.ltb (length title) 80) then Lib InpError
    else if forallb (fun c => no_imp (fst c)) cells then Lib InpError
    else Ok (mkinp title cells surfaces data message other).

  (** [Inp.from_mcnp] (Inp.py:208-246). *)
  Definition inp_from_mcnp (s : str) : result inp :=
    match cut_blocks (inp_preprocess s) with
    | None => Lib InpError
    | Some b =>
        bind (mapM read_cell (b_cells b)) (fun cells =>
        bind (mapM read_surface (b_surfaces b)) (fun surfaces =>
        bind (mapM read_data (b_data b)) (fun data =>
        inp_new (b_title b) cells surfaces data (b_message b) (b_other b))))
    end.
End Files.
(** The reader of INP files. *)
Definition read_inp : str -> result inp :=
  inp_from_mcnp read_cell_card read_surface_card read_data_card.

(** [Inp.to_mcnp] (Inp.py:248-276), given the texts of the cards. *)
Definition block_text (ls : list str) : str := join [nl] ls.
Definition file_text (message : option str) (title : str) (cells surfaces data : list str) (other : option str) : str :=
  match message with Some m => match m with [] => [] | _ => m ++ [nl] end | None => [] end ++
  title ++ [nl] ++ block_text cells ++ [nl; nl] ++ block_text surfaces ++ [nl; nl] ++ block_text data ++ [nl; nl] ++
  match other with Some t => t | None => [] end.
Definition card_texts (l : list remarked) : result (list str) := mapM (fun c => card_text (fst c)) l.
Definition inp_to_mcnp (x : inp) : result str :=
  bind (card_texts (i_cells x)) (fun cells =>
  bind (card_texts (i_surfaces x)) (fun surfaces =>
  bind (card_texts (i_data x)) (fun data =>
  Ok (file_text (i_message x) (i_title x) cells surfaces data (i_other x))))).
