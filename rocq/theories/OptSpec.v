(** Specification vocabulary for lists of options. *)

From Coq Require Import Ascii String NArith ZArith Bool Arith List.
From Verif Require Import PyStr Regex RegexParse Types TypesSpec CardText CardTextSpec PyNum Cards Tables CardsSpec Geometry Numbered Problem InpFile InpSpec InpSpec2.
Import ListNotations.
Open Scope char_scope.
Open Scope list_scope.

(** A field that is there, and is no sequence of several values. *)
Definition lone (v : option val) : Prop :=
  match v with
  | Some (VTup [_]) => True
  | Some (VTup _) => False
  | Some _ => True
  | None => False
  end.

(** Options that an earlier class of their family reads, in whole or in part, and
    two that are spelt like the shorthand [log]. *)
Definition shadowed_options : list string :=
  ["mplot_Xs_1"; "mplot_Xs_2"; "mplot_contour_Log"; "df_1_Log"; "sdef_Cel_1"; "sdef_Dir_0"; "sdef_Erg_1"; "sdef_Ext_1"; "sdef_Rad_1"; "sdef_Tme_1";
   "sdef_Par_1"; "sdef_Pos_1"; "sdef_Tr_1"; "sdef_X_1"; "sdef_Y_1"; "sdef_Z_1"; "ssr_Tr_1";
   "cell_Trcl_0"; "cell_Trcl_2"; "cell_Trcl_3"; "cell_Trcl_4"; "cell_Trcl_5";
   "cell_Fill_2"; "cell_Fill_3"; "cell_Fill_4"; "cell_Fill_5"; "cell_Fill_6";
   "like_Trcl_0"; "like_Trcl_2"; "like_Trcl_3"; "like_Trcl_4"; "like_Trcl_5";
   "like_Fill_2"; "like_Fill_3"; "like_Fill_4"; "like_Fill_5"; "like_Fill_6"]%string.

(** An option of the family [cs]: of regular form, made of proper values, each of
    its fields given, none of them a sequence of several values. *)
Definition plain_option (cs : list cls) (v : val) : Prop := exists k f hs fs o,
  In k cs /\ ~ In (c_name k) shadowed_options /\ has_form k f /\ c_kind k = KOption /\
  Forall2 head_ok (head_parts f) hs /\ gapless (f_fields f) fs /\ fs <> [] /\ Forall lone fs /\
  construct ext fam k (map to_arg (hs ++ fs)) = Ok o /\ v = obj_val k o.

(** The families of which there are lists, and the patterns by which the lists are
    scanned: attributes of the classes of the table, options of cells and of
    materials. *)
Definition option_patterns : list (string * str) :=
  flat_map (fun c => flat_map (fun a => match a_ty a with Tup (TExt n p) => [(n, p)] | _ => [] end) (c_attrs c)) all_classes ++
  [("cell_CellOption", pat_cell_CellOption); ("like_LikeOption", pat_like_LikeOption); ("m_0_MOption_0", pat_m_0_MOption_0)]%string.

(** [c] is a card (or option) of the form keyword, number, designator, single
    values, and then a list of options of the family [n], which may be left out if
    [opt]. *)
Definition has_list (c : cls) (f : form) (n : string) (opt : bool) : Prop :=
  (exists p, f_fields f = removelast (f_fields f) ++ [(Tup (TExt n p), opt)] /\ In (n, p) option_patterns) /\
  Forall (fun x => match x with (One t, false) => word_ty t = true /\ has_groups t = false | _ => False end) (removelast (f_fields f)) /\
  compile true (c_pat c) = form_re (c_kw c) f /\
  (exists hd fs, c_attrs c = hd ++ fs /\
     map (fun a => (a_name a, a_ty a)) hd = map fst (head_parts f) /\
     map a_ty fs = map fst (f_fields f) /\
     Forall (fun a => head_attr (a_name a) = false) fs) /\
  NoDup (map a_name (c_attrs c)) /\ c_kw c <> [] /\ forallb kw_char (c_kw c) = true.

(** Proper values of such a card: those around the keyword, the single values,
    and a list of plain options; if the list may be left out, it may be unset. *)
Definition list_values (f : form) (n : string) (opt : bool) (vs : list (option val)) : Prop := exists hs fs l,
  vs = hs ++ fs ++ [l] /\ Forall2 head_ok (head_parts f) hs /\ gapless (removelast (f_fields f)) fs /\
  match l with
  | Some (VTup os) => os <> [] /\ Forall (plain_option (fam n)) os
  | Some _ => False
  | None => opt = true
  end.

(** A card of the data block that ends with a list of options. *)
Definition listed_data (c : remarked) : Prop := exists k f n opt vs o,
  In (Known k) data_entries /\ ~ In (c_name k) ambiguous_cards /\ has_list k f n opt /\ c_kind k = KCard /\ list_values f n opt vs /\
  construct ext fam k (map to_arg vs) = Ok o /\ length (head_text (c_kw k) (texts o)) <= 78 /\ c = (CData k o, []).
