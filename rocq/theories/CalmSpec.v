(** Which classes raise errors of Python: each with a text that makes it do so. *)

From Coq Require Import Ascii String List Bool.
From Verif Require Import PyStr Regex RegexParse PyNum Types CardText Cards Tables.
Import ListNotations.

(** The reader of a class by itself: cards (_card.py:13-35), options and entries
    (_option.py:12-39, _entry.py:12-39). *)
Definition is_card (c : cls) : bool :=
  match c_kind c with KCard | KOwn (OWord _) | KOwn ORings => true | _ => false end.
Definition reads_fine (c : cls) (s : str) : Prop :=
  if is_card c then is_py (card_from_mcnp ext fam c s) = false else is_py (family_from_mcnp ext fam [c] s) = false.
Definition reads_badly (c : cls) (s : str) : Prop :=
  if is_card c then exists e, card_from_mcnp ext fam c s = Py e else exists e, family_from_mcnp ext fam [c] s = Py e.

(** Classes and texts. *)
Definition raising : list (string * string) :=
  [("act_Thresh", "thresh j");
   ("act_Dnbais", "dnbais j");
   ("act_Nap", "nap j");
   ("Act", "act thresh j");
   ("Cosyp", "cosyp j j j j");
   ("Ctme", "ctme j");
   ("dawwg_block_Iquad", "iquad j");
   ("dawwg_block_Fmmix", "fmmix j");
   ("dawwg_block_Nosolv", "nosolv j");
   ("dawwg_block_Noedit", "noedit j");
   ("dawwg_block_Nogeod", "nogeod j");
   ("dawwg_block_Nomix", "nomix j");
   ("dawwg_block_Noasg", "noasg j");
   ("dawwg_block_Nomacr", "nomacr j");
   ("dawwg_block_Noslnp", "noslnp j");
   ("dawwg_block_Noedtt", "noedtt j");
   ("dawwg_block_Noadjm", "noadjm j");
   ("dawwg_block_Balxs", "balxs j");
   ("dawwg_block_Ievt", "ievt j");
   ("dawwg_block_Ith", "ith j");
   ("dawwg_block_Nosigf", "nosigf j");
   ("dawwg_block_Ptconv", "ptconv j");
   ("dawwg_block_Xsectp", "xsectp j");
   ("dawwg_block_Fissrp", "fissrp j");
   ("dawwg_block_Sourcp", "sourcp j");
   ("dawwg_block_Angp", "angp j");
   ("dawwg_block_Balp", "balp j");
   ("dawwg_block_Raflux", "raflux j");
   ("dawwg_block_Rmflux", "rmflux j");
   ("dawwg_block_Avatar", "avatar j");
   ("dawwg_block_Massed", "massed j");
   ("dawwg_block_Pted", "pted j");
   ("dawwg_block_Zned", "zned j");
   ("dawwg_block_Rzflux", "rzflux j");
   ("dawwg_block_Rzmflux", "rzmflux j");
   ("dawwg_block_Edoutf", "edoutf j");
   ("dawwg_block_Byvolp", "byvolp j");
   ("dawwg_block_Ajed", "ajed j");
   ("dawwg_block_Fluxone", "fluxone j");
   ("dawwg_Block", "block 1 iquad j");
   ("Dawwg", "dawwg block 1 iquad j");
   ("Dbcn", "dbcn j");
   ("df_1_Iu", "iu r");
   ("df_1_Fac", "fac r");
   ("df_1_Ic", "ic r");
   ("Df_1", "df4 iu r");
   ("embed_Background", "background j");
   ("embed_matcell_Entry", "j j");
   ("embed_Matcell", "matcell j 1");
   ("embed_Length", "length j");
   ("Embed", "embed1 background j");
   ("embee_Embed", "embed j");
   ("embee_Energy", "energy j");
   ("embee_Time", "time j");
   ("embee_Mat", "mat j");
   ("Embee", "embee4:n mat j");
   ("F_4", "f4:n (1 2 3) 4 t");
   ("Fic", "fic5:n 0 0 0 0 0 0 0 j 1 0");
   ("files_File", "nan 1");
   ("Files", "files nan a");
   ("Fip", "fip5:n 0 0 0 0 0 0 0 j 1 0");
   ("Fir", "fir5:n 0 0 0 0 0 0 0 j 1 0");
   ("fmesh_Tr", "tr j");
   ("Fmesh", "fmesh4:n tr j");
   ("fmult_Method", "method j");
   ("fmult_Data", "data j");
   ("fmult_Shift", "shift j");
   ("Hsrc", "hsrc j 1 1 1 1 1 1 1 1");
   ("Kcode", "kcode j 1 30 130 4500");
   ("kopts_Blocksize", "blocksize j");
   ("Kopts", "kopts blocksize j");
   ("Lcc", "lcc 1 1 1 1 j");
   ("Lea", "lea r");
   ("Leb", "leb r");
   ("Lost", "lost j 1");
   ("Mgopt", "mgopt f j");
   ("mplot_Term", "term j");
   ("mplot_Title", "title j ""a""");
   ("mplot_Kcode", "kcode j");
   ("mplot_Xlims", "xlims j j");
   ("mplot_Ylims", "ylims j j");
   ("mplot_Scales", "scales j");
   ("Mplot", "mplot term j");
   ("Nps", "nps j");
   ("pert_Mat", "mat j");
   ("pert_Method", "method j");
   ("Pert", "pert1:n mat j");
   ("Phys_0", "phys:n 1 1 r");
   ("Phys_1", "phys:p 1 r");
   ("Phys_2", "phys:e 1 nan");
   ("Phys_3", "phys:h 1 1 r");
   ("Phys_4", "phys:a 1 r");
   ("ptrac_Buffer", "buffer j");
   ("ptrac_Meph", "meph j");
   ("Ptrac", "ptrac buffer j");
   ("rand_Gen", "gen j");
   ("rand_Seed", "seed j");
   ("Rand", "rand gen j");
   ("Sb_1", "sb j 1");
   ("sdef_Bem_0", "bem j j j");
   ("sdef_Ccc_0", "ccc j");
   ("sdef_Cel_0", "cel r");
   ("sdef_Dat_0", "dat j j j");
   ("sdef_Loc_0", "loc j j j");
   ("sdef_Sur_0", "sur r");
   ("Sdef", "sdef cel r");
   ("Sp_1", "sp j 1");
   ("ssr_Col", "col j");
   ("ssr_Psc", "psc j");
   ("ssr_Bcw", "bcw j j j");
   ("Ssr", "ssr col j");
   ("ssw_Sym", "sym j");
   ("Ssw", "ssw 1 sym j");
   ("uran_Stochastic", "j j j j");
   ("Uran", "uran j j j j");
   ("Wwg", "wwg j 1 1");
   ("Wwp", "wwp:n r");
   ("cell_Bflcl", "bflcl j");
   ("cell_Cosy", "cosy j");
   ("cell_Dxc", "dxc1:j j");
   ("cell_Fcl", "fcl:j j");
   ("cell_Fill_0", "fill nan:1 0:1 0:1 1");
   ("cell_Fill_1", "fill 1 (1 2 3 4 5 6 7 8 9 10 11=)");
   ("cell_Fill_2", "fill 1 (1 2 3 4 5 6 7 8=)");
   ("cell_Fill_3", "fill 1 (1 2 3 4 5 6 7=)");
   ("cell_Fill_4", "fill 1 (1 2 3 4 5=)");
   ("cell_Fill_5", "fill 1 (1 2=)");
   ("cell_Fill_6", "fill j");
   ("cell_Lat", "lat j");
   ("cell_Nonu", "nonu j");
   ("cell_Pd", "pd1 j");
   ("cell_Tmp", "tmp1 j");
   ("cell_Trcl_0", "trcl j");
   ("cell_Trcl_1", "trcl (1 2 3 4 5 6 7 8 9 10 11=)");
   ("cell_Trcl_2", "trcl (1 2 3 4 5 6 7 8=)");
   ("cell_Trcl_3", "trcl (1 2 3 4 5 6 7=)");
   ("cell_Trcl_4", "trcl (1 2 3 4 5=)");
   ("cell_Trcl_5", "trcl (1 2=)");
   ("cell_U", "u j");
   ("cell_Unc", "unc:j j");
   ("cell_Vol", "vol j");
   ("cell_Wwn", "wwn1:j j");
   ("like_Bflcl", "bflcl j");
   ("like_Cosy", "cosy j");
   ("like_Dxc", "dxc1:j j");
   ("like_Fcl", "fcl:j j");
   ("like_Fill_0", "fill nan:1 0:1 0:1 1");
   ("like_Fill_1", "fill 1 (1 2 3 4 5 6 7 8 9 10 11=)");
   ("like_Fill_2", "fill 1 (1 2 3 4 5 6 7 8=)");
   ("like_Fill_3", "fill 1 (1 2 3 4 5 6 7=)");
   ("like_Fill_4", "fill 1 (1 2 3 4 5=)");
   ("like_Fill_5", "fill 1 (1 2=)");
   ("like_Fill_6", "fill j");
   ("like_Lat", "lat j");
   ("like_Mat", "mat j");
   ("like_Nonu", "nonu j");
   ("like_Pd", "pd1 j");
   ("like_Tmp", "tmp1 j");
   ("like_Trcl_0", "trcl j");
   ("like_Trcl_1", "trcl (1 2 3 4 5 6 7 8 9 10 11=)");
   ("like_Trcl_2", "trcl (1 2 3 4 5 6 7 8=)");
   ("like_Trcl_3", "trcl (1 2 3 4 5 6 7=)");
   ("like_Trcl_4", "trcl (1 2 3 4 5=)");
   ("like_Trcl_5", "trcl (1 2=)");
   ("like_U", "u j");
   ("like_Unc", "unc:j j");
   ("like_Vol", "vol j");
   ("like_Wwn", "wwn1:j j");
   ("m_0_Estep", "estep j");
   ("m_0_Hstep", "hstep j")]%string.
(** A class with tests that are not modelled (numpy, surface/P_1.py:100-115). *)
Definition undecided : list string := ["surface_P_1"]%string.
(** Besides them, the classes that raise on texts without shorthands in their fields. *)
Definition raising_long : list string :=
  ["Act"; "dawwg_Block"; "Dawwg"; "Df_1"; "embed_Matcell"; "Embed"; "Embee"; "F_4"; "files_File"; "Files"; "Fmesh";
   "Kopts"; "Mplot"; "Pert"; "Phys_2"; "Ptrac"; "Rand"; "Sdef"; "Ssr"; "Ssw"; "Uran";
   "cell_Fill_0"; "cell_Fill_1"; "cell_Fill_2"; "cell_Fill_3"; "cell_Fill_4"; "cell_Fill_5"; "cell_Tmp";
   "cell_Trcl_1"; "cell_Trcl_2"; "cell_Trcl_3"; "cell_Trcl_4"; "cell_Trcl_5";
   "like_Fill_0"; "like_Fill_1"; "like_Fill_2"; "like_Fill_3"; "like_Fill_4"; "like_Fill_5"; "like_Tmp";
   "like_Trcl_1"; "like_Trcl_2"; "like_Trcl_3"; "like_Trcl_4"; "like_Trcl_5"; "surface_P_1"]%string.
(** A field of a card: a group of its pattern; a shorthand: [j], [2r], [3m], [ilog]... *)
Definition field (c : cls) (s : str) (i : nat) : option str :=
  match re_match (compile true (c_pat c)) (fst (card_preprocess s)) with Some o => group i o | None => None end.
Definition shorthand (t : str) : Prop := exists h, horiz_from_mcnp (strip t) = Some h.
