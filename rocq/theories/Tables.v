(** Generated by tools/gen_tables.py from /repo; do not edit.

    One record per INP card, option and entry class whose reader and constructor
    are the generic ones of _card.py, _option.py and _entry.py, and whose writer is
    generic or one of [Cards.own].
    Keyword, pattern, attributes and setter tests are those of the cited lines:
    every setter first converts its argument ([Cards.conv]), then raises InpError
    when one of [a_checks] holds, then stores.

    Not included, with the reason:
    - inp/Cell.py Cell: own to_mcnp
    - inp/Comment.py Comment: own to_mcnp
    - inp/Like.py Like: own to_mcnp
    - inp/M_0.py M_0: own __init__
    - inp/Surface.py Surface: own to_mcnp
*)

From Coq Require Import Ascii String NArith ZArith Bool Arith List.
From Verif Require Import PyStr Regex RegexParse PyNum Types Cards.
From Verif Require Lattice.
Import ListNotations.
Open Scope string_scope.
Open Scope list_scope.

(** /repo/src/pymcnp/inp/act/Fission.py:8-68 *)
Definition k_act_Fission : cls :=
  {| c_name := "act_Fission"; c_kind := KOption; c_kw := L "fission";
     c_pat := L "\Afission( " ++ slice 2 2 pat_string ++ L ")\Z";
     c_attrs := [{| a_name := "kind"; a_ty := One TStr;
          a_checks := [(BOr (BIsNone EX) (BNot (BIn (ELower EX) [(ES (L "none")); (ES (L "n,p,e,f,a")); (ES (L "all"))])))] |}] |}.

(** /repo/src/pymcnp/inp/act/Nonfiss.py:8-68 *)
Definition k_act_Nonfiss : cls :=
  {| c_name := "act_Nonfiss"; c_kind := KOption; c_kw := L "nonfiss";
     c_pat := L "\Anonfiss( " ++ slice 2 2 pat_string ++ L ")\Z";
     c_attrs := [{| a_name := "kind"; a_ty := One TStr;
          a_checks := [(BOr (BIsNone EX) (BNot (BIn (ELower EX) [(ES (L "none")); (ES (L "n,p,e,f,a")); (ES (L "all"))])))] |}] |}.

(** /repo/src/pymcnp/inp/act/Dn.py:8-68 *)
Definition k_act_Dn : cls :=
  {| c_name := "act_Dn"; c_kind := KOption; c_kw := L "dn";
     c_pat := L "\Adn( " ++ slice 2 2 pat_string ++ L ")\Z";
     c_attrs := [{| a_name := "source"; a_ty := One TStr;
          a_checks := [(BOr (BIsNone EX) (BNot (BIn (ELower EX) [(ES (L "model")); (ES (L "library")); (ES (L "both")); (ES (L "prompt"))])))] |}] |}.

(** /repo/src/pymcnp/inp/act/Dg.py:8-68 *)
Definition k_act_Dg : cls :=
  {| c_name := "act_Dg"; c_kind := KOption; c_kw := L "dg";
     c_pat := L "\Adg( " ++ slice 2 2 pat_string ++ L ")\Z";
     c_attrs := [{| a_name := "source"; a_ty := One TStr;
          a_checks := [(BOr (BIsNone EX) (BNot (BIn (ELower EX) [(ES (L "line")); (ES (L "mg")); (ES (L "none"))])))] |}] |}.

(** /repo/src/pymcnp/inp/act/Thresh.py:8-70 *)
Definition k_act_Thresh : cls :=
  {| c_name := "act_Thresh"; c_kind := KOption; c_kw := L "thresh";
     c_pat := L "\Athresh( " ++ slice 2 2 pat_number ++ L ")\Z";
     c_attrs := [{| a_name := "fraction"; a_ty := One TReal;
          a_checks := [(BOr (BIsNone EX) (BNot (BAnd (BCmp OGe EX (EZ 0)) (BCmp OLe EX (EZ 1)))))] |}] |}.

(** /repo/src/pymcnp/inp/act/Dnbais.py:8-70 *)
Definition k_act_Dnbais : cls :=
  {| c_name := "act_Dnbais"; c_kind := KOption; c_kw := L "dnbais";
     c_pat := L "\Adnbais( " ++ slice 2 2 pat_number ++ L ")\Z";
     c_attrs := [{| a_name := "count"; a_ty := One TInt;
          a_checks := [(BOr (BIsNone EX) (BNot (BAnd (BCmp OGe EX (EZ 0)) (BCmp OLe EX (EZ 10)))))] |}] |}.

(** /repo/src/pymcnp/inp/act/Nap.py:8-70 *)
Definition k_act_Nap : cls :=
  {| c_name := "act_Nap"; c_kind := KOption; c_kw := L "nap";
     c_pat := L "\Anap( " ++ slice 2 2 pat_number ++ L ")\Z";
     c_attrs := [{| a_name := "count"; a_ty := One TInt;
          a_checks := [(BOr (BIsNone EX) (BNot (BCmp OGe EX (EZ 0))))] |}] |}.

(** /repo/src/pymcnp/inp/act/dneb/Bias.py:8-111 *)
Definition k_act_dneb_Bias : cls :=
  {| c_name := "act_dneb_Bias"; c_kind := KEntry; c_kw := L "";
     c_pat := L "\A(" ++ slice 2 2 pat_number ++ L ") (" ++ slice 2 2 pat_number ++ L ")\Z";
     c_attrs := [{| a_name := "weight"; a_ty := One TReal;
          a_checks := [(BIsNone EX)] |};
       {| a_name := "energy"; a_ty := One TReal;
          a_checks := [(BIsNone EX)] |}] |}.

(** /repo/src/pymcnp/inp/act/Dneb.py:9-72 *)
Definition k_act_Dneb : cls :=
  {| c_name := "act_Dneb"; c_kind := KOption; c_kw := L "dneb";
     c_pat := L "\Adneb((?: " ++ slice 2 2 (c_pat k_act_dneb_Bias) ++ L ")+?)\Z";
     c_attrs := [{| a_name := "biases"; a_ty := Tup (TExt "act_dneb_Bias" (c_pat k_act_dneb_Bias));
          a_checks := [(BIsNone EX)] |}] |}.

(** /repo/src/pymcnp/inp/act/dgeb/Bias.py:8-111 *)
Definition k_act_dgeb_Bias : cls :=
  {| c_name := "act_dgeb_Bias"; c_kind := KEntry; c_kw := L "";
     c_pat := L "\A(" ++ slice 2 2 pat_number ++ L ") (" ++ slice 2 2 pat_number ++ L ")\Z";
     c_attrs := [{| a_name := "weight"; a_ty := One TReal;
          a_checks := [(BIsNone EX)] |};
       {| a_name := "energy"; a_ty := One TReal;
          a_checks := [(BIsNone EX)] |}] |}.

(** /repo/src/pymcnp/inp/act/Dgeb.py:9-72 *)
Definition k_act_Dgeb : cls :=
  {| c_name := "act_Dgeb"; c_kind := KOption; c_kw := L "dgeb";
     c_pat := L "\Adgeb((?: " ++ slice 2 2 (c_pat k_act_dgeb_Bias) ++ L ")+?)\Z";
     c_attrs := [{| a_name := "biases"; a_ty := Tup (TExt "act_dgeb_Bias" (c_pat k_act_dgeb_Bias));
          a_checks := [(BIsNone EX)] |}] |}.

(** /repo/src/pymcnp/inp/act/Pecut.py:8-70 *)
Definition k_act_Pecut : cls :=
  {| c_name := "act_Pecut"; c_kind := KOption; c_kw := L "pecut";
     c_pat := L "\Apecut( " ++ slice 2 2 pat_number ++ L ")\Z";
     c_attrs := [{| a_name := "cutoff"; a_ty := One TReal;
          a_checks := [(BIsNone EX)] |}] |}.

(** /repo/src/pymcnp/inp/act/Hlcut.py:8-70 *)
Definition k_act_Hlcut : cls :=
  {| c_name := "act_Hlcut"; c_kind := KOption; c_kw := L "hlcut";
     c_pat := L "\Ahlcut( " ++ slice 2 2 pat_number ++ L ")\Z";
     c_attrs := [{| a_name := "cutoff"; a_ty := One TReal;
          a_checks := [(BIsNone EX)] |}] |}.

(** /repo/src/pymcnp/inp/act/Sample.py:8-68 *)
Definition k_act_Sample : cls :=
  {| c_name := "act_Sample"; c_kind := KOption; c_kw := L "sample";
     c_pat := L "\Asample( " ++ slice 2 2 pat_string ++ L ")\Z";
     c_attrs := [{| a_name := "setting"; a_ty := One TStr;
          a_checks := [(BOr (BIsNone EX) (BNot (BIn (ELower EX) [(ES (L "correlate")); (ES (L "nonfiss_cor"))])))] |}] |}.

(** /repo/src/pymcnp/inp/act/_option.py:4-9: the subclasses in definition order, and the pattern
    that _symbol.py:40-44 makes of theirs, longest class name first. *)
Definition f_act_ActOption : list cls := [k_act_Fission; k_act_Nonfiss; k_act_Dn; k_act_Dg; k_act_Thresh; k_act_Dnbais; k_act_Nap; k_act_Dneb; k_act_Dgeb; k_act_Pecut; k_act_Hlcut; k_act_Sample].
Definition pat_act_ActOption : str := union_pat [c_pat k_act_Fission; c_pat k_act_Nonfiss; c_pat k_act_Thresh; c_pat k_act_Dnbais; c_pat k_act_Sample; c_pat k_act_Pecut; c_pat k_act_Hlcut; c_pat k_act_Dneb; c_pat k_act_Dgeb; c_pat k_act_Nap; c_pat k_act_Dn; c_pat k_act_Dg].

(** /repo/src/pymcnp/inp/Act.py:8-68 *)
Definition k_Act : cls :=
  {| c_name := "Act"; c_kind := KCard; c_kw := L "act";
     c_pat := L "\Aact((?: (?:" ++ slice 2 2 pat_act_ActOption ++ L "))+?)?\Z";
     c_attrs := [{| a_name := "options"; a_ty := Tup (TExt "act_ActOption" pat_act_ActOption);
          a_checks := [] |}] |}.

(** /repo/src/pymcnp/inp/Area.py:8-73 *)
Definition k_Area : cls :=
  {| c_name := "Area"; c_kind := KCard; c_kw := L "area";
     c_pat := L "\Aarea((?: " ++ slice 2 2 pat_number ++ L ")+?)\Z";
     c_attrs := [{| a_name := "areas"; a_ty := Tup TReal;
          a_checks := [(BIsNone EX)] |}] |}.

(** /repo/src/pymcnp/inp/Awtab.py:8-71 *)
Definition k_Awtab : cls :=
  {| c_name := "Awtab"; c_kind := KCard; c_kw := L "awtab";
     c_pat := L "\Aawtab((?: " ++ slice 2 2 pat_substance ++ L ")+?)\Z";
     c_attrs := [{| a_name := "weight_ratios"; a_ty := Tup TSub;
          a_checks := [(BIsNone EX)] |}] |}.

(** /repo/src/pymcnp/inp/Bbrem.py:8-2137 *)
Definition k_Bbrem : cls :=
  {| c_name := "Bbrem"; c_kind := KCard; c_kw := L "bbrem";
     c_pat := L "\Abbrem( " ++ slice 2 2 pat_number ++ L ")( " ++ slice 2 2 pat_number ++ L ")( " ++ slice 2 2 pat_number ++ L ")( " ++ slice 2 2 pat_number ++ L ")( " ++ slice 2 2 pat_number ++ L ")( " ++ slice 2 2 pat_number ++ L ")( " ++ slice 2 2 pat_number ++ L ")( " ++ slice 2 2 pat_number ++ L ")( " ++ slice 2 2 pat_number ++ L ")( " ++ slice 2 2 pat_number ++ L ")( " ++ slice 2 2 pat_number ++ L ")( " ++ slice 2 2 pat_number ++ L ")( " ++ slice 2 2 pat_number ++ L ")( " ++ slice 2 2 pat_number ++ L ")( " ++ slice 2 2 pat_number ++ L ")( " ++ slice 2 2 pat_number ++ L ")( " ++ slice 2 2 pat_number ++ L ")( " ++ slice 2 2 pat_number ++ L ")( " ++ slice 2 2 pat_number ++ L ")( " ++ slice 2 2 pat_number ++ L ")( " ++ slice 2 2 pat_number ++ L ")( " ++ slice 2 2 pat_number ++ L ")( " ++ slice 2 2 pat_number ++ L ")( " ++ slice 2 2 pat_number ++ L ")( " ++ slice 2 2 pat_number ++ L ")( " ++ slice 2 2 pat_number ++ L ")( " ++ slice 2 2 pat_number ++ L ")( " ++ slice 2 2 pat_number ++ L ")( " ++ slice 2 2 pat_number ++ L ")( " ++ slice 2 2 pat_number ++ L ")( " ++ slice 2 2 pat_number ++ L ")( " ++ slice 2 2 pat_number ++ L ")( " ++ slice 2 2 pat_number ++ L ")( " ++ slice 2 2 pat_number ++ L ")( " ++ slice 2 2 pat_number ++ L ")( " ++ slice 2 2 pat_number ++ L ")( " ++ slice 2 2 pat_number ++ L ")( " ++ slice 2 2 pat_number ++ L ")( " ++ slice 2 2 pat_number ++ L ")( " ++ slice 2 2 pat_number ++ L ")( " ++ slice 2 2 pat_number ++ L ")( " ++ slice 2 2 pat_number ++ L ")( " ++ slice 2 2 pat_number ++ L ")( " ++ slice 2 2 pat_number ++ L ")( " ++ slice 2 2 pat_number ++ L ")( " ++ slice 2 2 pat_number ++ L ")( " ++ slice 2 2 pat_number ++ L ")( " ++ slice 2 2 pat_number ++ L ")( " ++ slice 2 2 pat_number ++ L ")((?: " ++ slice 2 2 pat_number ++ L ")+?)\Z";
     c_attrs := [{| a_name := "bias_1"; a_ty := One TReal;
          a_checks := [(BIsNone EX)] |};
       {| a_name := "bias_2"; a_ty := One TReal;
          a_checks := [(BIsNone EX)] |};
       {| a_name := "bias_3"; a_ty := One TReal;
          a_checks := [(BIsNone EX)] |};
       {| a_name := "bias_4"; a_ty := One TReal;
          a_checks := [(BIsNone EX)] |};
       {| a_name := "bias_5"; a_ty := One TReal;
          a_checks := [(BIsNone EX)] |};
       {| a_name := "bias_6"; a_ty := One TReal;
          a_checks := [(BIsNone EX)] |};
       {| a_name := "bias_7"; a_ty := One TReal;
          a_checks := [(BIsNone EX)] |};
       {| a_name := "bias_8"; a_ty := One TReal;
          a_checks := [(BIsNone EX)] |};
       {| a_name := "bias_9"; a_ty := One TReal;
          a_checks := [(BIsNone EX)] |};
       {| a_name := "bias_10"; a_ty := One TReal;
          a_checks := [(BIsNone EX)] |};
       {| a_name := "bias_11"; a_ty := One TReal;
          a_checks := [(BIsNone EX)] |};
       {| a_name := "bias_12"; a_ty := One TReal;
          a_checks := [(BIsNone EX)] |};
       {| a_name := "bias_13"; a_ty := One TReal;
          a_checks := [(BIsNone EX)] |};
       {| a_name := "bias_14"; a_ty := One TReal;
          a_checks := [(BIsNone EX)] |};
       {| a_name := "bias_15"; a_ty := One TReal;
          a_checks := [(BIsNone EX)] |};
       {| a_name := "bias_16"; a_ty := One TReal;
          a_checks := [(BIsNone EX)] |};
       {| a_name := "bias_17"; a_ty := One TReal;
          a_checks := [(BIsNone EX)] |};
       {| a_name := "bias_18"; a_ty := One TReal;
          a_checks := [(BIsNone EX)] |};
       {| a_name := "bias_19"; a_ty := One TReal;
          a_checks := [(BIsNone EX)] |};
       {| a_name := "bias_20"; a_ty := One TReal;
          a_checks := [(BIsNone EX)] |};
       {| a_name := "bias_21"; a_ty := One TReal;
          a_checks := [(BIsNone EX)] |};
       {| a_name := "bias_22"; a_ty := One TReal;
          a_checks := [(BIsNone EX)] |};
       {| a_name := "bias_23"; a_ty := One TReal;
          a_checks := [(BIsNone EX)] |};
       {| a_name := "bias_24"; a_ty := One TReal;
          a_checks := [(BIsNone EX)] |};
       {| a_name := "bias_25"; a_ty := One TReal;
          a_checks := [(BIsNone EX)] |};
       {| a_name := "bias_26"; a_ty := One TReal;
          a_checks := [(BIsNone EX)] |};
       {| a_name := "bias_27"; a_ty := One TReal;
          a_checks := [(BIsNone EX)] |};
       {| a_name := "bias_28"; a_ty := One TReal;
          a_checks := [(BIsNone EX)] |};
       {| a_name := "bias_29"; a_ty := One TReal;
          a_checks := [(BIsNone EX)] |};
       {| a_name := "bias_30"; a_ty := One TReal;
          a_checks := [(BIsNone EX)] |};
       {| a_name := "bias_31"; a_ty := One TReal;
          a_checks := [(BIsNone EX)] |};
       {| a_name := "bias_32"; a_ty := One TReal;
          a_checks := [(BIsNone EX)] |};
       {| a_name := "bias_33"; a_ty := One TReal;
          a_checks := [(BIsNone EX)] |};
       {| a_name := "bias_34"; a_ty := One TReal;
          a_checks := [(BIsNone EX)] |};
       {| a_name := "bias_35"; a_ty := One TReal;
          a_checks := [(BIsNone EX)] |};
       {| a_name := "bias_36"; a_ty := One TReal;
          a_checks := [(BIsNone EX)] |};
       {| a_name := "bias_37"; a_ty := One TReal;
          a_checks := [(BIsNone EX)] |};
       {| a_name := "bias_38"; a_ty := One TReal;
          a_checks := [(BIsNone EX)] |};
       {| a_name := "bias_39"; a_ty := One TReal;
          a_checks := [(BIsNone EX)] |};
       {| a_name := "bias_40"; a_ty := One TReal;
          a_checks := [(BIsNone EX)] |};
       {| a_name := "bias_41"; a_ty := One TReal;
          a_checks := [(BIsNone EX)] |};
       {| a_name := "bias_42"; a_ty := One TReal;
          a_checks := [(BIsNone EX)] |};
       {| a_name := "bias_43"; a_ty := One TReal;
          a_checks := [(BIsNone EX)] |};
       {| a_name := "bias_44"; a_ty := One TReal;
          a_checks := [(BIsNone EX)] |};
       {| a_name := "bias_45"; a_ty := One TReal;
          a_checks := [(BIsNone EX)] |};
       {| a_name := "bias_46"; a_ty := One TReal;
          a_checks := [(BIsNone EX)] |};
       {| a_name := "bias_47"; a_ty := One TReal;
          a_checks := [(BIsNone EX)] |};
       {| a_name := "bias_48"; a_ty := One TReal;
          a_checks := [(BIsNone EX)] |};
       {| a_name := "bias_49"; a_ty := One TReal;
          a_checks := [(BIsNone EX)] |};
       {| a_name := "materials"; a_ty := Tup TInt;
          a_checks := [(BIsNone EX)] |}] |}.

(** /repo/src/pymcnp/inp/Bflcl.py:8-73 *)
Definition k_Bflcl : cls :=
  {| c_name := "Bflcl"; c_kind := KCard; c_kw := L "bflcl";
     c_pat := L "\Abflcl((?: " ++ slice 2 2 pat_number ++ L ")+?)\Z";
     c_attrs := [{| a_name := "numbers"; a_ty := Tup TInt;
          a_checks := [(BIsNone EX)] |}] |}.

(** /repo/src/pymcnp/inp/bfld/Field.py:8-70 *)
Definition k_bfld_Field : cls :=
  {| c_name := "bfld_Field"; c_kind := KOption; c_kw := L "field";
     c_pat := L "\Afield( " ++ slice 2 2 pat_number ++ L ")\Z";
     c_attrs := [{| a_name := "strength_gradient"; a_ty := One TReal;
          a_checks := [(BIsNone EX)] |}] |}.

(** /repo/src/pymcnp/inp/bfld/Vec.py:8-73 *)
Definition k_bfld_Vec : cls :=
  {| c_name := "bfld_Vec"; c_kind := KOption; c_kw := L "vec";
     c_pat := L "\Avec((?: " ++ slice 2 2 pat_number ++ L ")+?)\Z";
     c_attrs := [{| a_name := "vector"; a_ty := Tup TReal;
          a_checks := [(BIsNone EX)] |}] |}.

(** /repo/src/pymcnp/inp/bfld/Maxdeflc.py:8-70 *)
Definition k_bfld_Maxdeflc : cls :=
  {| c_name := "bfld_Maxdeflc"; c_kind := KOption; c_kw := L "maxdeflc";
     c_pat := L "\Amaxdeflc( " ++ slice 2 2 pat_number ++ L ")\Z";
     c_attrs := [{| a_name := "angle"; a_ty := One TReal;
          a_checks := [(BIsNone EX)] |}] |}.

(** /repo/src/pymcnp/inp/bfld/Maxstep.py:8-70 *)
Definition k_bfld_Maxstep : cls :=
  {| c_name := "bfld_Maxstep"; c_kind := KOption; c_kw := L "maxstep";
     c_pat := L "\Amaxstep( " ++ slice 2 2 pat_number ++ L ")\Z";
     c_attrs := [{| a_name := "size"; a_ty := One TReal;
          a_checks := [(BIsNone EX)] |}] |}.

(** /repo/src/pymcnp/inp/bfld/Axs.py:8-73 *)
Definition k_bfld_Axs : cls :=
  {| c_name := "bfld_Axs"; c_kind := KOption; c_kw := L "axs";
     c_pat := L "\Aaxs((?: " ++ slice 2 2 pat_number ++ L ")+?)\Z";
     c_attrs := [{| a_name := "vector"; a_ty := Tup TReal;
          a_checks := [(BIsNone EX)] |}] |}.

(** /repo/src/pymcnp/inp/bfld/Ffedges.py:8-73 *)
Definition k_bfld_Ffedges : cls :=
  {| c_name := "bfld_Ffedges"; c_kind := KOption; c_kw := L "ffedges";
     c_pat := L "\Affedges((?: " ++ slice 2 2 pat_number ++ L ")+?)\Z";
     c_attrs := [{| a_name := "numbers"; a_ty := Tup TReal;
          a_checks := [(BIsNone EX)] |}] |}.

(** /repo/src/pymcnp/inp/bfld/Refpnt.py:8-73 *)
Definition k_bfld_Refpnt : cls :=
  {| c_name := "bfld_Refpnt"; c_kind := KOption; c_kw := L "refpnt";
     c_pat := L "\Arefpnt((?: " ++ slice 2 2 pat_number ++ L ")+?)\Z";
     c_attrs := [{| a_name := "point"; a_ty := Tup TReal;
          a_checks := [(BIsNone EX)] |}] |}.

(** /repo/src/pymcnp/inp/bfld/_option.py:4-9: the subclasses in definition order, and the pattern
    that _symbol.py:40-44 makes of theirs, longest class name first. *)
Definition f_bfld_BfldOption : list cls := [k_bfld_Field; k_bfld_Vec; k_bfld_Maxdeflc; k_bfld_Maxstep; k_bfld_Axs; k_bfld_Ffedges; k_bfld_Refpnt].
Definition pat_bfld_BfldOption : str := union_pat [c_pat k_bfld_Maxdeflc; c_pat k_bfld_Maxstep; c_pat k_bfld_Ffedges; c_pat k_bfld_Refpnt; c_pat k_bfld_Field; c_pat k_bfld_Vec; c_pat k_bfld_Axs].

(** /repo/src/pymcnp/inp/Bfld.py:9-149 *)
Definition k_Bfld : cls :=
  {| c_name := "Bfld"; c_kind := KCard; c_kw := L "bfld";
     c_pat := L "\Abfld(\d+)( " ++ slice 2 2 pat_string ++ L ")((?: (?:" ++ slice 2 2 pat_bfld_BfldOption ++ L "))+?)?\Z";
     c_attrs := [{| a_name := "suffix"; a_ty := One TInt;
          a_checks := [(BIsNone EX)] |};
       {| a_name := "kind"; a_ty := One TStr;
          a_checks := [(BOr (BIsNone EX) (BNot (BIn (ELower EX) [(ES (L "const")); (ES (L "quad")); (ES (L "quadff"))])))] |};
       {| a_name := "options"; a_ty := Tup (TExt "bfld_BfldOption" pat_bfld_BfldOption);
          a_checks := [] |}] |}.

(** /repo/src/pymcnp/inp/C.py:8-227 *)
Definition k_C : cls :=
  {| c_name := "C"; c_kind := KCard; c_kw := L "c";
     c_pat := L "\A([*]?)c(\d+)((?: " ++ slice 2 2 pat_number ++ L ")+?)( " ++ slice 2 2 pat_string ++ L ")?( " ++ slice 2 2 pat_string ++ L ")?\Z";
     c_attrs := [{| a_name := "prefix"; a_ty := One TStr;
          a_checks := [(BAnd (BNot (BIsNone EX)) (BNot (BIn (ELower EX) [(ES (L "*")); (ES (L "+"))])))] |};
       {| a_name := "suffix"; a_ty := One TInt;
          a_checks := [(BIsNone EX)] |};
       {| a_name := "bounds"; a_ty := Tup TReal;
          a_checks := [(BIsNone EX)] |};
       {| a_name := "t"; a_ty := One TStr;
          a_checks := [] |};
       {| a_name := "c"; a_ty := One TStr;
          a_checks := [] |}] |}.

(** /repo/src/pymcnp/inp/Cf.py:8-114 *)
Definition k_Cf : cls :=
  {| c_name := "Cf"; c_kind := KCard; c_kw := L "cf";
     c_pat := L "\Acf(\d+)((?: " ++ slice 2 2 pat_number ++ L ")+?)\Z";
     c_attrs := [{| a_name := "suffix"; a_ty := One TInt;
          a_checks := [(BOr (BIsNone EX) (BNot (BCmp OLe EX (EZ 99999999))))] |};
       {| a_name := "numbers"; a_ty := Tup TInt;
          a_checks := [(BIsNone EX)] |}] |}.

(** /repo/src/pymcnp/inp/Cm.py:8-114 *)
Definition k_Cm : cls :=
  {| c_name := "Cm"; c_kind := KCard; c_kw := L "cm";
     c_pat := L "\Acm(\d+)((?: " ++ slice 2 2 pat_number ++ L ")+?)\Z";
     c_attrs := [{| a_name := "suffix"; a_ty := One TInt;
          a_checks := [(BOr (BIsNone EX) (BNot (BCmp OLe EX (EZ 99999999))))] |};
       {| a_name := "multipliers"; a_ty := Tup TReal;
          a_checks := [(BIsNone EX)] |}] |}.

(** /repo/src/pymcnp/inp/Cosy.py:8-73 *)
Definition k_Cosy : cls :=
  {| c_name := "Cosy"; c_kind := KCard; c_kw := L "cosy";
     c_pat := L "\Acosy((?: " ++ slice 2 2 pat_number ++ L ")+?)\Z";
     c_attrs := [{| a_name := "numbers"; a_ty := Tup TInt;
          a_checks := [(BIsNone EX)] |}] |}.

(** /repo/src/pymcnp/inp/Cosyp.py:8-198 *)
Definition k_Cosyp : cls :=
  {| c_name := "Cosyp"; c_kind := KCard; c_kw := L "cosyp";
     c_pat := L "\Acosyp( " ++ slice 2 2 pat_number ++ L ")( " ++ slice 2 2 pat_number ++ L ")( " ++ slice 2 2 pat_number ++ L ")((?: " ++ slice 2 2 pat_number ++ L ")+?)\Z";
     c_attrs := [{| a_name := "pre"; a_ty := One TInt;
          a_checks := [(BIsNone EX)] |};
       {| a_name := "axsh"; a_ty := One TInt;
          a_checks := [(BOr (BIsNone EX) (BNot (BIn EX [(EZ 1); (EZ 2); (EZ 3)])))] |};
       {| a_name := "axsv"; a_ty := One TInt;
          a_checks := [(BOr (BIsNone EX) (BNot (BIn EX [(EZ 1); (EZ 2); (EZ 3)])))] |};
       {| a_name := "emaps"; a_ty := Tup TReal;
          a_checks := [(BIsNone EX)] |}] |}.

(** /repo/src/pymcnp/inp/Ctme.py:8-70 *)
Definition k_Ctme : cls :=
  {| c_name := "Ctme"; c_kind := KCard; c_kw := L "ctme";
     c_pat := L "\Actme( " ++ slice 2 2 pat_number ++ L ")\Z";
     c_attrs := [{| a_name := "tme"; a_ty := One TInt;
          a_checks := [(BOr (BIsNone EX) (BNot (BCmp OGe EX (EZ 0))))] |}] |}.

(** /repo/src/pymcnp/inp/Cut.py:8-269 *)
Definition k_Cut : cls :=
  {| c_name := "Cut"; c_kind := KCard; c_kw := L "cut";
     c_pat := L "\Acut:(\S+)( " ++ slice 2 2 pat_number ++ L ")?( " ++ slice 2 2 pat_number ++ L ")?( " ++ slice 2 2 pat_number ++ L ")?( " ++ slice 2 2 pat_number ++ L ")?( " ++ slice 2 2 pat_number ++ L ")?\Z";
     c_attrs := [{| a_name := "designator"; a_ty := One TDesig;
          a_checks := [(BIsNone EX)] |};
       {| a_name := "time_cutoff"; a_ty := One TReal;
          a_checks := [] |};
       {| a_name := "energy_cutoff"; a_ty := One TReal;
          a_checks := [] |};
       {| a_name := "weight_cutoff1"; a_ty := One TReal;
          a_checks := [] |};
       {| a_name := "weight_cutoff2"; a_ty := One TReal;
          a_checks := [] |};
       {| a_name := "source_weight"; a_ty := One TReal;
          a_checks := [] |}] |}.

(** /repo/src/pymcnp/inp/dawwg/Points.py:8-70 *)
Definition k_dawwg_Points : cls :=
  {| c_name := "dawwg_Points"; c_kind := KOption; c_kw := L "points";
     c_pat := L "\Apoints( " ++ slice 2 2 pat_number ++ L ")\Z";
     c_attrs := [{| a_name := "count"; a_ty := One TInt;
          a_checks := [(BIsNone EX)] |}] |}.

(** /repo/src/pymcnp/inp/dawwg/Xsec.py:8-68 *)
Definition k_dawwg_Xsec : cls :=
  {| c_name := "dawwg_Xsec"; c_kind := KOption; c_kw := L "xsec";
     c_pat := L "\Axsec( " ++ slice 2 2 pat_string ++ L ")\Z";
     c_attrs := [{| a_name := "name"; a_ty := One TStr;
          a_checks := [(BIsNone EX)] |}] |}.

(** /repo/src/pymcnp/inp/dawwg/block/Ngroup.py:8-70 *)
Definition k_dawwg_block_Ngroup : cls :=
  {| c_name := "dawwg_block_Ngroup"; c_kind := KOption; c_kw := L "ngroup";
     c_pat := L "\Angroup( " ++ slice 2 2 pat_number ++ L ")\Z";
     c_attrs := [{| a_name := "value"; a_ty := One TInt;
          a_checks := [(BIsNone EX)] |}] |}.

(** /repo/src/pymcnp/inp/dawwg/block/Isn.py:8-70 *)
Definition k_dawwg_block_Isn : cls :=
  {| c_name := "dawwg_block_Isn"; c_kind := KOption; c_kw := L "isn";
     c_pat := L "\Aisn( " ++ slice 2 2 pat_number ++ L ")\Z";
     c_attrs := [{| a_name := "setting"; a_ty := One TInt;
          a_checks := [(BIsNone EX)] |}] |}.

(** /repo/src/pymcnp/inp/dawwg/block/Niso.py:8-70 *)
Definition k_dawwg_block_Niso : cls :=
  {| c_name := "dawwg_block_Niso"; c_kind := KOption; c_kw := L "niso";
     c_pat := L "\Aniso( " ++ slice 2 2 pat_number ++ L ")\Z";
     c_attrs := [{| a_name := "setting"; a_ty := One TInt;
          a_checks := [(BIsNone EX)] |}] |}.

(** /repo/src/pymcnp/inp/dawwg/block/Mt.py:8-70 *)
Definition k_dawwg_block_Mt : cls :=
  {| c_name := "dawwg_block_Mt"; c_kind := KOption; c_kw := L "mt";
     c_pat := L "\Amt( " ++ slice 2 2 pat_number ++ L ")\Z";
     c_attrs := [{| a_name := "setting"; a_ty := One TInt;
          a_checks := [(BIsNone EX)] |}] |}.

(** /repo/src/pymcnp/inp/dawwg/block/Iquad.py:8-70 *)
Definition k_dawwg_block_Iquad : cls :=
  {| c_name := "dawwg_block_Iquad"; c_kind := KOption; c_kw := L "iquad";
     c_pat := L "\Aiquad( " ++ slice 2 2 pat_number ++ L ")\Z";
     c_attrs := [{| a_name := "setting"; a_ty := One TInt;
          a_checks := [(BOr (BIsNone EX) (BNot (BIn EX [(EZ 1); (EZ 2); (EZ 3); (EZ 4); (EZ 5); (EZ 6); (EZ 7); (EZ 8); (EZ 9)])))] |}] |}.

(** /repo/src/pymcnp/inp/dawwg/block/Fmmix.py:8-70 *)
Definition k_dawwg_block_Fmmix : cls :=
  {| c_name := "dawwg_block_Fmmix"; c_kind := KOption; c_kw := L "fmmix";
     c_pat := L "\Afmmix( " ++ slice 2 2 pat_number ++ L ")\Z";
     c_attrs := [{| a_name := "setting"; a_ty := One TInt;
          a_checks := [(BOr (BIsNone EX) (BNot (BIn EX [(EZ 0); (EZ 1)])))] |}] |}.

(** /repo/src/pymcnp/inp/dawwg/block/Nosolv.py:8-70 *)
Definition k_dawwg_block_Nosolv : cls :=
  {| c_name := "dawwg_block_Nosolv"; c_kind := KOption; c_kw := L "nosolv";
     c_pat := L "\Anosolv( " ++ slice 2 2 pat_number ++ L ")\Z";
     c_attrs := [{| a_name := "setting"; a_ty := One TInt;
          a_checks := [(BOr (BIsNone EX) (BNot (BIn EX [(EZ 0); (EZ 1)])))] |}] |}.

(** /repo/src/pymcnp/inp/dawwg/block/Noedit.py:8-70 *)
Definition k_dawwg_block_Noedit : cls :=
  {| c_name := "dawwg_block_Noedit"; c_kind := KOption; c_kw := L "noedit";
     c_pat := L "\Anoedit( " ++ slice 2 2 pat_number ++ L ")\Z";
     c_attrs := [{| a_name := "setting"; a_ty := One TInt;
          a_checks := [(BOr (BIsNone EX) (BNot (BIn EX [(EZ 0); (EZ 1)])))] |}] |}.

(** /repo/src/pymcnp/inp/dawwg/block/Nogeod.py:8-70 *)
Definition k_dawwg_block_Nogeod : cls :=
  {| c_name := "dawwg_block_Nogeod"; c_kind := KOption; c_kw := L "nogeod";
     c_pat := L "\Anogeod( " ++ slice 2 2 pat_number ++ L ")\Z";
     c_attrs := [{| a_name := "setting"; a_ty := One TInt;
          a_checks := [(BOr (BIsNone EX) (BNot (BIn EX [(EZ 0); (EZ 1)])))] |}] |}.

(** /repo/src/pymcnp/inp/dawwg/block/Nomix.py:8-70 *)
Definition k_dawwg_block_Nomix : cls :=
  {| c_name := "dawwg_block_Nomix"; c_kind := KOption; c_kw := L "nomix";
     c_pat := L "\Anomix( " ++ slice 2 2 pat_number ++ L ")\Z";
     c_attrs := [{| a_name := "setting"; a_ty := One TInt;
          a_checks := [(BOr (BIsNone EX) (BNot (BIn EX [(EZ 0); (EZ 1)])))] |}] |}.

(** /repo/src/pymcnp/inp/dawwg/block/Noasg.py:8-70 *)
Definition k_dawwg_block_Noasg : cls :=
  {| c_name := "dawwg_block_Noasg"; c_kind := KOption; c_kw := L "noasg";
     c_pat := L "\Anoasg( " ++ slice 2 2 pat_number ++ L ")\Z";
     c_attrs := [{| a_name := "setting"; a_ty := One TInt;
          a_checks := [(BOr (BIsNone EX) (BNot (BIn EX [(EZ 0); (EZ 1)])))] |}] |}.

(** /repo/src/pymcnp/inp/dawwg/block/Nomacr.py:8-70 *)
Definition k_dawwg_block_Nomacr : cls :=
  {| c_name := "dawwg_block_Nomacr"; c_kind := KOption; c_kw := L "nomacr";
     c_pat := L "\Anomacr( " ++ slice 2 2 pat_number ++ L ")\Z";
     c_attrs := [{| a_name := "setting"; a_ty := One TInt;
          a_checks := [(BOr (BIsNone EX) (BNot (BIn EX [(EZ 0); (EZ 1)])))] |}] |}.

(** /repo/src/pymcnp/inp/dawwg/block/Noslnp.py:8-70 *)
Definition k_dawwg_block_Noslnp : cls :=
  {| c_name := "dawwg_block_Noslnp"; c_kind := KOption; c_kw := L "noslnp";
     c_pat := L "\Anoslnp( " ++ slice 2 2 pat_number ++ L ")\Z";
     c_attrs := [{| a_name := "setting"; a_ty := One TInt;
          a_checks := [(BOr (BIsNone EX) (BNot (BIn EX [(EZ 0); (EZ 1)])))] |}] |}.

(** /repo/src/pymcnp/inp/dawwg/block/Noedtt.py:8-70 *)
Definition k_dawwg_block_Noedtt : cls :=
  {| c_name := "dawwg_block_Noedtt"; c_kind := KOption; c_kw := L "noedtt";
     c_pat := L "\Anoedtt( " ++ slice 2 2 pat_number ++ L ")\Z";
     c_attrs := [{| a_name := "setting"; a_ty := One TInt;
          a_checks := [(BOr (BIsNone EX) (BNot (BIn EX [(EZ 0); (EZ 1)])))] |}] |}.

(** /repo/src/pymcnp/inp/dawwg/block/Noadjm.py:8-70 *)
Definition k_dawwg_block_Noadjm : cls :=
  {| c_name := "dawwg_block_Noadjm"; c_kind := KOption; c_kw := L "noadjm";
     c_pat := L "\Anoadjm( " ++ slice 2 2 pat_number ++ L ")\Z";
     c_attrs := [{| a_name := "setting"; a_ty := One TInt;
          a_checks := [(BOr (BIsNone EX) (BNot (BIn EX [(EZ 0); (EZ 1)])))] |}] |}.

(** /repo/src/pymcnp/inp/dawwg/block/Lib.py:8-68 *)
Definition k_dawwg_block_Lib : cls :=
  {| c_name := "dawwg_block_Lib"; c_kind := KOption; c_kw := L "lib";
     c_pat := L "\Alib( " ++ slice 2 2 pat_string ++ L ")\Z";
     c_attrs := [{| a_name := "setting"; a_ty := One TStr;
          a_checks := [(BIsNone EX)] |}] |}.

(** /repo/src/pymcnp/inp/dawwg/block/Libname.py:8-68 *)
Definition k_dawwg_block_Libname : cls :=
  {| c_name := "dawwg_block_Libname"; c_kind := KOption; c_kw := L "libname";
     c_pat := L "\Alibname( " ++ slice 2 2 pat_string ++ L ")\Z";
     c_attrs := [{| a_name := "setting"; a_ty := One TStr;
          a_checks := [(BIsNone EX)] |}] |}.

(** /repo/src/pymcnp/inp/dawwg/block/Fissneut.py:8-70 *)
Definition k_dawwg_block_Fissneut : cls :=
  {| c_name := "dawwg_block_Fissneut"; c_kind := KOption; c_kw := L "fissneut";
     c_pat := L "\Afissneut( " ++ slice 2 2 pat_number ++ L ")\Z";
     c_attrs := [{| a_name := "setting"; a_ty := One TInt;
          a_checks := [(BIsNone EX)] |}] |}.

(** /repo/src/pymcnp/inp/dawwg/block/Lng.py:8-70 *)
Definition k_dawwg_block_Lng : cls :=
  {| c_name := "dawwg_block_Lng"; c_kind := KOption; c_kw := L "lng";
     c_pat := L "\Alng( " ++ slice 2 2 pat_number ++ L ")\Z";
     c_attrs := [{| a_name := "setting"; a_ty := One TInt;
          a_checks := [(BIsNone EX)] |}] |}.

(** /repo/src/pymcnp/inp/dawwg/block/Balxs.py:8-70 *)
Definition k_dawwg_block_Balxs : cls :=
  {| c_name := "dawwg_block_Balxs"; c_kind := KOption; c_kw := L "balxs";
     c_pat := L "\Abalxs( " ++ slice 2 2 pat_number ++ L ")\Z";
     c_attrs := [{| a_name := "setting"; a_ty := One TInt;
          a_checks := [(BOr (BIsNone EX) (BNot (BIn EX [(EZ (-1)); (EZ 0); (EZ 1)])))] |}] |}.

(** /repo/src/pymcnp/inp/dawwg/block/Ntichi.py:8-70 *)
Definition k_dawwg_block_Ntichi : cls :=
  {| c_name := "dawwg_block_Ntichi"; c_kind := KOption; c_kw := L "ntichi";
     c_pat := L "\Antichi( " ++ slice 2 2 pat_number ++ L ")\Z";
     c_attrs := [{| a_name := "setting"; a_ty := One TInt;
          a_checks := [(BIsNone EX)] |}] |}.

(** /repo/src/pymcnp/inp/dawwg/block/Ievt.py:8-70 *)
Definition k_dawwg_block_Ievt : cls :=
  {| c_name := "dawwg_block_Ievt"; c_kind := KOption; c_kw := L "ievt";
     c_pat := L "\Aievt( " ++ slice 2 2 pat_number ++ L ")\Z";
     c_attrs := [{| a_name := "setting"; a_ty := One TInt;
          a_checks := [(BOr (BIsNone EX) (BNot (BIn EX [(EZ 0); (EZ 1); (EZ 2); (EZ 3); (EZ 4)])))] |}] |}.

(** /repo/src/pymcnp/inp/dawwg/block/Isct.py:8-70 *)
Definition k_dawwg_block_Isct : cls :=
  {| c_name := "dawwg_block_Isct"; c_kind := KOption; c_kw := L "isct";
     c_pat := L "\Aisct( " ++ slice 2 2 pat_number ++ L ")\Z";
     c_attrs := [{| a_name := "setting"; a_ty := One TInt;
          a_checks := [(BIsNone EX)] |}] |}.

(** /repo/src/pymcnp/inp/dawwg/block/Ith.py:8-70 *)
Definition k_dawwg_block_Ith : cls :=
  {| c_name := "dawwg_block_Ith"; c_kind := KOption; c_kw := L "ith";
     c_pat := L "\Aith( " ++ slice 2 2 pat_number ++ L ")\Z";
     c_attrs := [{| a_name := "setting"; a_ty := One TInt;
          a_checks := [(BOr (BIsNone EX) (BNot (BIn EX [(EZ 0); (EZ 1)])))] |}] |}.

(** /repo/src/pymcnp/inp/dawwg/block/Trcor.py:8-68 *)
Definition k_dawwg_block_Trcor : cls :=
  {| c_name := "dawwg_block_Trcor"; c_kind := KOption; c_kw := L "trcor";
     c_pat := L "\Atrcor( " ++ slice 2 2 pat_string ++ L ")\Z";
     c_attrs := [{| a_name := "setting"; a_ty := One TStr;
          a_checks := [(BOr (BIsNone EX) (BNot (BIn (ELower EX) [(ES (L "diag"))])))] |}] |}.

(** /repo/src/pymcnp/inp/dawwg/block/Ibl.py:8-70 *)
Definition k_dawwg_block_Ibl : cls :=
  {| c_name := "dawwg_block_Ibl"; c_kind := KOption; c_kw := L "ibl";
     c_pat := L "\Aibl( " ++ slice 2 2 pat_number ++ L ")\Z";
     c_attrs := [{| a_name := "setting"; a_ty := One TInt;
          a_checks := [(BIsNone EX)] |}] |}.

(** /repo/src/pymcnp/inp/dawwg/block/Ibr.py:8-70 *)
Definition k_dawwg_block_Ibr : cls :=
  {| c_name := "dawwg_block_Ibr"; c_kind := KOption; c_kw := L "ibr";
     c_pat := L "\Aibr( " ++ slice 2 2 pat_number ++ L ")\Z";
     c_attrs := [{| a_name := "setting"; a_ty := One TInt;
          a_checks := [(BIsNone EX)] |}] |}.

(** /repo/src/pymcnp/inp/dawwg/block/Ibt.py:8-70 *)
Definition k_dawwg_block_Ibt : cls :=
  {| c_name := "dawwg_block_Ibt"; c_kind := KOption; c_kw := L "ibt";
     c_pat := L "\Aibt( " ++ slice 2 2 pat_number ++ L ")\Z";
     c_attrs := [{| a_name := "setting"; a_ty := One TInt;
          a_checks := [(BIsNone EX)] |}] |}.

(** /repo/src/pymcnp/inp/dawwg/block/Ibb.py:8-70 *)
Definition k_dawwg_block_Ibb : cls :=
  {| c_name := "dawwg_block_Ibb"; c_kind := KOption; c_kw := L "ibb";
     c_pat := L "\Aibb( " ++ slice 2 2 pat_number ++ L ")\Z";
     c_attrs := [{| a_name := "setting"; a_ty := One TInt;
          a_checks := [(BIsNone EX)] |}] |}.

(** /repo/src/pymcnp/inp/dawwg/block/Ibfrnt.py:8-70 *)
Definition k_dawwg_block_Ibfrnt : cls :=
  {| c_name := "dawwg_block_Ibfrnt"; c_kind := KOption; c_kw := L "ibfrnt";
     c_pat := L "\Aibfrnt( " ++ slice 2 2 pat_number ++ L ")\Z";
     c_attrs := [{| a_name := "setting"; a_ty := One TInt;
          a_checks := [(BIsNone EX)] |}] |}.

(** /repo/src/pymcnp/inp/dawwg/block/Ibback.py:8-70 *)
Definition k_dawwg_block_Ibback : cls :=
  {| c_name := "dawwg_block_Ibback"; c_kind := KOption; c_kw := L "ibback";
     c_pat := L "\Aibback( " ++ slice 2 2 pat_number ++ L ")\Z";
     c_attrs := [{| a_name := "setting"; a_ty := One TInt;
          a_checks := [(BIsNone EX)] |}] |}.

(** /repo/src/pymcnp/inp/dawwg/block/Epsi.py:8-70 *)
Definition k_dawwg_block_Epsi : cls :=
  {| c_name := "dawwg_block_Epsi"; c_kind := KOption; c_kw := L "epsi";
     c_pat := L "\Aepsi( " ++ slice 2 2 pat_number ++ L ")\Z";
     c_attrs := [{| a_name := "setting"; a_ty := One TReal;
          a_checks := [(BIsNone EX)] |}] |}.

(** /repo/src/pymcnp/inp/dawwg/block/Oitm.py:8-70 *)
Definition k_dawwg_block_Oitm : cls :=
  {| c_name := "dawwg_block_Oitm"; c_kind := KOption; c_kw := L "oitm";
     c_pat := L "\Aoitm( " ++ slice 2 2 pat_number ++ L ")\Z";
     c_attrs := [{| a_name := "setting"; a_ty := One TInt;
          a_checks := [(BIsNone EX)] |}] |}.

(** /repo/src/pymcnp/inp/dawwg/block/Nosigf.py:8-70 *)
Definition k_dawwg_block_Nosigf : cls :=
  {| c_name := "dawwg_block_Nosigf"; c_kind := KOption; c_kw := L "nosigf";
     c_pat := L "\Anosigf( " ++ slice 2 2 pat_number ++ L ")\Z";
     c_attrs := [{| a_name := "setting"; a_ty := One TInt;
          a_checks := [(BOr (BIsNone EX) (BNot (BIn EX [(EZ 0); (EZ 1)])))] |}] |}.

(** /repo/src/pymcnp/inp/dawwg/block/Srcacc.py:8-68 *)
Definition k_dawwg_block_Srcacc : cls :=
  {| c_name := "dawwg_block_Srcacc"; c_kind := KOption; c_kw := L "srcacc";
     c_pat := L "\Asrcacc( " ++ slice 2 2 pat_string ++ L ")\Z";
     c_attrs := [{| a_name := "setting"; a_ty := One TStr;
          a_checks := [(BOr (BIsNone EX) (BNot (BIn (ELower EX) [(ES (L "dsa")); (ES (L "tsa")); (ES (L "no"))])))] |}] |}.

(** /repo/src/pymcnp/inp/dawwg/block/Diffsol.py:8-68 *)
Definition k_dawwg_block_Diffsol : cls :=
  {| c_name := "dawwg_block_Diffsol"; c_kind := KOption; c_kw := L "diffsol";
     c_pat := L "\Adiffsol( " ++ slice 2 2 pat_string ++ L ")\Z";
     c_attrs := [{| a_name := "setting"; a_ty := One TStr;
          a_checks := [(BIsNone EX)] |}] |}.

(** /repo/src/pymcnp/inp/dawwg/block/Tsasn.py:8-70 *)
Definition k_dawwg_block_Tsasn : cls :=
  {| c_name := "dawwg_block_Tsasn"; c_kind := KOption; c_kw := L "tsasn";
     c_pat := L "\Atsasn( " ++ slice 2 2 pat_number ++ L ")\Z";
     c_attrs := [{| a_name := "setting"; a_ty := One TInt;
          a_checks := [(BIsNone EX)] |}] |}.

(** /repo/src/pymcnp/inp/dawwg/block/Tsaepsi.py:8-70 *)
Definition k_dawwg_block_Tsaepsi : cls :=
  {| c_name := "dawwg_block_Tsaepsi"; c_kind := KOption; c_kw := L "tsaepsi";
     c_pat := L "\Atsaepsi( " ++ slice 2 2 pat_number ++ L ")\Z";
     c_attrs := [{| a_name := "setting"; a_ty := One TReal;
          a_checks := [(BIsNone EX)] |}] |}.

(** /repo/src/pymcnp/inp/dawwg/block/Tsaits.py:8-70 *)
Definition k_dawwg_block_Tsaits : cls :=
  {| c_name := "dawwg_block_Tsaits"; c_kind := KOption; c_kw := L "tsaits";
     c_pat := L "\Atsaits( " ++ slice 2 2 pat_number ++ L ")\Z";
     c_attrs := [{| a_name := "setting"; a_ty := One TInt;
          a_checks := [(BIsNone EX)] |}] |}.

(** /repo/src/pymcnp/inp/dawwg/block/Tsabeta.py:8-70 *)
Definition k_dawwg_block_Tsabeta : cls :=
  {| c_name := "dawwg_block_Tsabeta"; c_kind := KOption; c_kw := L "tsabeta";
     c_pat := L "\Atsabeta( " ++ slice 2 2 pat_number ++ L ")\Z";
     c_attrs := [{| a_name := "setting"; a_ty := One TReal;
          a_checks := [(BIsNone EX)] |}] |}.

(** /repo/src/pymcnp/inp/dawwg/block/Ptconv.py:8-70 *)
Definition k_dawwg_block_Ptconv : cls :=
  {| c_name := "dawwg_block_Ptconv"; c_kind := KOption; c_kw := L "ptconv";
     c_pat := L "\Aptconv( " ++ slice 2 2 pat_number ++ L ")\Z";
     c_attrs := [{| a_name := "setting"; a_ty := One TInt;
          a_checks := [(BOr (BIsNone EX) (BNot (BIn EX [(EZ 0); (EZ 1)])))] |}] |}.

(** /repo/src/pymcnp/inp/dawwg/block/Norm.py:8-70 *)
Definition k_dawwg_block_Norm : cls :=
  {| c_name := "dawwg_block_Norm"; c_kind := KOption; c_kw := L "norm";
     c_pat := L "\Anorm( " ++ slice 2 2 pat_number ++ L ")\Z";
     c_attrs := [{| a_name := "setting"; a_ty := One TReal;
          a_checks := [(BIsNone EX)] |}] |}.

(** /repo/src/pymcnp/inp/dawwg/block/Xsectp.py:8-70 *)
Definition k_dawwg_block_Xsectp : cls :=
  {| c_name := "dawwg_block_Xsectp"; c_kind := KOption; c_kw := L "xsectp";
     c_pat := L "\Axsectp( " ++ slice 2 2 pat_number ++ L ")\Z";
     c_attrs := [{| a_name := "setting"; a_ty := One TInt;
          a_checks := [(BOr (BIsNone EX) (BNot (BIn EX [(EZ 0); (EZ 1); (EZ 2)])))] |}] |}.

(** /repo/src/pymcnp/inp/dawwg/block/Fissrp.py:8-70 *)
Definition k_dawwg_block_Fissrp : cls :=
  {| c_name := "dawwg_block_Fissrp"; c_kind := KOption; c_kw := L "fissrp";
     c_pat := L "\Afissrp( " ++ slice 2 2 pat_number ++ L ")\Z";
     c_attrs := [{| a_name := "setting"; a_ty := One TInt;
          a_checks := [(BOr (BIsNone EX) (BNot (BIn EX [(EZ 0); (EZ 1)])))] |}] |}.

(** /repo/src/pymcnp/inp/dawwg/block/Sourcp.py:8-70 *)
Definition k_dawwg_block_Sourcp : cls :=
  {| c_name := "dawwg_block_Sourcp"; c_kind := KOption; c_kw := L "sourcp";
     c_pat := L "\Asourcp( " ++ slice 2 2 pat_number ++ L ")\Z";
     c_attrs := [{| a_name := "setting"; a_ty := One TInt;
          a_checks := [(BOr (BIsNone EX) (BNot (BIn EX [(EZ 0); (EZ 1); (EZ 2); (EZ 3)])))] |}] |}.

(** /repo/src/pymcnp/inp/dawwg/block/Angp.py:8-70 *)
Definition k_dawwg_block_Angp : cls :=
  {| c_name := "dawwg_block_Angp"; c_kind := KOption; c_kw := L "angp";
     c_pat := L "\Aangp( " ++ slice 2 2 pat_number ++ L ")\Z";
     c_attrs := [{| a_name := "setting"; a_ty := One TInt;
          a_checks := [(BOr (BIsNone EX) (BNot (BIn EX [(EZ 0); (EZ 1)])))] |}] |}.

(** /repo/src/pymcnp/inp/dawwg/block/Balp.py:8-70 *)
Definition k_dawwg_block_Balp : cls :=
  {| c_name := "dawwg_block_Balp"; c_kind := KOption; c_kw := L "balp";
     c_pat := L "\Abalp( " ++ slice 2 2 pat_number ++ L ")\Z";
     c_attrs := [{| a_name := "setting"; a_ty := One TInt;
          a_checks := [(BOr (BIsNone EX) (BNot (BIn EX [(EZ 0); (EZ 1)])))] |}] |}.

(** /repo/src/pymcnp/inp/dawwg/block/Raflux.py:8-70 *)
Definition k_dawwg_block_Raflux : cls :=
  {| c_name := "dawwg_block_Raflux"; c_kind := KOption; c_kw := L "raflux";
     c_pat := L "\Araflux( " ++ slice 2 2 pat_number ++ L ")\Z";
     c_attrs := [{| a_name := "setting"; a_ty := One TInt;
          a_checks := [(BOr (BIsNone EX) (BNot (BIn EX [(EZ 0); (EZ 1)])))] |}] |}.

(** /repo/src/pymcnp/inp/dawwg/block/Rmflux.py:8-70 *)
Definition k_dawwg_block_Rmflux : cls :=
  {| c_name := "dawwg_block_Rmflux"; c_kind := KOption; c_kw := L "rmflux";
     c_pat := L "\Armflux( " ++ slice 2 2 pat_number ++ L ")\Z";
     c_attrs := [{| a_name := "setting"; a_ty := One TInt;
          a_checks := [(BOr (BIsNone EX) (BNot (BIn EX [(EZ 0); (EZ 1)])))] |}] |}.

(** /repo/src/pymcnp/inp/dawwg/block/Avatar.py:8-70 *)
Definition k_dawwg_block_Avatar : cls :=
  {| c_name := "dawwg_block_Avatar"; c_kind := KOption; c_kw := L "avatar";
     c_pat := L "\Aavatar( " ++ slice 2 2 pat_number ++ L ")\Z";
     c_attrs := [{| a_name := "setting"; a_ty := One TInt;
          a_checks := [(BOr (BIsNone EX) (BNot (BIn EX [(EZ 0); (EZ 1)])))] |}] |}.

(** /repo/src/pymcnp/inp/dawwg/block/Asleft.py:8-70 *)
Definition k_dawwg_block_Asleft : cls :=
  {| c_name := "dawwg_block_Asleft"; c_kind := KOption; c_kw := L "asleft";
     c_pat := L "\Aasleft( " ++ slice 2 2 pat_number ++ L ")\Z";
     c_attrs := [{| a_name := "setting"; a_ty := One TInt;
          a_checks := [(BIsNone EX)] |}] |}.

(** /repo/src/pymcnp/inp/dawwg/block/Asrite.py:8-70 *)
Definition k_dawwg_block_Asrite : cls :=
  {| c_name := "dawwg_block_Asrite"; c_kind := KOption; c_kw := L "asrite";
     c_pat := L "\Aasrite( " ++ slice 2 2 pat_number ++ L ")\Z";
     c_attrs := [{| a_name := "setting"; a_ty := One TInt;
          a_checks := [(BIsNone EX)] |}] |}.

(** /repo/src/pymcnp/inp/dawwg/block/Asbott.py:8-70 *)
Definition k_dawwg_block_Asbott : cls :=
  {| c_name := "dawwg_block_Asbott"; c_kind := KOption; c_kw := L "asbott";
     c_pat := L "\Aasbott( " ++ slice 2 2 pat_number ++ L ")\Z";
     c_attrs := [{| a_name := "setting"; a_ty := One TInt;
          a_checks := [(BIsNone EX)] |}] |}.

(** /repo/src/pymcnp/inp/dawwg/block/Astop.py:8-70 *)
Definition k_dawwg_block_Astop : cls :=
  {| c_name := "dawwg_block_Astop"; c_kind := KOption; c_kw := L "astop";
     c_pat := L "\Aastop( " ++ slice 2 2 pat_number ++ L ")\Z";
     c_attrs := [{| a_name := "setting"; a_ty := One TInt;
          a_checks := [(BIsNone EX)] |}] |}.

(** /repo/src/pymcnp/inp/dawwg/block/Asfrnt.py:8-70 *)
Definition k_dawwg_block_Asfrnt : cls :=
  {| c_name := "dawwg_block_Asfrnt"; c_kind := KOption; c_kw := L "asfrnt";
     c_pat := L "\Aasfrnt( " ++ slice 2 2 pat_number ++ L ")\Z";
     c_attrs := [{| a_name := "setting"; a_ty := One TInt;
          a_checks := [(BIsNone EX)] |}] |}.

(** /repo/src/pymcnp/inp/dawwg/block/Asback.py:8-70 *)
Definition k_dawwg_block_Asback : cls :=
  {| c_name := "dawwg_block_Asback"; c_kind := KOption; c_kw := L "asback";
     c_pat := L "\Aasback( " ++ slice 2 2 pat_number ++ L ")\Z";
     c_attrs := [{| a_name := "setting"; a_ty := One TInt;
          a_checks := [(BIsNone EX)] |}] |}.

(** /repo/src/pymcnp/inp/dawwg/block/Massed.py:8-70 *)
Definition k_dawwg_block_Massed : cls :=
  {| c_name := "dawwg_block_Massed"; c_kind := KOption; c_kw := L "massed";
     c_pat := L "\Amassed( " ++ slice 2 2 pat_number ++ L ")\Z";
     c_attrs := [{| a_name := "setting"; a_ty := One TInt;
          a_checks := [(BOr (BIsNone EX) (BNot (BIn EX [(EZ 0); (EZ 1)])))] |}] |}.

(** /repo/src/pymcnp/inp/dawwg/block/Pted.py:8-70 *)
Definition k_dawwg_block_Pted : cls :=
  {| c_name := "dawwg_block_Pted"; c_kind := KOption; c_kw := L "pted";
     c_pat := L "\Apted( " ++ slice 2 2 pat_number ++ L ")\Z";
     c_attrs := [{| a_name := "setting"; a_ty := One TInt;
          a_checks := [(BOr (BIsNone EX) (BNot (BIn EX [(EZ 0); (EZ 1)])))] |}] |}.

(** /repo/src/pymcnp/inp/dawwg/block/Zned.py:8-70 *)
Definition k_dawwg_block_Zned : cls :=
  {| c_name := "dawwg_block_Zned"; c_kind := KOption; c_kw := L "zned";
     c_pat := L "\Azned( " ++ slice 2 2 pat_number ++ L ")\Z";
     c_attrs := [{| a_name := "setting"; a_ty := One TInt;
          a_checks := [(BOr (BIsNone EX) (BNot (BIn EX [(EZ 0); (EZ 1)])))] |}] |}.

(** /repo/src/pymcnp/inp/dawwg/block/Rzflux.py:8-70 *)
Definition k_dawwg_block_Rzflux : cls :=
  {| c_name := "dawwg_block_Rzflux"; c_kind := KOption; c_kw := L "rzflux";
     c_pat := L "\Arzflux( " ++ slice 2 2 pat_number ++ L ")\Z";
     c_attrs := [{| a_name := "setting"; a_ty := One TInt;
          a_checks := [(BOr (BIsNone EX) (BNot (BIn EX [(EZ 0); (EZ 1)])))] |}] |}.

(** /repo/src/pymcnp/inp/dawwg/block/Rzmflux.py:8-70 *)
Definition k_dawwg_block_Rzmflux : cls :=
  {| c_name := "dawwg_block_Rzmflux"; c_kind := KOption; c_kw := L "rzmflux";
     c_pat := L "\Arzmflux( " ++ slice 2 2 pat_number ++ L ")\Z";
     c_attrs := [{| a_name := "setting"; a_ty := One TInt;
          a_checks := [(BOr (BIsNone EX) (BNot (BIn EX [(EZ 0); (EZ 1)])))] |}] |}.

(** /repo/src/pymcnp/inp/dawwg/block/Edoutf.py:8-70 *)
Definition k_dawwg_block_Edoutf : cls :=
  {| c_name := "dawwg_block_Edoutf"; c_kind := KOption; c_kw := L "edoutf";
     c_pat := L "\Aedoutf( " ++ slice 2 2 pat_number ++ L ")\Z";
     c_attrs := [{| a_name := "setting"; a_ty := One TInt;
          a_checks := [(BOr (BIsNone EX) (BNot (BIn EX [(EZ (-3)); (EZ (-2)); (EZ (-1)); (EZ 0); (EZ 1); (EZ 2); (EZ 3)])))] |}] |}.

(** /repo/src/pymcnp/inp/dawwg/block/Byvolp.py:8-70 *)
Definition k_dawwg_block_Byvolp : cls :=
  {| c_name := "dawwg_block_Byvolp"; c_kind := KOption; c_kw := L "byvolp";
     c_pat := L "\Abyvolp( " ++ slice 2 2 pat_number ++ L ")\Z";
     c_attrs := [{| a_name := "setting"; a_ty := One TInt;
          a_checks := [(BOr (BIsNone EX) (BNot (BIn EX [(EZ 0); (EZ 1)])))] |}] |}.

(** /repo/src/pymcnp/inp/dawwg/block/Ajed.py:8-70 *)
Definition k_dawwg_block_Ajed : cls :=
  {| c_name := "dawwg_block_Ajed"; c_kind := KOption; c_kw := L "ajed";
     c_pat := L "\Aajed( " ++ slice 2 2 pat_number ++ L ")\Z";
     c_attrs := [{| a_name := "setting"; a_ty := One TInt;
          a_checks := [(BOr (BIsNone EX) (BNot (BIn EX [(EZ 0); (EZ 1)])))] |}] |}.

(** /repo/src/pymcnp/inp/dawwg/block/Fluxone.py:8-70 *)
Definition k_dawwg_block_Fluxone : cls :=
  {| c_name := "dawwg_block_Fluxone"; c_kind := KOption; c_kw := L "fluxone";
     c_pat := L "\Afluxone( " ++ slice 2 2 pat_number ++ L ")\Z";
     c_attrs := [{| a_name := "setting"; a_ty := One TInt;
          a_checks := [(BOr (BIsNone EX) (BNot (BIn EX [(EZ 0); (EZ 1)])))] |}] |}.

(** /repo/src/pymcnp/inp/dawwg/block/_option.py:4-9: the subclasses in definition order, and the pattern
    that _symbol.py:40-44 makes of theirs, longest class name first. *)
Definition f_dawwg_block_BlockOption : list cls := [k_dawwg_block_Ngroup; k_dawwg_block_Isn; k_dawwg_block_Niso; k_dawwg_block_Mt; k_dawwg_block_Iquad; k_dawwg_block_Fmmix; k_dawwg_block_Nosolv; k_dawwg_block_Noedit; k_dawwg_block_Nogeod; k_dawwg_block_Nomix; k_dawwg_block_Noasg; k_dawwg_block_Nomacr; k_dawwg_block_Noslnp; k_dawwg_block_Noedtt; k_dawwg_block_Noadjm; k_dawwg_block_Lib; k_dawwg_block_Libname; k_dawwg_block_Fissneut; k_dawwg_block_Lng; k_dawwg_block_Balxs; k_dawwg_block_Ntichi; k_dawwg_block_Ievt; k_dawwg_block_Isct; k_dawwg_block_Ith; k_dawwg_block_Trcor; k_dawwg_block_Ibl; k_dawwg_block_Ibr; k_dawwg_block_Ibt; k_dawwg_block_Ibb; k_dawwg_block_Ibfrnt; k_dawwg_block_Ibback; k_dawwg_block_Epsi; k_dawwg_block_Oitm; k_dawwg_block_Nosigf; k_dawwg_block_Srcacc; k_dawwg_block_Diffsol; k_dawwg_block_Tsasn; k_dawwg_block_Tsaepsi; k_dawwg_block_Tsaits; k_dawwg_block_Tsabeta; k_dawwg_block_Ptconv; k_dawwg_block_Norm; k_dawwg_block_Xsectp; k_dawwg_block_Fissrp; k_dawwg_block_Sourcp; k_dawwg_block_Angp; k_dawwg_block_Balp; k_dawwg_block_Raflux; k_dawwg_block_Rmflux; k_dawwg_block_Avatar; k_dawwg_block_Asleft; k_dawwg_block_Asrite; k_dawwg_block_Asbott; k_dawwg_block_Astop; k_dawwg_block_Asfrnt; k_dawwg_block_Asback; k_dawwg_block_Massed; k_dawwg_block_Pted; k_dawwg_block_Zned; k_dawwg_block_Rzflux; k_dawwg_block_Rzmflux; k_dawwg_block_Edoutf; k_dawwg_block_Byvolp; k_dawwg_block_Ajed; k_dawwg_block_Fluxone].
Definition pat_dawwg_block_BlockOption : str := union_pat [c_pat k_dawwg_block_Fissneut; c_pat k_dawwg_block_Libname; c_pat k_dawwg_block_Diffsol; c_pat k_dawwg_block_Tsaepsi; c_pat k_dawwg_block_Tsabeta; c_pat k_dawwg_block_Rzmflux; c_pat k_dawwg_block_Fluxone; c_pat k_dawwg_block_Ngroup; c_pat k_dawwg_block_Nosolv; c_pat k_dawwg_block_Noedit; c_pat k_dawwg_block_Nogeod; c_pat k_dawwg_block_Nomacr; c_pat k_dawwg_block_Noslnp; c_pat k_dawwg_block_Noedtt; c_pat k_dawwg_block_Noadjm; c_pat k_dawwg_block_Ntichi; c_pat k_dawwg_block_Ibfrnt; c_pat k_dawwg_block_Ibback; c_pat k_dawwg_block_Nosigf; c_pat k_dawwg_block_Srcacc; c_pat k_dawwg_block_Tsaits; c_pat k_dawwg_block_Ptconv; c_pat k_dawwg_block_Xsectp; c_pat k_dawwg_block_Fissrp; c_pat k_dawwg_block_Sourcp; c_pat k_dawwg_block_Raflux; c_pat k_dawwg_block_Rmflux; c_pat k_dawwg_block_Avatar; c_pat k_dawwg_block_Asleft; c_pat k_dawwg_block_Asrite; c_pat k_dawwg_block_Asbott; c_pat k_dawwg_block_Asfrnt; c_pat k_dawwg_block_Asback; c_pat k_dawwg_block_Massed; c_pat k_dawwg_block_Rzflux; c_pat k_dawwg_block_Edoutf; c_pat k_dawwg_block_Byvolp; c_pat k_dawwg_block_Iquad; c_pat k_dawwg_block_Fmmix; c_pat k_dawwg_block_Nomix; c_pat k_dawwg_block_Noasg; c_pat k_dawwg_block_Balxs; c_pat k_dawwg_block_Trcor; c_pat k_dawwg_block_Tsasn; c_pat k_dawwg_block_Astop; c_pat k_dawwg_block_Niso; c_pat k_dawwg_block_Ievt; c_pat k_dawwg_block_Isct; c_pat k_dawwg_block_Epsi; c_pat k_dawwg_block_Oitm; c_pat k_dawwg_block_Norm; c_pat k_dawwg_block_Angp; c_pat k_dawwg_block_Balp; c_pat k_dawwg_block_Pted; c_pat k_dawwg_block_Zned; c_pat k_dawwg_block_Ajed; c_pat k_dawwg_block_Isn; c_pat k_dawwg_block_Lib; c_pat k_dawwg_block_Lng; c_pat k_dawwg_block_Ith; c_pat k_dawwg_block_Ibl; c_pat k_dawwg_block_Ibr; c_pat k_dawwg_block_Ibt; c_pat k_dawwg_block_Ibb; c_pat k_dawwg_block_Mt].

(** /repo/src/pymcnp/inp/dawwg/Block.py:9-110 *)
Definition k_dawwg_Block : cls :=
  {| c_name := "dawwg_Block"; c_kind := KOption; c_kw := L "block";
     c_pat := L "\Ablock( " ++ slice 2 2 pat_number ++ L ")((?: (?:" ++ slice 2 2 pat_dawwg_block_BlockOption ++ L "))+?)?\Z";
     c_attrs := [{| a_name := "setting"; a_ty := One TInt;
          a_checks := [(BOr (BIsNone EX) (BNot (BIn EX [(EZ 1); (EZ 3); (EZ 5); (EZ 6)])))] |};
       {| a_name := "options"; a_ty := Tup (TExt "dawwg_block_BlockOption" pat_dawwg_block_BlockOption);
          a_checks := [] |}] |}.

(** /repo/src/pymcnp/inp/dawwg/_option.py:4-9: the subclasses in definition order, and the pattern
    that _symbol.py:40-44 makes of theirs, longest class name first. *)
Definition f_dawwg_DawwgOption : list cls := [k_dawwg_Points; k_dawwg_Xsec; k_dawwg_Block].
Definition pat_dawwg_DawwgOption : str := union_pat [c_pat k_dawwg_Points; c_pat k_dawwg_Block; c_pat k_dawwg_Xsec].

(** /repo/src/pymcnp/inp/Dawwg.py:8-68 *)
Definition k_Dawwg : cls :=
  {| c_name := "Dawwg"; c_kind := KCard; c_kw := L "dawwg";
     c_pat := L "\Adawwg((?: (?:" ++ slice 2 2 pat_dawwg_DawwgOption ++ L "))+?)?\Z";
     c_attrs := [{| a_name := "options"; a_ty := Tup (TExt "dawwg_DawwgOption" pat_dawwg_DawwgOption);
          a_checks := [] |}] |}.

(** /repo/src/pymcnp/inp/Dbcn.py:8-3940 *)
Definition k_Dbcn : cls :=
  {| c_name := "Dbcn"; c_kind := KCard; c_kw := L "dbcn";
     c_pat := L "\Adbcn( " ++ slice 2 2 pat_number ++ L ")?( " ++ slice 2 2 pat_number ++ L ")?( " ++ slice 2 2 pat_number ++ L ")?( " ++ slice 2 2 pat_number ++ L ")?( " ++ slice 2 2 pat_number ++ L ")?( " ++ slice 2 2 pat_number ++ L ")?( " ++ slice 2 2 pat_number ++ L ")?( " ++ slice 2 2 pat_number ++ L ")?( " ++ slice 2 2 pat_number ++ L ")?( " ++ slice 2 2 pat_number ++ L ")?( " ++ slice 2 2 pat_number ++ L ")?( " ++ slice 2 2 pat_number ++ L ")?( " ++ slice 2 2 pat_number ++ L ")?( " ++ slice 2 2 pat_number ++ L ")?( " ++ slice 2 2 pat_number ++ L ")?( " ++ slice 2 2 pat_number ++ L ")?( " ++ slice 2 2 pat_number ++ L ")?( " ++ slice 2 2 pat_number ++ L ")?( " ++ slice 2 2 pat_number ++ L ")?( " ++ slice 2 2 pat_number ++ L ")?( " ++ slice 2 2 pat_number ++ L ")?( " ++ slice 2 2 pat_number ++ L ")?( " ++ slice 2 2 pat_number ++ L ")?( " ++ slice 2 2 pat_number ++ L ")?( " ++ slice 2 2 pat_number ++ L ")?( " ++ slice 2 2 pat_number ++ L ")?( " ++ slice 2 2 pat_number ++ L ")?( " ++ slice 2 2 pat_number ++ L ")?( " ++ slice 2 2 pat_number ++ L ")?( " ++ slice 2 2 pat_number ++ L ")?( " ++ slice 2 2 pat_number ++ L ")?( " ++ slice 2 2 pat_number ++ L ")?( " ++ slice 2 2 pat_number ++ L ")?( " ++ slice 2 2 pat_number ++ L ")?( " ++ slice 2 2 pat_number ++ L ")?( " ++ slice 2 2 pat_number ++ L ")?( " ++ slice 2 2 pat_number ++ L ")?( " ++ slice 2 2 pat_number ++ L ")?( " ++ slice 2 2 pat_number ++ L ")?( " ++ slice 2 2 pat_number ++ L ")?( " ++ slice 2 2 pat_number ++ L ")?( " ++ slice 2 2 pat_number ++ L ")?( " ++ slice 2 2 pat_number ++ L ")?( " ++ slice 2 2 pat_number ++ L ")?( " ++ slice 2 2 pat_number ++ L ")?( " ++ slice 2 2 pat_number ++ L ")?( " ++ slice 2 2 pat_number ++ L ")?( " ++ slice 2 2 pat_number ++ L ")?( " ++ slice 2 2 pat_number ++ L ")?( " ++ slice 2 2 pat_number ++ L ")?( " ++ slice 2 2 pat_number ++ L ")?( " ++ slice 2 2 pat_number ++ L ")?( " ++ slice 2 2 pat_number ++ L ")?( " ++ slice 2 2 pat_number ++ L ")?( " ++ slice 2 2 pat_number ++ L ")?( " ++ slice 2 2 pat_number ++ L ")?( " ++ slice 2 2 pat_number ++ L ")?( " ++ slice 2 2 pat_number ++ L ")?( " ++ slice 2 2 pat_number ++ L ")?( " ++ slice 2 2 pat_number ++ L ")?( " ++ slice 2 2 pat_number ++ L ")?( " ++ slice 2 2 pat_number ++ L ")?( " ++ slice 2 2 pat_number ++ L ")?( " ++ slice 2 2 pat_number ++ L ")?( " ++ slice 2 2 pat_number ++ L ")?( " ++ slice 2 2 pat_number ++ L ")?( " ++ slice 2 2 pat_number ++ L ")?( " ++ slice 2 2 pat_number ++ L ")?( " ++ slice 2 2 pat_number ++ L ")?( " ++ slice 2 2 pat_number ++ L ")?( " ++ slice 2 2 pat_number ++ L ")?( " ++ slice 2 2 pat_number ++ L ")?( " ++ slice 2 2 pat_number ++ L ")?( " ++ slice 2 2 pat_number ++ L ")?( " ++ slice 2 2 pat_number ++ L ")?( " ++ slice 2 2 pat_number ++ L ")?( " ++ slice 2 2 pat_number ++ L ")?( " ++ slice 2 2 pat_number ++ L ")?( " ++ slice 2 2 pat_number ++ L ")?( " ++ slice 2 2 pat_number ++ L ")?( " ++ slice 2 2 pat_number ++ L ")?( " ++ slice 2 2 pat_number ++ L ")?( " ++ slice 2 2 pat_number ++ L ")?( " ++ slice 2 2 pat_number ++ L ")?( " ++ slice 2 2 pat_number ++ L ")?( " ++ slice 2 2 pat_number ++ L ")?( " ++ slice 2 2 pat_number ++ L ")?( " ++ slice 2 2 pat_number ++ L ")?( " ++ slice 2 2 pat_number ++ L ")?( " ++ slice 2 2 pat_number ++ L ")?( " ++ slice 2 2 pat_number ++ L ")?( " ++ slice 2 2 pat_number ++ L ")?( " ++ slice 2 2 pat_number ++ L ")?( " ++ slice 2 2 pat_number ++ L ")?( " ++ slice 2 2 pat_number ++ L ")?( " ++ slice 2 2 pat_number ++ L ")?( " ++ slice 2 2 pat_number ++ L ")?( " ++ slice 2 2 pat_number ++ L ")?( " ++ slice 2 2 pat_number ++ L ")?( " ++ slice 2 2 pat_number ++ L ")?\Z";
     c_attrs := [{| a_name := "x1"; a_ty := One TInt;
          a_checks := [(BAnd (BNot (BIsNone EX)) (BNot (BCmp OGe EX (EZ 0))))] |};
       {| a_name := "x2"; a_ty := One TInt;
          a_checks := [] |};
       {| a_name := "x3"; a_ty := One TInt;
          a_checks := [] |};
       {| a_name := "x4"; a_ty := One TInt;
          a_checks := [] |};
       {| a_name := "x5"; a_ty := One TInt;
          a_checks := [] |};
       {| a_name := "x6"; a_ty := One TInt;
          a_checks := [(BAnd (BNot (BIsNone EX)) (BNot (BAnd (BCmp OGe EX (EZ 50)) (BCmp OLe EX (EZ 200)))))] |};
       {| a_name := "x7"; a_ty := One TInt;
          a_checks := [] |};
       {| a_name := "x8"; a_ty := One TInt;
          a_checks := [] |};
       {| a_name := "x9"; a_ty := One TInt;
          a_checks := [] |};
       {| a_name := "x10"; a_ty := One TInt;
          a_checks := [] |};
       {| a_name := "x11"; a_ty := One TInt;
          a_checks := [] |};
       {| a_name := "x12"; a_ty := One TInt;
          a_checks := [] |};
       {| a_name := "x13"; a_ty := One TInt;
          a_checks := [] |};
       {| a_name := "x14"; a_ty := One TInt;
          a_checks := [] |};
       {| a_name := "x15"; a_ty := One TInt;
          a_checks := [] |};
       {| a_name := "x16"; a_ty := One TInt;
          a_checks := [] |};
       {| a_name := "x17"; a_ty := One TInt;
          a_checks := [] |};
       {| a_name := "x18"; a_ty := One TInt;
          a_checks := [] |};
       {| a_name := "x19"; a_ty := One TInt;
          a_checks := [] |};
       {| a_name := "x20"; a_ty := One TInt;
          a_checks := [] |};
       {| a_name := "x21"; a_ty := One TInt;
          a_checks := [] |};
       {| a_name := "x22"; a_ty := One TInt;
          a_checks := [] |};
       {| a_name := "x23"; a_ty := One TInt;
          a_checks := [] |};
       {| a_name := "x24"; a_ty := One TInt;
          a_checks := [] |};
       {| a_name := "x25"; a_ty := One TInt;
          a_checks := [] |};
       {| a_name := "x26"; a_ty := One TInt;
          a_checks := [] |};
       {| a_name := "x27"; a_ty := One TInt;
          a_checks := [] |};
       {| a_name := "x28"; a_ty := One TInt;
          a_checks := [] |};
       {| a_name := "x29"; a_ty := One TInt;
          a_checks := [] |};
       {| a_name := "x30"; a_ty := One TInt;
          a_checks := [] |};
       {| a_name := "x31"; a_ty := One TInt;
          a_checks := [] |};
       {| a_name := "x32"; a_ty := One TInt;
          a_checks := [] |};
       {| a_name := "x33"; a_ty := One TInt;
          a_checks := [] |};
       {| a_name := "x34"; a_ty := One TInt;
          a_checks := [] |};
       {| a_name := "x35"; a_ty := One TInt;
          a_checks := [] |};
       {| a_name := "x36"; a_ty := One TInt;
          a_checks := [] |};
       {| a_name := "x37"; a_ty := One TInt;
          a_checks := [] |};
       {| a_name := "x38"; a_ty := One TInt;
          a_checks := [] |};
       {| a_name := "x39"; a_ty := One TInt;
          a_checks := [] |};
       {| a_name := "x40"; a_ty := One TInt;
          a_checks := [] |};
       {| a_name := "x41"; a_ty := One TInt;
          a_checks := [] |};
       {| a_name := "x42"; a_ty := One TInt;
          a_checks := [] |};
       {| a_name := "x43"; a_ty := One TInt;
          a_checks := [] |};
       {| a_name := "x44"; a_ty := One TInt;
          a_checks := [] |};
       {| a_name := "x45"; a_ty := One TInt;
          a_checks := [] |};
       {| a_name := "x46"; a_ty := One TInt;
          a_checks := [] |};
       {| a_name := "x47"; a_ty := One TInt;
          a_checks := [] |};
       {| a_name := "x48"; a_ty := One TInt;
          a_checks := [] |};
       {| a_name := "x49"; a_ty := One TInt;
          a_checks := [] |};
       {| a_name := "x50"; a_ty := One TInt;
          a_checks := [] |};
       {| a_name := "x51"; a_ty := One TInt;
          a_checks := [] |};
       {| a_name := "x52"; a_ty := One TInt;
          a_checks := [] |};
       {| a_name := "x53"; a_ty := One TInt;
          a_checks := [] |};
       {| a_name := "x54"; a_ty := One TInt;
          a_checks := [] |};
       {| a_name := "x55"; a_ty := One TInt;
          a_checks := [] |};
       {| a_name := "x56"; a_ty := One TInt;
          a_checks := [] |};
       {| a_name := "x57"; a_ty := One TInt;
          a_checks := [] |};
       {| a_name := "x58"; a_ty := One TInt;
          a_checks := [] |};
       {| a_name := "x59"; a_ty := One TInt;
          a_checks := [] |};
       {| a_name := "x60"; a_ty := One TInt;
          a_checks := [] |};
       {| a_name := "x61"; a_ty := One TInt;
          a_checks := [] |};
       {| a_name := "x62"; a_ty := One TInt;
          a_checks := [] |};
       {| a_name := "x63"; a_ty := One TInt;
          a_checks := [] |};
       {| a_name := "x64"; a_ty := One TInt;
          a_checks := [] |};
       {| a_name := "x65"; a_ty := One TInt;
          a_checks := [] |};
       {| a_name := "x66"; a_ty := One TInt;
          a_checks := [] |};
       {| a_name := "x67"; a_ty := One TInt;
          a_checks := [] |};
       {| a_name := "x68"; a_ty := One TInt;
          a_checks := [] |};
       {| a_name := "x69"; a_ty := One TInt;
          a_checks := [] |};
       {| a_name := "x70"; a_ty := One TInt;
          a_checks := [] |};
       {| a_name := "x71"; a_ty := One TInt;
          a_checks := [] |};
       {| a_name := "x72"; a_ty := One TInt;
          a_checks := [] |};
       {| a_name := "x73"; a_ty := One TInt;
          a_checks := [] |};
       {| a_name := "x74"; a_ty := One TInt;
          a_checks := [] |};
       {| a_name := "x75"; a_ty := One TInt;
          a_checks := [] |};
       {| a_name := "x76"; a_ty := One TInt;
          a_checks := [] |};
       {| a_name := "x77"; a_ty := One TInt;
          a_checks := [] |};
       {| a_name := "x78"; a_ty := One TInt;
          a_checks := [] |};
       {| a_name := "x79"; a_ty := One TInt;
          a_checks := [] |};
       {| a_name := "x80"; a_ty := One TInt;
          a_checks := [] |};
       {| a_name := "x81"; a_ty := One TInt;
          a_checks := [] |};
       {| a_name := "x82"; a_ty := One TInt;
          a_checks := [] |};
       {| a_name := "x83"; a_ty := One TInt;
          a_checks := [] |};
       {| a_name := "x84"; a_ty := One TInt;
          a_checks := [] |};
       {| a_name := "x85"; a_ty := One TInt;
          a_checks := [] |};
       {| a_name := "x86"; a_ty := One TInt;
          a_checks := [] |};
       {| a_name := "x87"; a_ty := One TInt;
          a_checks := [] |};
       {| a_name := "x88"; a_ty := One TInt;
          a_checks := [] |};
       {| a_name := "x89"; a_ty := One TInt;
          a_checks := [] |};
       {| a_name := "x90"; a_ty := One TInt;
          a_checks := [] |};
       {| a_name := "x91"; a_ty := One TInt;
          a_checks := [] |};
       {| a_name := "x92"; a_ty := One TInt;
          a_checks := [] |};
       {| a_name := "x93"; a_ty := One TInt;
          a_checks := [] |};
       {| a_name := "x94"; a_ty := One TInt;
          a_checks := [] |};
       {| a_name := "x95"; a_ty := One TInt;
          a_checks := [] |};
       {| a_name := "x96"; a_ty := One TInt;
          a_checks := [] |};
       {| a_name := "x97"; a_ty := One TInt;
          a_checks := [] |};
       {| a_name := "x98"; a_ty := One TInt;
          a_checks := [] |};
       {| a_name := "x99"; a_ty := One TInt;
          a_checks := [] |};
       {| a_name := "x100"; a_ty := One TInt;
          a_checks := [] |}] |}.

(** /repo/src/pymcnp/inp/dd/Diagnostic.py:8-111 *)
Definition k_dd_Diagnostic : cls :=
  {| c_name := "dd_Diagnostic"; c_kind := KEntry; c_kw := L "";
     c_pat := L "\A(" ++ slice 2 2 pat_number ++ L ") (" ++ slice 2 2 pat_number ++ L ")\Z";
     c_attrs := [{| a_name := "playing_setting"; a_ty := One TReal;
          a_checks := [(BIsNone EX)] |};
       {| a_name := "printing_setting"; a_ty := One TReal;
          a_checks := [(BIsNone EX)] |}] |}.

(** /repo/src/pymcnp/inp/Dd.py:9-110 *)
Definition k_Dd : cls :=
  {| c_name := "Dd"; c_kind := KCard; c_kw := L "dd";
     c_pat := L "\Add(\d+)?((?: " ++ slice 2 2 (c_pat k_dd_Diagnostic) ++ L ")+?)\Z";
     c_attrs := [{| a_name := "suffix"; a_ty := One TInt;
          a_checks := [] |};
       {| a_name := "diagnostics"; a_ty := Tup (TExt "dd_Diagnostic" (c_pat k_dd_Diagnostic));
          a_checks := [(BIsNone EX)] |}] |}.

(** /repo/src/pymcnp/inp/De.py:8-153 *)
Definition k_De : cls :=
  {| c_name := "De"; c_kind := KCard; c_kw := L "de";
     c_pat := L "\Ade(\d+)( (?:log|lin))?((?: " ++ slice 2 2 pat_number ++ L ")+?)\Z";
     c_attrs := [{| a_name := "suffix"; a_ty := One TInt;
          a_checks := [(BOr (BIsNone EX) (BNot (BCmp OLe EX (EZ 99999999))))] |};
       {| a_name := "method"; a_ty := One TStr;
          a_checks := [(BAnd (BNot (BIsNone EX)) (BNot (BIn (ELower EX) [(ES (L "log")); (ES (L "lin"))])))] |};
       {| a_name := "values"; a_ty := Tup TReal;
          a_checks := [(BIsNone EX)] |}] |}.

(** /repo/src/pymcnp/inp/Df_0.py:8-153 *)
Definition k_Df_0 : cls :=
  {| c_name := "Df_0"; c_kind := KCard; c_kw := L "df";
     c_pat := L "\Adf(\d+)( (?:log|lin))?((?: " ++ slice 2 2 pat_number ++ L ")+?)\Z";
     c_attrs := [{| a_name := "suffix"; a_ty := One TInt;
          a_checks := [(BOr (BIsNone EX) (BNot (BCmp OLe EX (EZ 99999999))))] |};
       {| a_name := "method"; a_ty := One TStr;
          a_checks := [(BAnd (BNot (BIsNone EX)) (BNot (BIn (ELower EX) [(ES (L "log")); (ES (L "lin"))])))] |};
       {| a_name := "values"; a_ty := Tup TReal;
          a_checks := [(BIsNone EX)] |}] |}.

(** /repo/src/pymcnp/inp/df_1/Iu.py:8-70 *)
Definition k_df_1_Iu : cls :=
  {| c_name := "df_1_Iu"; c_kind := KOption; c_kw := L "iu";
     c_pat := L "\Aiu( " ++ slice 2 2 pat_number ++ L ")\Z";
     c_attrs := [{| a_name := "units"; a_ty := One TInt;
          a_checks := [(BOr (BIsNone EX) (BNot (BOr (BJump EX) (BIn EX [(EZ 1); (EZ 2)]))))] |}] |}.

(** /repo/src/pymcnp/inp/df_1/Fac.py:8-70 *)
Definition k_df_1_Fac : cls :=
  {| c_name := "df_1_Fac"; c_kind := KOption; c_kw := L "fac";
     c_pat := L "\Afac( " ++ slice 2 2 pat_number ++ L ")\Z";
     c_attrs := [{| a_name := "normalization"; a_ty := One TInt;
          a_checks := [(BOr (BIsNone EX) (BNot (BOr (BJump EX) (BCmp OGe EX (EZ (-3))))))] |}] |}.

(** /repo/src/pymcnp/inp/df_1/Ic.py:8-70 *)
Definition k_df_1_Ic : cls :=
  {| c_name := "df_1_Ic"; c_kind := KOption; c_kw := L "ic";
     c_pat := L "\Aic( " ++ slice 2 2 pat_number ++ L ")\Z";
     c_attrs := [{| a_name := "function"; a_ty := One TInt;
          a_checks := [(BOr (BIsNone EX) (BNot (BOr (BJump EX) (BIn EX [(EZ 10); (EZ 20); (EZ 31); (EZ 32); (EZ 33); (EZ 34); (EZ 35); (EZ 40); (EZ 99)]))))] |}] |}.

(** /repo/src/pymcnp/inp/df_1/Log.py:6-28 *)
Definition k_df_1_Log : cls :=
  {| c_name := "df_1_Log"; c_kind := KOption; c_kw := L "log";
     c_pat := L "\Alog\Z";
     c_attrs := [] |}.

(** /repo/src/pymcnp/inp/df_1/Lin.py:6-28 *)
Definition k_df_1_Lin : cls :=
  {| c_name := "df_1_Lin"; c_kind := KOption; c_kw := L "lin";
     c_pat := L "\Alin\Z";
     c_attrs := [] |}.

(** /repo/src/pymcnp/inp/df_1/_option.py:4-9: the subclasses in definition order, and the pattern
    that _symbol.py:40-44 makes of theirs, longest class name first. *)
Definition f_df_1_DfOption_1 : list cls := [k_df_1_Iu; k_df_1_Fac; k_df_1_Ic; k_df_1_Log; k_df_1_Lin].
Definition pat_df_1_DfOption_1 : str := union_pat [c_pat k_df_1_Fac; c_pat k_df_1_Log; c_pat k_df_1_Lin; c_pat k_df_1_Iu; c_pat k_df_1_Ic].

(** /repo/src/pymcnp/inp/Df_1.py:9-113 *)
Definition k_Df_1 : cls :=
  {| c_name := "Df_1"; c_kind := KCard; c_kw := L "df";
     c_pat := L "\Adf(\d+)((?: (?:" ++ slice 2 2 pat_df_1_DfOption_1 ++ L "))+?)\Z";
     c_attrs := [{| a_name := "suffix"; a_ty := One TInt;
          a_checks := [(BOr (BIsNone EX) (BNot (BCmp OLe EX (EZ 99999999))))] |};
       {| a_name := "options"; a_ty := Tup (TExt "df_1_DfOption_1" pat_df_1_DfOption_1);
          a_checks := [(BIsNone EX)] |}] |}.

(** /repo/src/pymcnp/inp/Dm.py:8-112 *)
Definition k_Dm : cls :=
  {| c_name := "Dm"; c_kind := KCard; c_kw := L "dm";
     c_pat := L "\Adm(\d+)((?: " ++ slice 2 2 pat_zaid ++ L ")+?)\Z";
     c_attrs := [{| a_name := "suffix"; a_ty := One TInt;
          a_checks := [(BIsNone EX)] |};
       {| a_name := "zaids"; a_ty := Tup TZaid;
          a_checks := [(BIsNone EX)] |}] |}.

(** /repo/src/pymcnp/inp/Drxs.py:7-67 *)
Definition k_Drxs : cls :=
  {| c_name := "Drxs"; c_kind := KCard; c_kw := L "drxs";
     c_pat := L "\Adrxs((?: " ++ slice 2 2 pat_zaid ++ L ")+?)?\Z";
     c_attrs := [{| a_name := "zaids"; a_ty := Tup TZaid;
          a_checks := [] |}] |}.

(** /repo/src/pymcnp/inp/Ds_0.py:8-153 *)
Definition k_Ds_0 : cls :=
  {| c_name := "Ds_0"; c_kind := KCard; c_kw := L "ds";
     c_pat := L "\Ads(\d+)( [hls])?((?: " ++ slice 2 2 pat_number ++ L ")+?)\Z";
     c_attrs := [{| a_name := "suffix"; a_ty := One TInt;
          a_checks := [(BOr (BIsNone EX) (BNot (BAnd (BCmp OGe EX (EZ 1)) (BCmp OLe EX (EZ 999)))))] |};
       {| a_name := "option"; a_ty := One TStr;
          a_checks := [(BAnd (BNot (BIsNone EX)) (BNot (BIn (ELower EX) [(ES (L "h")); (ES (L "l")); (ES (L "s"))])))] |};
       {| a_name := "js"; a_ty := Tup TReal;
          a_checks := [(BIsNone EX)] |}] |}.

(** /repo/src/pymcnp/inp/ds_1/Variables.py:8-111 *)
Definition k_ds_1_Variables : cls :=
  {| c_name := "ds_1_Variables"; c_kind := KEntry; c_kw := L "";
     c_pat := L "\A(" ++ slice 2 2 pat_number ++ L ") (" ++ slice 2 2 pat_number ++ L ")\Z";
     c_attrs := [{| a_name := "independent"; a_ty := One TReal;
          a_checks := [(BIsNone EX)] |};
       {| a_name := "dependent"; a_ty := One TReal;
          a_checks := [(BIsNone EX)] |}] |}.

(** /repo/src/pymcnp/inp/Ds_1.py:9-122 *)
Definition k_Ds_1 : cls :=
  {| c_name := "Ds_1"; c_kind := (KOwn (OWord (L "t"))); c_kw := L "ds";
     c_pat := L "\Ads(\d+) t((?: " ++ slice 2 2 (c_pat k_ds_1_Variables) ++ L ")+?)\Z";
     c_attrs := [{| a_name := "suffix"; a_ty := One TInt;
          a_checks := [(BOr (BIsNone EX) (BNot (BAnd (BCmp OGe EX (EZ 1)) (BCmp OLe EX (EZ 999)))))] |};
       {| a_name := "ijs"; a_ty := Tup (TExt "ds_1_Variables" (c_pat k_ds_1_Variables));
          a_checks := [(BIsNone EX)] |}] |}.

(** /repo/src/pymcnp/inp/ds_2/Variables.py:8-109 *)
Definition k_ds_2_Variables : cls :=
  {| c_name := "ds_2_Variables"; c_kind := KEntry; c_kw := L "";
     c_pat := L "\A(" ++ slice 2 2 pat_distribution ++ L ") (" ++ slice 2 2 pat_number ++ L ")\Z";
     c_attrs := [{| a_name := "independent"; a_ty := One TDist;
          a_checks := [(BIsNone EX)] |};
       {| a_name := "dependent"; a_ty := One TReal;
          a_checks := [(BIsNone EX)] |}] |}.

(** /repo/src/pymcnp/inp/Ds_2.py:9-122 *)
Definition k_Ds_2 : cls :=
  {| c_name := "Ds_2"; c_kind := (KOwn (OWord (L "q"))); c_kw := L "ds";
     c_pat := L "\Ads(\d+) q((?: " ++ slice 2 2 (c_pat k_ds_2_Variables) ++ L ")+?)\Z";
     c_attrs := [{| a_name := "suffix"; a_ty := One TInt;
          a_checks := [(BOr (BIsNone EX) (BNot (BAnd (BCmp OGe EX (EZ 1)) (BCmp OLe EX (EZ 999)))))] |};
       {| a_name := "vss"; a_ty := Tup (TExt "ds_2_Variables" (c_pat k_ds_2_Variables));
          a_checks := [(BIsNone EX)] |}] |}.

(** /repo/src/pymcnp/inp/Ds_3.py:8-121 *)
Definition k_Ds_3 : cls :=
  {| c_name := "Ds_3"; c_kind := (KOwn (OWord (L "s"))); c_kw := L "ds";
     c_pat := L "\Ads(\d+) s((?: " ++ slice 2 2 pat_distribution ++ L ")+)\Z";
     c_attrs := [{| a_name := "suffix"; a_ty := One TInt;
          a_checks := [(BOr (BIsNone EX) (BNot (BAnd (BCmp OGe EX (EZ 1)) (BCmp OLe EX (EZ 999)))))] |};
       {| a_name := "distributions"; a_ty := Tup TDist;
          a_checks := [(BIsNone EX)] |}] |}.

(** /repo/src/pymcnp/inp/Dxc.py:8-153 *)
Definition k_Dxc : cls :=
  {| c_name := "Dxc"; c_kind := KCard; c_kw := L "dxc";
     c_pat := L "\Adxc(\d+):(\S+)((?: " ++ slice 2 2 pat_number ++ L ")+?)\Z";
     c_attrs := [{| a_name := "suffix"; a_ty := One TInt;
          a_checks := [(BOr (BIsNone EX) (BNot (BCmp OLe EX (EZ 99999999))))] |};
       {| a_name := "designator"; a_ty := One TDesig;
          a_checks := [(BIsNone EX)] |};
       {| a_name := "probabilities"; a_ty := Tup TReal;
          a_checks := [(BIsNone EX)] |}] |}.

(** /repo/src/pymcnp/inp/dxt/Shell.py:8-239 *)
Definition k_dxt_Shell : cls :=
  {| c_name := "dxt_Shell"; c_kind := KEntry; c_kw := L "";
     c_pat := L "\A(" ++ slice 2 2 pat_number ++ L ") (" ++ slice 2 2 pat_number ++ L ") (" ++ slice 2 2 pat_number ++ L ") (" ++ slice 2 2 pat_number ++ L ") (" ++ slice 2 2 pat_number ++ L ")\Z";
     c_attrs := [{| a_name := "x"; a_ty := One TReal;
          a_checks := [(BIsNone EX)] |};
       {| a_name := "y"; a_ty := One TReal;
          a_checks := [(BIsNone EX)] |};
       {| a_name := "z"; a_ty := One TReal;
          a_checks := [(BIsNone EX)] |};
       {| a_name := "inner_radius"; a_ty := One TInt;
          a_checks := [(BIsNone EX)] |};
       {| a_name := "outer_radius"; a_ty := One TInt;
          a_checks := [(BIsNone EX)] |}] |}.

(** /repo/src/pymcnp/inp/Dxt.py:9-601 *)
Definition k_Dxt : cls :=
  {| c_name := "Dxt"; c_kind := KCard; c_kw := L "dxt";
     c_pat := L "\Adxt:(\S+)( \S+ \S+ \S+ \S+ \S+)( \S+ \S+ \S+ \S+ \S+)( \S+ \S+ \S+ \S+ \S+)( \S+ \S+ \S+ \S+ \S+)( \S+ \S+ \S+ \S+ \S+)( \S+ \S+ \S+ \S+ \S+)( \S+ \S+ \S+ \S+ \S+)( \S+ \S+ \S+ \S+ \S+)( \S+ \S+ \S+ \S+ \S+)( \S+ \S+ \S+ \S+ \S+)( " ++ slice 2 2 pat_number ++ L ")( " ++ slice 2 2 pat_number ++ L ")( " ++ slice 2 2 pat_number ++ L ")\Z";
     c_attrs := [{| a_name := "designator"; a_ty := One TDesig;
          a_checks := [(BIsNone EX)] |};
       {| a_name := "spheres_1"; a_ty := One (TExt "dxt_Shell" (c_pat k_dxt_Shell));
          a_checks := [(BIsNone EX)] |};
       {| a_name := "spheres_2"; a_ty := One (TExt "dxt_Shell" (c_pat k_dxt_Shell));
          a_checks := [(BIsNone EX)] |};
       {| a_name := "spheres_3"; a_ty := One (TExt "dxt_Shell" (c_pat k_dxt_Shell));
          a_checks := [(BIsNone EX)] |};
       {| a_name := "spheres_4"; a_ty := One (TExt "dxt_Shell" (c_pat k_dxt_Shell));
          a_checks := [(BIsNone EX)] |};
       {| a_name := "spheres_5"; a_ty := One (TExt "dxt_Shell" (c_pat k_dxt_Shell));
          a_checks := [(BIsNone EX)] |};
       {| a_name := "spheres_6"; a_ty := One (TExt "dxt_Shell" (c_pat k_dxt_Shell));
          a_checks := [(BIsNone EX)] |};
       {| a_name := "spheres_7"; a_ty := One (TExt "dxt_Shell" (c_pat k_dxt_Shell));
          a_checks := [(BIsNone EX)] |};
       {| a_name := "spheres_8"; a_ty := One (TExt "dxt_Shell" (c_pat k_dxt_Shell));
          a_checks := [(BIsNone EX)] |};
       {| a_name := "spheres_9"; a_ty := One (TExt "dxt_Shell" (c_pat k_dxt_Shell));
          a_checks := [(BIsNone EX)] |};
       {| a_name := "spheres_10"; a_ty := One (TExt "dxt_Shell" (c_pat k_dxt_Shell));
          a_checks := [(BIsNone EX)] |};
       {| a_name := "cutoff_1"; a_ty := One TReal;
          a_checks := [(BIsNone EX)] |};
       {| a_name := "cutoff_2"; a_ty := One TReal;
          a_checks := [(BIsNone EX)] |};
       {| a_name := "weight"; a_ty := One TReal;
          a_checks := [(BIsNone EX)] |}] |}.

(** /repo/src/pymcnp/inp/E.py:8-186 *)
Definition k_E : cls :=
  {| c_name := "E"; c_kind := KCard; c_kw := L "e";
     c_pat := L "\Ae(\d+)((?: " ++ slice 2 2 pat_number ++ L ")+?)( " ++ slice 2 2 pat_string ++ L ")?( " ++ slice 2 2 pat_string ++ L ")?\Z";
     c_attrs := [{| a_name := "suffix"; a_ty := One TInt;
          a_checks := [(BIsNone EX)] |};
       {| a_name := "bounds"; a_ty := Tup TReal;
          a_checks := [(BIsNone EX)] |};
       {| a_name := "nt"; a_ty := One TStr;
          a_checks := [] |};
       {| a_name := "c"; a_ty := One TStr;
          a_checks := [] |}] |}.

(** /repo/src/pymcnp/inp/Elpt.py:8-73 *)
Definition k_Elpt : cls :=
  {| c_name := "Elpt"; c_kind := KCard; c_kw := L "elpt";
     c_pat := L "\Aelpt((?: " ++ slice 2 2 pat_number ++ L ")+?)\Z";
     c_attrs := [{| a_name := "cutoffs"; a_ty := Tup TReal;
          a_checks := [(BIsNone EX)] |}] |}.

(** /repo/src/pymcnp/inp/Em.py:8-114 *)
Definition k_Em : cls :=
  {| c_name := "Em"; c_kind := KCard; c_kw := L "em";
     c_pat := L "\Aem(\d+)((?: " ++ slice 2 2 pat_number ++ L ")+?)\Z";
     c_attrs := [{| a_name := "suffix"; a_ty := One TInt;
          a_checks := [(BOr (BIsNone EX) (BNot (BCmp OLe EX (EZ 99999999))))] |};
       {| a_name := "multipliers"; a_ty := Tup TReal;
          a_checks := [(BIsNone EX)] |}] |}.

(** /repo/src/pymcnp/inp/Embdb.py:8-114 *)
Definition k_Embdb : cls :=
  {| c_name := "Embdb"; c_kind := KCard; c_kw := L "embdb";
     c_pat := L "\Aembdb(\d+)((?: " ++ slice 2 2 pat_number ++ L ")+?)\Z";
     c_attrs := [{| a_name := "suffix"; a_ty := One TInt;
          a_checks := [(BIsNone EX)] |};
       {| a_name := "bounds"; a_ty := Tup TReal;
          a_checks := [(BIsNone EX)] |}] |}.

(** /repo/src/pymcnp/inp/Embdf.py:8-114 *)
Definition k_Embdf : cls :=
  {| c_name := "Embdf"; c_kind := KCard; c_kw := L "embdf";
     c_pat := L "\Aembdf(\d+)((?: " ++ slice 2 2 pat_number ++ L ")+?)\Z";
     c_attrs := [{| a_name := "suffix"; a_ty := One TInt;
          a_checks := [(BIsNone EX)] |};
       {| a_name := "multipliers"; a_ty := Tup TReal;
          a_checks := [(BIsNone EX)] |}] |}.

(** /repo/src/pymcnp/inp/Embeb.py:8-114 *)
Definition k_Embeb : cls :=
  {| c_name := "Embeb"; c_kind := KCard; c_kw := L "embeb";
     c_pat := L "\Aembeb(\d+)((?: " ++ slice 2 2 pat_number ++ L ")+?)\Z";
     c_attrs := [{| a_name := "suffix"; a_ty := One TInt;
          a_checks := [(BIsNone EX)] |};
       {| a_name := "bounds"; a_ty := Tup TReal;
          a_checks := [(BIsNone EX)] |}] |}.

(** /repo/src/pymcnp/inp/embed/Background.py:8-70 *)
Definition k_embed_Background : cls :=
  {| c_name := "embed_Background"; c_kind := KOption; c_kw := L "background";
     c_pat := L "\Abackground( " ++ slice 2 2 pat_number ++ L ")\Z";
     c_attrs := [{| a_name := "number"; a_ty := One TInt;
          a_checks := [(BOr (BIsNone EX) (BNot (BAnd (BCmp OGe EX (EZ 1)) (BCmp OLe EX (EZ 99999999)))))] |}] |}.

(** /repo/src/pymcnp/inp/embed/matcell/Entry.py:8-111 *)
Definition k_embed_matcell_Entry : cls :=
  {| c_name := "embed_matcell_Entry"; c_kind := KEntry; c_kw := L "";
     c_pat := L "\A(" ++ slice 2 2 pat_number ++ L ") (" ++ slice 2 2 pat_number ++ L ")\Z";
     c_attrs := [{| a_name := "material"; a_ty := One TInt;
          a_checks := [(BOr (BIsNone EX) (BNot (BAnd (BCmp OLe (EZ 0) (EVal EX)) (BCmp OLe (EVal EX) (EZ 99999999)))))] |};
       {| a_name := "cell"; a_ty := One TInt;
          a_checks := [(BOr (BIsNone EX) (BNot (BAnd (BCmp OLe (EZ 0) (EVal EX)) (BCmp OLe (EVal EX) (EZ 99999999)))))] |}] |}.

(** /repo/src/pymcnp/inp/embed/Matcell.py:9-72 *)
Definition k_embed_Matcell : cls :=
  {| c_name := "embed_Matcell"; c_kind := KOption; c_kw := L "matcell";
     c_pat := L "\Amatcell((?: " ++ slice 2 2 (c_pat k_embed_matcell_Entry) ++ L ")+?)\Z";
     c_attrs := [{| a_name := "pairs"; a_ty := Tup (TExt "embed_matcell_Entry" (c_pat k_embed_matcell_Entry));
          a_checks := [(BIsNone EX)] |}] |}.

(** /repo/src/pymcnp/inp/embed/Meshgeo.py:8-68 *)
Definition k_embed_Meshgeo : cls :=
  {| c_name := "embed_Meshgeo"; c_kind := KOption; c_kw := L "meshgeo";
     c_pat := L "\Ameshgeo( " ++ slice 2 2 pat_string ++ L ")\Z";
     c_attrs := [{| a_name := "form"; a_ty := One TStr;
          a_checks := [(BOr (BIsNone EX) (BNot (BIn (ELower EX) [(ES (L "lnk3dnt")); (ES (L "abaqus")); (ES (L "mcnpum"))])))] |}] |}.

(** /repo/src/pymcnp/inp/embed/Mgeoin.py:8-68 *)
Definition k_embed_Mgeoin : cls :=
  {| c_name := "embed_Mgeoin"; c_kind := KOption; c_kw := L "mgeoin";
     c_pat := L "\Amgeoin( " ++ slice 2 2 pat_string ++ L ")\Z";
     c_attrs := [{| a_name := "filename"; a_ty := One TStr;
          a_checks := [(BIsNone EX)] |}] |}.

(** /repo/src/pymcnp/inp/embed/Meeout.py:8-68 *)
Definition k_embed_Meeout : cls :=
  {| c_name := "embed_Meeout"; c_kind := KOption; c_kw := L "meeout";
     c_pat := L "\Ameeout( " ++ slice 2 2 pat_string ++ L ")\Z";
     c_attrs := [{| a_name := "filename"; a_ty := One TStr;
          a_checks := [(BIsNone EX)] |}] |}.

(** /repo/src/pymcnp/inp/embed/Meein.py:8-68 *)
Definition k_embed_Meein : cls :=
  {| c_name := "embed_Meein"; c_kind := KOption; c_kw := L "meein";
     c_pat := L "\Ameein( " ++ slice 2 2 pat_string ++ L ")\Z";
     c_attrs := [{| a_name := "filename"; a_ty := One TStr;
          a_checks := [(BIsNone EX)] |}] |}.

(** /repo/src/pymcnp/inp/embed/Calcvols.py:8-68 *)
Definition k_embed_Calcvols : cls :=
  {| c_name := "embed_Calcvols"; c_kind := KOption; c_kw := L "calc_vols";
     c_pat := L "\Acalc_vols( " ++ slice 2 2 pat_string ++ L ")\Z";
     c_attrs := [{| a_name := "setting"; a_ty := One TStr;
          a_checks := [(BOr (BIsNone EX) (BNot (BIn (ELower EX) [(ES (L "yes")); (ES (L "no"))])))] |}] |}.

(** /repo/src/pymcnp/inp/embed/Debug.py:8-68 *)
Definition k_embed_Debug : cls :=
  {| c_name := "embed_Debug"; c_kind := KOption; c_kw := L "debug";
     c_pat := L "\Adebug( " ++ slice 2 2 pat_string ++ L ")\Z";
     c_attrs := [{| a_name := "parameter"; a_ty := One TStr;
          a_checks := [(BOr (BIsNone EX) (BNot (BIn (ELower EX) [(ES (L "echomesh"))])))] |}] |}.

(** /repo/src/pymcnp/inp/embed/Filetype.py:8-68 *)
Definition k_embed_Filetype : cls :=
  {| c_name := "embed_Filetype"; c_kind := KOption; c_kw := L "filetype";
     c_pat := L "\Afiletype( " ++ slice 2 2 pat_string ++ L ")\Z";
     c_attrs := [{| a_name := "kind"; a_ty := One TStr;
          a_checks := [(BOr (BIsNone EX) (BNot (BIn (ELower EX) [(ES (L "ascii")); (ES (L "binary"))])))] |}] |}.

(** /repo/src/pymcnp/inp/embed/Gmvfile.py:8-68 *)
Definition k_embed_Gmvfile : cls :=
  {| c_name := "embed_Gmvfile"; c_kind := KOption; c_kw := L "gmvfile";
     c_pat := L "\Agmvfile( " ++ slice 2 2 pat_string ++ L ")\Z";
     c_attrs := [{| a_name := "filename"; a_ty := One TStr;
          a_checks := [(BIsNone EX)] |}] |}.

(** /repo/src/pymcnp/inp/embed/Length.py:8-70 *)
Definition k_embed_Length : cls :=
  {| c_name := "embed_Length"; c_kind := KOption; c_kw := L "length";
     c_pat := L "\Alength( " ++ slice 2 2 pat_number ++ L ")\Z";
     c_attrs := [{| a_name := "factor"; a_ty := One TReal;
          a_checks := [(BOr (BIsNone EX) (BNot (BCmp OGt EX (EZ 0))))] |}] |}.

(** /repo/src/pymcnp/inp/embed/Mcnpumfile.py:8-68 *)
Definition k_embed_Mcnpumfile : cls :=
  {| c_name := "embed_Mcnpumfile"; c_kind := KOption; c_kw := L "mcnpumfile";
     c_pat := L "\Amcnpumfile( " ++ slice 2 2 pat_string ++ L ")\Z";
     c_attrs := [{| a_name := "filename"; a_ty := One TStr;
          a_checks := [(BIsNone EX)] |}] |}.

(** /repo/src/pymcnp/inp/embed/_option.py:4-9: the subclasses in definition order, and the pattern
    that _symbol.py:40-44 makes of theirs, longest class name first. *)
Definition f_embed_EmbedOption : list cls := [k_embed_Background; k_embed_Matcell; k_embed_Meshgeo; k_embed_Mgeoin; k_embed_Meeout; k_embed_Meein; k_embed_Calcvols; k_embed_Debug; k_embed_Filetype; k_embed_Gmvfile; k_embed_Length; k_embed_Mcnpumfile].
Definition pat_embed_EmbedOption : str := union_pat [c_pat k_embed_Background; c_pat k_embed_Mcnpumfile; c_pat k_embed_Calcvols; c_pat k_embed_Filetype; c_pat k_embed_Matcell; c_pat k_embed_Meshgeo; c_pat k_embed_Gmvfile; c_pat k_embed_Mgeoin; c_pat k_embed_Meeout; c_pat k_embed_Length; c_pat k_embed_Meein; c_pat k_embed_Debug].

(** /repo/src/pymcnp/inp/Embed.py:9-110 *)
Definition k_Embed : cls :=
  {| c_name := "Embed"; c_kind := KCard; c_kw := L "embed";
     c_pat := L "\Aembed(\d+)?((?: (?:" ++ slice 2 2 pat_embed_EmbedOption ++ L "))+?)?\Z";
     c_attrs := [{| a_name := "suffix"; a_ty := One TInt;
          a_checks := [(BIsNone EX)] |};
       {| a_name := "options"; a_ty := Tup (TExt "embed_EmbedOption" pat_embed_EmbedOption);
          a_checks := [] |}] |}.

(** /repo/src/pymcnp/inp/embee/Embed.py:8-70 *)
Definition k_embee_Embed : cls :=
  {| c_name := "embee_Embed"; c_kind := KOption; c_kw := L "embed";
     c_pat := L "\Aembed( " ++ slice 2 2 pat_number ++ L ")\Z";
     c_attrs := [{| a_name := "number"; a_ty := One TInt;
          a_checks := [(BOr (BIsNone EX) (BNot (BAnd (BCmp OGe EX (EZ 0)) (BCmp OLe EX (EZ 99999999)))))] |}] |}.

(** /repo/src/pymcnp/inp/embee/Energy.py:8-70 *)
Definition k_embee_Energy : cls :=
  {| c_name := "embee_Energy"; c_kind := KOption; c_kw := L "energy";
     c_pat := L "\Aenergy( " ++ slice 2 2 pat_number ++ L ")\Z";
     c_attrs := [{| a_name := "factor"; a_ty := One TReal;
          a_checks := [(BOr (BIsNone EX) (BNot (BCmp OGt EX (EZ 0))))] |}] |}.

(** /repo/src/pymcnp/inp/embee/Time.py:8-70 *)
Definition k_embee_Time : cls :=
  {| c_name := "embee_Time"; c_kind := KOption; c_kw := L "time";
     c_pat := L "\Atime( " ++ slice 2 2 pat_number ++ L ")\Z";
     c_attrs := [{| a_name := "factor"; a_ty := One TReal;
          a_checks := [(BOr (BIsNone EX) (BNot (BCmp OGt EX (EZ 0))))] |}] |}.

(** /repo/src/pymcnp/inp/embee/Atom.py:8-68 *)
Definition k_embee_Atom : cls :=
  {| c_name := "embee_Atom"; c_kind := KOption; c_kw := L "atom";
     c_pat := L "\Aatom( " ++ slice 2 2 pat_string ++ L ")\Z";
     c_attrs := [{| a_name := "setting"; a_ty := One TStr;
          a_checks := [(BOr (BIsNone EX) (BNot (BIn (ELower EX) [(ES (L "yes")); (ES (L "no"))])))] |}] |}.

(** /repo/src/pymcnp/inp/embee/Factor.py:8-70 *)
Definition k_embee_Factor : cls :=
  {| c_name := "embee_Factor"; c_kind := KOption; c_kw := L "factor";
     c_pat := L "\Afactor( " ++ slice 2 2 pat_number ++ L ")\Z";
     c_attrs := [{| a_name := "constant"; a_ty := One TReal;
          a_checks := [(BIsNone EX)] |}] |}.

(** /repo/src/pymcnp/inp/embee/List.py:8-70 *)
Definition k_embee_List : cls :=
  {| c_name := "embee_List"; c_kind := KOption; c_kw := L "list";
     c_pat := L "\Alist( " ++ slice 2 2 pat_number ++ L ")\Z";
     c_attrs := [{| a_name := "reactions"; a_ty := One TReal;
          a_checks := [(BIsNone EX)] |}] |}.

(** /repo/src/pymcnp/inp/embee/Mat.py:8-70 *)
Definition k_embee_Mat : cls :=
  {| c_name := "embee_Mat"; c_kind := KOption; c_kw := L "mat";
     c_pat := L "\Amat( " ++ slice 2 2 pat_number ++ L ")\Z";
     c_attrs := [{| a_name := "number"; a_ty := One TInt;
          a_checks := [(BOr (BIsNone EX) (BNot (BAnd (BCmp OGe EX (EZ 0)) (BCmp OLe EX (EZ 99999999)))))] |}] |}.

(** /repo/src/pymcnp/inp/embee/Mtype.py:8-68 *)
Definition k_embee_Mtype : cls :=
  {| c_name := "embee_Mtype"; c_kind := KOption; c_kw := L "mtype";
     c_pat := L "\Amtype( " ++ slice 2 2 pat_string ++ L ")\Z";
     c_attrs := [{| a_name := "kind"; a_ty := One TStr;
          a_checks := [(BOr (BIsNone EX) (BNot (BIn (ELower EX) [(ES (L "flux")); (ES (L "isotropic")); (ES (L "population")); (ES (L "reaction")); (ES (L "source")); (ES (L "track"))])))] |}] |}.

(** /repo/src/pymcnp/inp/embee/_option.py:4-9: the subclasses in definition order, and the pattern
    that _symbol.py:40-44 makes of theirs, longest class name first. *)
Definition f_embee_EmbeeOption : list cls := [k_embee_Embed; k_embee_Energy; k_embee_Time; k_embee_Atom; k_embee_Factor; k_embee_List; k_embee_Mat; k_embee_Mtype].
Definition pat_embee_EmbeeOption : str := union_pat [c_pat k_embee_Energy; c_pat k_embee_Factor; c_pat k_embee_Embed; c_pat k_embee_Mtype; c_pat k_embee_Time; c_pat k_embee_Atom; c_pat k_embee_List; c_pat k_embee_Mat].

(** /repo/src/pymcnp/inp/Embee.py:9-149 *)
Definition k_Embee : cls :=
  {| c_name := "Embee"; c_kind := KCard; c_kw := L "embee";
     c_pat := L "\Aembee(\d+):(\S+)((?: (?:" ++ slice 2 2 pat_embee_EmbeeOption ++ L "))+?)?\Z";
     c_attrs := [{| a_name := "suffix"; a_ty := One TInt;
          a_checks := [(BIsNone EX)] |};
       {| a_name := "designator"; a_ty := One TDesig;
          a_checks := [(BIsNone EX)] |};
       {| a_name := "options"; a_ty := Tup (TExt "embee_EmbeeOption" pat_embee_EmbeeOption);
          a_checks := [] |}] |}.

(** /repo/src/pymcnp/inp/Embem.py:8-114 *)
Definition k_Embem : cls :=
  {| c_name := "Embem"; c_kind := KCard; c_kw := L "embem";
     c_pat := L "\Aembem(\d+)((?: " ++ slice 2 2 pat_number ++ L ")+?)\Z";
     c_attrs := [{| a_name := "suffix"; a_ty := One TInt;
          a_checks := [(BIsNone EX)] |};
       {| a_name := "multipliers"; a_ty := Tup TReal;
          a_checks := [(BIsNone EX)] |}] |}.

(** /repo/src/pymcnp/inp/Embtb.py:8-114 *)
Definition k_Embtb : cls :=
  {| c_name := "Embtb"; c_kind := KCard; c_kw := L "embtb";
     c_pat := L "\Aembtb(\d+)((?: " ++ slice 2 2 pat_number ++ L ")+?)\Z";
     c_attrs := [{| a_name := "suffix"; a_ty := One TInt;
          a_checks := [(BIsNone EX)] |};
       {| a_name := "bounds"; a_ty := Tup TReal;
          a_checks := [(BIsNone EX)] |}] |}.

(** /repo/src/pymcnp/inp/Embtm.py:8-114 *)
Definition k_Embtm : cls :=
  {| c_name := "Embtm"; c_kind := KCard; c_kw := L "embtm";
     c_pat := L "\Aembtm(\d+)((?: " ++ slice 2 2 pat_number ++ L ")+?)\Z";
     c_attrs := [{| a_name := "suffix"; a_ty := One TInt;
          a_checks := [(BIsNone EX)] |};
       {| a_name := "multipliers"; a_ty := Tup TReal;
          a_checks := [(BIsNone EX)] |}] |}.

(** /repo/src/pymcnp/inp/Esplt.py:8-1634 *)
Definition k_Esplt : cls :=
  {| c_name := "Esplt"; c_kind := KCard; c_kw := L "esplt";
     c_pat := L "\Aesplt:(\S+)( " ++ slice 2 2 pat_number ++ L ")?( " ++ slice 2 2 pat_number ++ L ")?( " ++ slice 2 2 pat_number ++ L ")?( " ++ slice 2 2 pat_number ++ L ")?( " ++ slice 2 2 pat_number ++ L ")?( " ++ slice 2 2 pat_number ++ L ")?( " ++ slice 2 2 pat_number ++ L ")?( " ++ slice 2 2 pat_number ++ L ")?( " ++ slice 2 2 pat_number ++ L ")?( " ++ slice 2 2 pat_number ++ L ")?( " ++ slice 2 2 pat_number ++ L ")?( " ++ slice 2 2 pat_number ++ L ")?( " ++ slice 2 2 pat_number ++ L ")?( " ++ slice 2 2 pat_number ++ L ")?( " ++ slice 2 2 pat_number ++ L ")?( " ++ slice 2 2 pat_number ++ L ")?( " ++ slice 2 2 pat_number ++ L ")?( " ++ slice 2 2 pat_number ++ L ")?( " ++ slice 2 2 pat_number ++ L ")?( " ++ slice 2 2 pat_number ++ L ")?( " ++ slice 2 2 pat_number ++ L ")?( " ++ slice 2 2 pat_number ++ L ")?( " ++ slice 2 2 pat_number ++ L ")?( " ++ slice 2 2 pat_number ++ L ")?( " ++ slice 2 2 pat_number ++ L ")?( " ++ slice 2 2 pat_number ++ L ")?( " ++ slice 2 2 pat_number ++ L ")?( " ++ slice 2 2 pat_number ++ L ")?( " ++ slice 2 2 pat_number ++ L ")?( " ++ slice 2 2 pat_number ++ L ")?( " ++ slice 2 2 pat_number ++ L ")?( " ++ slice 2 2 pat_number ++ L ")?( " ++ slice 2 2 pat_number ++ L ")?( " ++ slice 2 2 pat_number ++ L ")?( " ++ slice 2 2 pat_number ++ L ")?( " ++ slice 2 2 pat_number ++ L ")?( " ++ slice 2 2 pat_number ++ L ")?( " ++ slice 2 2 pat_number ++ L ")?( " ++ slice 2 2 pat_number ++ L ")?( " ++ slice 2 2 pat_number ++ L ")?\Z";
     c_attrs := [{| a_name := "designator"; a_ty := One TDesig;
          a_checks := [(BIsNone EX)] |};
       {| a_name := "ratio_1"; a_ty := One TReal;
          a_checks := [] |};
       {| a_name := "energy_1"; a_ty := One TReal;
          a_checks := [] |};
       {| a_name := "ratio_2"; a_ty := One TReal;
          a_checks := [] |};
       {| a_name := "energy_2"; a_ty := One TReal;
          a_checks := [] |};
       {| a_name := "ratio_3"; a_ty := One TReal;
          a_checks := [] |};
       {| a_name := "energy_3"; a_ty := One TReal;
          a_checks := [] |};
       {| a_name := "ratio_4"; a_ty := One TReal;
          a_checks := [] |};
       {| a_name := "energy_4"; a_ty := One TReal;
          a_checks := [] |};
       {| a_name := "ratio_5"; a_ty := One TReal;
          a_checks := [] |};
       {| a_name := "energy_5"; a_ty := One TReal;
          a_checks := [] |};
       {| a_name := "ratio_6"; a_ty := One TReal;
          a_checks := [] |};
       {| a_name := "energy_6"; a_ty := One TReal;
          a_checks := [] |};
       {| a_name := "ratio_7"; a_ty := One TReal;
          a_checks := [] |};
       {| a_name := "energy_7"; a_ty := One TReal;
          a_checks := [] |};
       {| a_name := "ratio_8"; a_ty := One TReal;
          a_checks := [] |};
       {| a_name := "energy_8"; a_ty := One TReal;
          a_checks := [] |};
       {| a_name := "ratio_9"; a_ty := One TReal;
          a_checks := [] |};
       {| a_name := "energy_9"; a_ty := One TReal;
          a_checks := [] |};
       {| a_name := "ratio_10"; a_ty := One TReal;
          a_checks := [] |};
       {| a_name := "energy_10"; a_ty := One TReal;
          a_checks := [] |};
       {| a_name := "ratio_11"; a_ty := One TReal;
          a_checks := [] |};
       {| a_name := "energy_11"; a_ty := One TReal;
          a_checks := [] |};
       {| a_name := "ratio_12"; a_ty := One TReal;
          a_checks := [] |};
       {| a_name := "energy_12"; a_ty := One TReal;
          a_checks := [] |};
       {| a_name := "ratio_13"; a_ty := One TReal;
          a_checks := [] |};
       {| a_name := "energy_13"; a_ty := One TReal;
          a_checks := [] |};
       {| a_name := "ratio_14"; a_ty := One TReal;
          a_checks := [] |};
       {| a_name := "energy_14"; a_ty := One TReal;
          a_checks := [] |};
       {| a_name := "ratio_15"; a_ty := One TReal;
          a_checks := [] |};
       {| a_name := "energy_15"; a_ty := One TReal;
          a_checks := [] |};
       {| a_name := "ratio_16"; a_ty := One TReal;
          a_checks := [] |};
       {| a_name := "energy_16"; a_ty := One TReal;
          a_checks := [] |};
       {| a_name := "ratio_17"; a_ty := One TReal;
          a_checks := [] |};
       {| a_name := "energy_17"; a_ty := One TReal;
          a_checks := [] |};
       {| a_name := "ratio_18"; a_ty := One TReal;
          a_checks := [] |};
       {| a_name := "energy_18"; a_ty := One TReal;
          a_checks := [] |};
       {| a_name := "ratio_19"; a_ty := One TReal;
          a_checks := [] |};
       {| a_name := "energy_19"; a_ty := One TReal;
          a_checks := [] |};
       {| a_name := "ratio_20"; a_ty := One TReal;
          a_checks := [] |};
       {| a_name := "energy_20"; a_ty := One TReal;
          a_checks := [] |}] |}.

(** /repo/src/pymcnp/inp/Ext.py:8-110 *)
Definition k_Ext : cls :=
  {| c_name := "Ext"; c_kind := KCard; c_kw := L "ext";
     c_pat := L "\Aext:(\S+)((?: " ++ slice 2 2 pat_string ++ L ")+?)\Z";
     c_attrs := [{| a_name := "designator"; a_ty := One TDesig;
          a_checks := [(BIsNone EX)] |};
       {| a_name := "stretching"; a_ty := Tup TStr;
          a_checks := [(BIsNone EX)] |}] |}.

(** /repo/src/pymcnp/inp/F_0.py:8-235 *)
Definition k_F_0 : cls :=
  {| c_name := "F_0"; c_kind := KCard; c_kw := L "f";
     c_pat := L "\A([*+])?f(\d*[123467])(?::(\S+))?((?: " ++ slice 2 2 pat_number ++ L ")+?)( t)?\Z";
     c_attrs := [{| a_name := "prefix"; a_ty := One TStr;
          a_checks := [(BAnd (BNot (BIsNone EX)) (BNot (BIn (ELower EX) [(ES (L "*")); (ES (L "+"))])))] |};
       {| a_name := "suffix"; a_ty := One TInt;
          a_checks := [(BOr (BIsNone EX) (BNot (BAnd (BCmp OLe EX (EZ 99999999)) (BIn (EMod EX 10) [(EZ 1); (EZ 2); (EZ 4); (EZ 6); (EZ 7)]))))] |};
       {| a_name := "designator"; a_ty := One TDesig;
          a_checks := [] |};
       {| a_name := "problems"; a_ty := Tup TInt;
          a_checks := [(BIsNone EX)] |};
       {| a_name := "t"; a_ty := One TStr;
          a_checks := [(BAnd (BNot (BIsNone EX)) (BNot (BIn (ELower EX) [(ES (L "t"))])))] |}] |}.

(** /repo/src/pymcnp/inp/f_1/Sphere.py:8-193 *)
Definition k_f_1_Sphere : cls :=
  {| c_name := "f_1_Sphere"; c_kind := KEntry; c_kw := L "";
     c_pat := L "\A(" ++ slice 2 2 pat_number ++ L ") (" ++ slice 2 2 pat_number ++ L ") (" ++ slice 2 2 pat_number ++ L ") (" ++ slice 2 2 pat_number ++ L ")\Z";
     c_attrs := [{| a_name := "x"; a_ty := One TReal;
          a_checks := [(BIsNone EX)] |};
       {| a_name := "y"; a_ty := One TReal;
          a_checks := [(BIsNone EX)] |};
       {| a_name := "z"; a_ty := One TInt;
          a_checks := [(BIsNone EX)] |};
       {| a_name := "ro"; a_ty := One TInt;
          a_checks := [(BIsNone EX)] |}] |}.

(** /repo/src/pymcnp/inp/F_1.py:9-229 *)
Definition k_F_1 : cls :=
  {| c_name := "F_1"; c_kind := KCard; c_kw := L "f";
     c_pat := L "\A([*+])?f(\d*[5])(?::(\S+))?((?: \S+ \S+ \S+ \S+)+?)( nd)?\Z";
     c_attrs := [{| a_name := "prefix"; a_ty := One TStr;
          a_checks := [(BAnd (BNot (BIsNone EX)) (BNot (BIn (ELower EX) [(ES (L "*")); (ES (L "+"))])))] |};
       {| a_name := "suffix"; a_ty := One TInt;
          a_checks := [(BOr (BIsNone EX) (BNot (BAnd (BCmp OLe EX (EZ 99999999)) (BCmp OEq (EMod EX 10) (EZ 5)))))] |};
       {| a_name := "designator"; a_ty := One TDesig;
          a_checks := [] |};
       {| a_name := "spheres"; a_ty := Tup (TExt "f_1_Sphere" (c_pat k_f_1_Sphere));
          a_checks := [(BIsNone EX)] |};
       {| a_name := "nd"; a_ty := One TStr;
          a_checks := [(BAnd (BNot (BIsNone EX)) (BNot (BCmp OEq EX (ES (L "nd")))))] |}] |}.

(** /repo/src/pymcnp/inp/f_2/Ring.py:8-152 *)
Definition k_f_2_Ring : cls :=
  {| c_name := "f_2_Ring"; c_kind := KEntry; c_kw := L "";
     c_pat := L "\A(" ++ slice 2 2 pat_number ++ L ") (" ++ slice 2 2 pat_number ++ L ") (" ++ slice 2 2 pat_number ++ L ")\Z";
     c_attrs := [{| a_name := "distance"; a_ty := One TReal;
          a_checks := [(BIsNone EX)] |};
       {| a_name := "radius"; a_ty := One TReal;
          a_checks := [(BIsNone EX)] |};
       {| a_name := "ro"; a_ty := One TInt;
          a_checks := [(BIsNone EX)] |}] |}.

(** /repo/src/pymcnp/inp/F_2.py:9-284 *)
Definition k_F_2 : cls :=
  {| c_name := "F_2"; c_kind := (KOwn ORings); c_kw := L "f";
     c_pat := L "\A([*+])?f(\d*[5])([xyz])(?::(\S+))?((?: \S+ \S+ \S+)+?)( nd)?\Z";
     c_attrs := [{| a_name := "prefix"; a_ty := One TStr;
          a_checks := [(BAnd (BNot (BIsNone EX)) (BNot (BIn (ELower EX) [(ES (L "*")); (ES (L "+"))])))] |};
       {| a_name := "suffix"; a_ty := One TInt;
          a_checks := [(BOr (BIsNone EX) (BNot (BAnd (BCmp OLe EX (EZ 99999999)) (BCmp OEq (EMod EX 10) (EZ 5)))))] |};
       {| a_name := "a"; a_ty := One TStr;
          a_checks := [(BOr (BIsNone EX) (BNot (BIn (ELower EX) [(ES (L "x")); (ES (L "y")); (ES (L "z"))])))] |};
       {| a_name := "designator"; a_ty := One TDesig;
          a_checks := [] |};
       {| a_name := "rings"; a_ty := Tup (TExt "f_2_Ring" (c_pat k_f_2_Ring));
          a_checks := [(BIsNone EX)] |};
       {| a_name := "nd"; a_ty := One TStr;
          a_checks := [(BAnd (BNot (BIsNone EX)) (BNot (BCmp OEq EX (ES (L "nd")))))] |}] |}.

(** /repo/src/pymcnp/inp/F_3.py:8-232 *)
Definition k_F_3 : cls :=
  {| c_name := "F_3"; c_kind := KCard; c_kw := L "f";
     c_pat := L "\A([*+])?f(\d*[8])(?::(\S+))?((?: " ++ slice 2 2 pat_number ++ L ")+?)( t)?\Z";
     c_attrs := [{| a_name := "prefix"; a_ty := One TStr;
          a_checks := [(BAnd (BNot (BIsNone EX)) (BNot (BIn (ELower EX) [(ES (L "*")); (ES (L "+"))])))] |};
       {| a_name := "suffix"; a_ty := One TInt;
          a_checks := [(BOr (BIsNone EX) (BNot (BAnd (BCmp OLe EX (EZ 99999999)) (BCmp OEq (EMod EX 10) (EZ 8)))))] |};
       {| a_name := "designator"; a_ty := One TDesig;
          a_checks := [] |};
       {| a_name := "problems"; a_ty := Tup TInt;
          a_checks := [(BIsNone EX)] |};
       {| a_name := "t"; a_ty := One TStr;
          a_checks := [] |}] |}.

(** /repo/src/pymcnp/inp/F_4.py:8-233 *)
Definition k_F_4 : cls :=
  {| c_name := "F_4"; c_kind := KCard; c_kw := L "f";
     c_pat := L "\A([*+])?f(\d*[123467])(?::(\S+))?((?: " ++ slice 3 3 Lattice.pat_lattice ++ L ")+?)( t)?\Z";
     c_attrs := [{| a_name := "prefix"; a_ty := One TStr;
          a_checks := [(BAnd (BNot (BIsNone EX)) (BNot (BIn (ELower EX) [(ES (L "*")); (ES (L "+"))])))] |};
       {| a_name := "suffix"; a_ty := One TInt;
          a_checks := [(BOr (BIsNone EX) (BNot (BAnd (BCmp OLe EX (EZ 99999999)) (BIn (EMod EX 10) [(EZ 1); (EZ 2); (EZ 4); (EZ 6); (EZ 7)]))))] |};
       {| a_name := "designator"; a_ty := One TDesig;
          a_checks := [] |};
       {| a_name := "problems"; a_ty := Tup TLat;
          a_checks := [(BIsNone EX)] |};
       {| a_name := "t"; a_ty := One TStr;
          a_checks := [(BAnd (BNot (BIsNone EX)) (BNot (BIn (ELower EX) [(ES (L "t"))])))] |}] |}.

(** /repo/src/pymcnp/inp/Fc.py:8-109 *)
Definition k_Fc : cls :=
  {| c_name := "Fc"; c_kind := KCard; c_kw := L "fc";
     c_pat := L "\Afc(\d+)( [\S\s]+)\Z";
     c_attrs := [{| a_name := "suffix"; a_ty := One TInt;
          a_checks := [(BOr (BIsNone EX) (BNot (BCmp OLe EX (EZ 99999999))))] |};
       {| a_name := "info"; a_ty := One TStr;
          a_checks := [(BIsNone EX)] |}] |}.

(** /repo/src/pymcnp/inp/Fcl.py:8-112 *)
Definition k_Fcl : cls :=
  {| c_name := "Fcl"; c_kind := KCard; c_kw := L "fcl";
     c_pat := L "\Afcl:(\S+)((?: " ++ slice 2 2 pat_number ++ L ")+?)\Z";
     c_attrs := [{| a_name := "designator"; a_ty := One TDesig;
          a_checks := [(BIsNone EX)] |};
       {| a_name := "control"; a_ty := Tup TReal;
          a_checks := [(BIsNone EX)] |}] |}.

(** /repo/src/pymcnp/inp/Fic.py:8-536 *)
Definition k_Fic : cls :=
  {| c_name := "Fic"; c_kind := KCard; c_kw := L "fic";
     c_pat := L "\Afic(\d+):(\S+)( " ++ slice 2 2 pat_number ++ L ")( " ++ slice 2 2 pat_number ++ L ")( " ++ slice 2 2 pat_number ++ L ")( " ++ slice 2 2 pat_number ++ L ")( " ++ slice 2 2 pat_number ++ L ")( " ++ slice 2 2 pat_number ++ L ")( " ++ slice 2 2 pat_number ++ L ")( " ++ slice 2 2 pat_number ++ L ")( " ++ slice 2 2 pat_number ++ L ")( " ++ slice 2 2 pat_number ++ L ")\Z";
     c_attrs := [{| a_name := "suffix"; a_ty := One TInt;
          a_checks := [(BOr (BIsNone EX) (BNot (BAnd (BCmp OLe EX (EZ 99999999)) (BCmp OEq (EMod EX 10) (EZ 5)))))] |};
       {| a_name := "designator"; a_ty := One TDesig;
          a_checks := [(BIsNone EX)] |};
       {| a_name := "x1"; a_ty := One TReal;
          a_checks := [(BIsNone EX)] |};
       {| a_name := "y1"; a_ty := One TReal;
          a_checks := [(BIsNone EX)] |};
       {| a_name := "z1"; a_ty := One TReal;
          a_checks := [(BIsNone EX)] |};
       {| a_name := "ro"; a_ty := One TReal;
          a_checks := [(BOr (BIsNone EX) (BNot (BCmp OEq EX (EZ 0))))] |};
       {| a_name := "x2"; a_ty := One TReal;
          a_checks := [(BIsNone EX)] |};
       {| a_name := "y2"; a_ty := One TReal;
          a_checks := [(BIsNone EX)] |};
       {| a_name := "z2"; a_ty := One TReal;
          a_checks := [(BIsNone EX)] |};
       {| a_name := "f1"; a_ty := One TReal;
          a_checks := [(BOr (BIsNone EX) (BNot (BIn EX [(EZ 0); (EZ (-1))])))] |};
       {| a_name := "f2"; a_ty := One TReal;
          a_checks := [(BOr (BIsNone EX) (BNot (BCmp ONe EX (EZ 0))))] |};
       {| a_name := "f3"; a_ty := One TReal;
          a_checks := [(BOr (BIsNone EX) (BNot (BIn EX [(EZ 0); (EZ (-1))])))] |}] |}.

(** /repo/src/pymcnp/inp/files/File.py:8-227 *)
Definition k_files_File : cls :=
  {| c_name := "files_File"; c_kind := KEntry; c_kw := L "";
     c_pat := L "\A(\S+) (\S+)(?: (\S+))?(?: (\S+))?(?: (\S+))?\Z";
     c_attrs := [{| a_name := "unit"; a_ty := One TInt;
          a_checks := [(BIsNone EX)] |};
       {| a_name := "filename"; a_ty := One TStr;
          a_checks := [(BIsNone EX)] |};
       {| a_name := "access"; a_ty := One TStr;
          a_checks := [(BAnd (BNot (BIsNone EX)) (BNot (BIn (ELower EX) [(ES (L "sequential")); (ES (L "direct")); (ES (L "s")); (ES (L "d"))])))] |};
       {| a_name := "form"; a_ty := One TStr;
          a_checks := [(BAnd (BNot (BIsNone EX)) (BNot (BIn (ELower EX) [(ES (L "formatted")); (ES (L "unformatted")); (ES (L "f")); (ES (L "u"))])))] |};
       {| a_name := "length"; a_ty := One TInt;
          a_checks := [] |}] |}.

(** /repo/src/pymcnp/inp/Files.py:9-72 *)
Definition k_Files : cls :=
  {| c_name := "Files"; c_kind := KCard; c_kw := L "files";
     c_pat := L "\Afiles((?: " ++ slice 2 2 (c_pat k_files_File) ++ L ")+?)\Z";
     c_attrs := [{| a_name := "creations"; a_ty := Tup (TExt "files_File" (c_pat k_files_File));
          a_checks := [(BIsNone EX)] |}] |}.

(** /repo/src/pymcnp/inp/Fill.py:8-73 *)
Definition k_Fill : cls :=
  {| c_name := "Fill"; c_kind := KCard; c_kw := L "fill";
     c_pat := L "\Afill((?: " ++ slice 2 2 pat_number ++ L ")+?)\Z";
     c_attrs := [{| a_name := "numbers"; a_ty := Tup TInt;
          a_checks := [(BIsNone EX)] |}] |}.

(** /repo/src/pymcnp/inp/Fip.py:8-536 *)
Definition k_Fip : cls :=
  {| c_name := "Fip"; c_kind := KCard; c_kw := L "fip";
     c_pat := L "\Afip(\d+):(\S+)( " ++ slice 2 2 pat_number ++ L ")( " ++ slice 2 2 pat_number ++ L ")( " ++ slice 2 2 pat_number ++ L ")( " ++ slice 2 2 pat_number ++ L ")( " ++ slice 2 2 pat_number ++ L ")( " ++ slice 2 2 pat_number ++ L ")( " ++ slice 2 2 pat_number ++ L ")( " ++ slice 2 2 pat_number ++ L ")( " ++ slice 2 2 pat_number ++ L ")( " ++ slice 2 2 pat_number ++ L ")\Z";
     c_attrs := [{| a_name := "suffix"; a_ty := One TInt;
          a_checks := [(BOr (BIsNone EX) (BNot (BAnd (BCmp OLe EX (EZ 99999999)) (BCmp OEq (EMod EX 10) (EZ 5)))))] |};
       {| a_name := "designator"; a_ty := One TDesig;
          a_checks := [(BIsNone EX)] |};
       {| a_name := "x1"; a_ty := One TReal;
          a_checks := [(BIsNone EX)] |};
       {| a_name := "y1"; a_ty := One TReal;
          a_checks := [(BIsNone EX)] |};
       {| a_name := "z1"; a_ty := One TReal;
          a_checks := [(BIsNone EX)] |};
       {| a_name := "ro"; a_ty := One TReal;
          a_checks := [(BOr (BIsNone EX) (BNot (BCmp OEq EX (EZ 0))))] |};
       {| a_name := "x2"; a_ty := One TReal;
          a_checks := [(BIsNone EX)] |};
       {| a_name := "y2"; a_ty := One TReal;
          a_checks := [(BIsNone EX)] |};
       {| a_name := "z2"; a_ty := One TReal;
          a_checks := [(BIsNone EX)] |};
       {| a_name := "f1"; a_ty := One TReal;
          a_checks := [(BOr (BIsNone EX) (BNot (BCmp OGe EX (EZ 0))))] |};
       {| a_name := "f2"; a_ty := One TReal;
          a_checks := [(BOr (BIsNone EX) (BNot (BCmp OGe EX (EZ 0))))] |};
       {| a_name := "f3"; a_ty := One TReal;
          a_checks := [(BOr (BIsNone EX) (BNot (BCmp OGe EX (EZ 0))))] |}] |}.

(** /repo/src/pymcnp/inp/Fir.py:8-533 *)
Definition k_Fir : cls :=
  {| c_name := "Fir"; c_kind := KCard; c_kw := L "fir";
     c_pat := L "\Afir(\d+)(?::(\S+))?( " ++ slice 2 2 pat_number ++ L ")( " ++ slice 2 2 pat_number ++ L ")( " ++ slice 2 2 pat_number ++ L ")( " ++ slice 2 2 pat_number ++ L ")( " ++ slice 2 2 pat_number ++ L ")( " ++ slice 2 2 pat_number ++ L ")( " ++ slice 2 2 pat_number ++ L ")( " ++ slice 2 2 pat_number ++ L ")( " ++ slice 2 2 pat_number ++ L ")( " ++ slice 2 2 pat_number ++ L ")\Z";
     c_attrs := [{| a_name := "suffix"; a_ty := One TInt;
          a_checks := [(BOr (BIsNone EX) (BNot (BAnd (BCmp OLe EX (EZ 99999999)) (BCmp OEq (EMod EX 10) (EZ 5)))))] |};
       {| a_name := "designator"; a_ty := One TDesig;
          a_checks := [] |};
       {| a_name := "x1"; a_ty := One TReal;
          a_checks := [(BIsNone EX)] |};
       {| a_name := "y1"; a_ty := One TReal;
          a_checks := [(BIsNone EX)] |};
       {| a_name := "z1"; a_ty := One TReal;
          a_checks := [(BIsNone EX)] |};
       {| a_name := "ro"; a_ty := One TReal;
          a_checks := [(BOr (BIsNone EX) (BNot (BCmp OEq EX (EZ 0))))] |};
       {| a_name := "x2"; a_ty := One TReal;
          a_checks := [(BIsNone EX)] |};
       {| a_name := "y2"; a_ty := One TReal;
          a_checks := [(BIsNone EX)] |};
       {| a_name := "z2"; a_ty := One TReal;
          a_checks := [(BIsNone EX)] |};
       {| a_name := "f1"; a_ty := One TReal;
          a_checks := [(BOr (BIsNone EX) (BNot (BIn EX [(EZ 0); (EZ (-1)); (EZ 1)])))] |};
       {| a_name := "f2"; a_ty := One TReal;
          a_checks := [(BIsNone EX)] |};
       {| a_name := "f3"; a_ty := One TReal;
          a_checks := [(BOr (BIsNone EX) (BNot (BIn EX [(EZ 0); (EZ (-1)); (EZ 1)])))] |}] |}.

(** /repo/src/pymcnp/inp/Fm.py:8-148 *)
Definition k_Fm : cls :=
  {| c_name := "Fm"; c_kind := KCard; c_kw := L "fm";
     c_pat := L "\A([+*])?fm(\d+)( [\S\s]+)\Z";
     c_attrs := [{| a_name := "prefix"; a_ty := One TStr;
          a_checks := [(BAnd (BNot (BIsNone EX)) (BNot (BIn (ELower EX) [(ES (L "*")); (ES (L "+"))])))] |};
       {| a_name := "suffix"; a_ty := One TInt;
          a_checks := [(BOr (BIsNone EX) (BNot (BCmp OLe EX (EZ 99999999))))] |};
       {| a_name := "bins"; a_ty := One TStr;
          a_checks := [(BIsNone EX)] |}] |}.

(** /repo/src/pymcnp/inp/fmesh/Geom.py:8-68 *)
Definition k_fmesh_Geom : cls :=
  {| c_name := "fmesh_Geom"; c_kind := KOption; c_kw := L "geom";
     c_pat := L "\Ageom(?: (xyz|rec|rzt|cyl))\Z";
     c_attrs := [{| a_name := "geometry"; a_ty := One TStr;
          a_checks := [(BOr (BIsNone EX) (BNot (BIn (ELower EX) [(ES (L "xyz")); (ES (L "rec")); (ES (L "rzt")); (ES (L "cyl"))])))] |}] |}.

(** /repo/src/pymcnp/inp/fmesh/Origin.py:8-152 *)
Definition k_fmesh_Origin : cls :=
  {| c_name := "fmesh_Origin"; c_kind := KOption; c_kw := L "origin";
     c_pat := L "\Aorigin( " ++ slice 2 2 pat_number ++ L ")( " ++ slice 2 2 pat_number ++ L ")( " ++ slice 2 2 pat_number ++ L ")\Z";
     c_attrs := [{| a_name := "x"; a_ty := One TReal;
          a_checks := [(BIsNone EX)] |};
       {| a_name := "y"; a_ty := One TReal;
          a_checks := [(BIsNone EX)] |};
       {| a_name := "z"; a_ty := One TReal;
          a_checks := [(BIsNone EX)] |}] |}.

(** /repo/src/pymcnp/inp/fmesh/Axs.py:8-152 *)
Definition k_fmesh_Axs : cls :=
  {| c_name := "fmesh_Axs"; c_kind := KOption; c_kw := L "axs";
     c_pat := L "\Aaxs( " ++ slice 2 2 pat_number ++ L ")( " ++ slice 2 2 pat_number ++ L ")( " ++ slice 2 2 pat_number ++ L ")\Z";
     c_attrs := [{| a_name := "x"; a_ty := One TReal;
          a_checks := [(BIsNone EX)] |};
       {| a_name := "y"; a_ty := One TReal;
          a_checks := [(BIsNone EX)] |};
       {| a_name := "z"; a_ty := One TReal;
          a_checks := [(BIsNone EX)] |}] |}.

(** /repo/src/pymcnp/inp/fmesh/Vec.py:8-152 *)
Definition k_fmesh_Vec : cls :=
  {| c_name := "fmesh_Vec"; c_kind := KOption; c_kw := L "vec";
     c_pat := L "\Avec( " ++ slice 2 2 pat_number ++ L ")( " ++ slice 2 2 pat_number ++ L ")( " ++ slice 2 2 pat_number ++ L ")\Z";
     c_attrs := [{| a_name := "x"; a_ty := One TReal;
          a_checks := [(BIsNone EX)] |};
       {| a_name := "y"; a_ty := One TReal;
          a_checks := [(BIsNone EX)] |};
       {| a_name := "z"; a_ty := One TReal;
          a_checks := [(BIsNone EX)] |}] |}.

(** /repo/src/pymcnp/inp/fmesh/Imesh.py:8-73 *)
Definition k_fmesh_Imesh : cls :=
  {| c_name := "fmesh_Imesh"; c_kind := KOption; c_kw := L "imesh";
     c_pat := L "\Aimesh((?: " ++ slice 2 2 pat_number ++ L ")+?)\Z";
     c_attrs := [{| a_name := "locations"; a_ty := Tup TReal;
          a_checks := [(BIsNone EX)] |}] |}.

(** /repo/src/pymcnp/inp/fmesh/Iints.py:8-73 *)
Definition k_fmesh_Iints : cls :=
  {| c_name := "fmesh_Iints"; c_kind := KOption; c_kw := L "iints";
     c_pat := L "\Aiints((?: " ++ slice 2 2 pat_number ++ L ")+?)\Z";
     c_attrs := [{| a_name := "count"; a_ty := Tup TInt;
          a_checks := [(BIsNone EX)] |}] |}.

(** /repo/src/pymcnp/inp/fmesh/Jmesh.py:8-73 *)
Definition k_fmesh_Jmesh : cls :=
  {| c_name := "fmesh_Jmesh"; c_kind := KOption; c_kw := L "jmesh";
     c_pat := L "\Ajmesh((?: " ++ slice 2 2 pat_number ++ L ")+?)\Z";
     c_attrs := [{| a_name := "locations"; a_ty := Tup TReal;
          a_checks := [(BIsNone EX)] |}] |}.

(** /repo/src/pymcnp/inp/fmesh/Jints.py:8-73 *)
Definition k_fmesh_Jints : cls :=
  {| c_name := "fmesh_Jints"; c_kind := KOption; c_kw := L "jints";
     c_pat := L "\Ajints((?: " ++ slice 2 2 pat_number ++ L ")+?)\Z";
     c_attrs := [{| a_name := "count"; a_ty := Tup TInt;
          a_checks := [(BIsNone EX)] |}] |}.

(** /repo/src/pymcnp/inp/fmesh/Kmesh.py:8-73 *)
Definition k_fmesh_Kmesh : cls :=
  {| c_name := "fmesh_Kmesh"; c_kind := KOption; c_kw := L "kmesh";
     c_pat := L "\Akmesh((?: " ++ slice 2 2 pat_number ++ L ")+?)\Z";
     c_attrs := [{| a_name := "locations"; a_ty := Tup TReal;
          a_checks := [(BIsNone EX)] |}] |}.

(** /repo/src/pymcnp/inp/fmesh/Kints.py:8-73 *)
Definition k_fmesh_Kints : cls :=
  {| c_name := "fmesh_Kints"; c_kind := KOption; c_kw := L "kints";
     c_pat := L "\Akints((?: " ++ slice 2 2 pat_number ++ L ")+?)\Z";
     c_attrs := [{| a_name := "count"; a_ty := Tup TInt;
          a_checks := [(BIsNone EX)] |}] |}.

(** /repo/src/pymcnp/inp/fmesh/Emesh.py:8-70 *)
Definition k_fmesh_Emesh : cls :=
  {| c_name := "fmesh_Emesh"; c_kind := KOption; c_kw := L "emesh";
     c_pat := L "\Aemesh( " ++ slice 2 2 pat_number ++ L ")\Z";
     c_attrs := [{| a_name := "energy"; a_ty := One TReal;
          a_checks := [(BIsNone EX)] |}] |}.

(** /repo/src/pymcnp/inp/fmesh/Eints.py:8-70 *)
Definition k_fmesh_Eints : cls :=
  {| c_name := "fmesh_Eints"; c_kind := KOption; c_kw := L "eints";
     c_pat := L "\Aeints( " ++ slice 2 2 pat_number ++ L ")\Z";
     c_attrs := [{| a_name := "count"; a_ty := One TInt;
          a_checks := [(BIsNone EX)] |}] |}.

(** /repo/src/pymcnp/inp/fmesh/Enorm.py:8-68 *)
Definition k_fmesh_Enorm : cls :=
  {| c_name := "fmesh_Enorm"; c_kind := KOption; c_kw := L "enorm";
     c_pat := L "\Aenorm( " ++ slice 2 2 pat_string ++ L ")\Z";
     c_attrs := [{| a_name := "setting"; a_ty := One TStr;
          a_checks := [(BOr (BIsNone EX) (BNot (BIn (ELower EX) [(ES (L "yes")); (ES (L "no"))])))] |}] |}.

(** /repo/src/pymcnp/inp/fmesh/Tmesh.py:8-70 *)
Definition k_fmesh_Tmesh : cls :=
  {| c_name := "fmesh_Tmesh"; c_kind := KOption; c_kw := L "tmesh";
     c_pat := L "\Atmesh( " ++ slice 2 2 pat_number ++ L ")\Z";
     c_attrs := [{| a_name := "time"; a_ty := One TReal;
          a_checks := [(BIsNone EX)] |}] |}.

(** /repo/src/pymcnp/inp/fmesh/Tints.py:8-70 *)
Definition k_fmesh_Tints : cls :=
  {| c_name := "fmesh_Tints"; c_kind := KOption; c_kw := L "tints";
     c_pat := L "\Atints( " ++ slice 2 2 pat_number ++ L ")\Z";
     c_attrs := [{| a_name := "count"; a_ty := One TInt;
          a_checks := [(BIsNone EX)] |}] |}.

(** /repo/src/pymcnp/inp/fmesh/Tnorm.py:8-68 *)
Definition k_fmesh_Tnorm : cls :=
  {| c_name := "fmesh_Tnorm"; c_kind := KOption; c_kw := L "tnorm";
     c_pat := L "\Atnorm( " ++ slice 2 2 pat_string ++ L ")\Z";
     c_attrs := [{| a_name := "setting"; a_ty := One TStr;
          a_checks := [(BOr (BIsNone EX) (BNot (BIn (ELower EX) [(ES (L "yes")); (ES (L "no"))])))] |}] |}.

(** /repo/src/pymcnp/inp/fmesh/Factor.py:8-70 *)
Definition k_fmesh_Factor : cls :=
  {| c_name := "fmesh_Factor"; c_kind := KOption; c_kw := L "factor";
     c_pat := L "\Afactor( " ++ slice 2 2 pat_number ++ L ")\Z";
     c_attrs := [{| a_name := "multiple"; a_ty := One TReal;
          a_checks := [(BIsNone EX)] |}] |}.

(** /repo/src/pymcnp/inp/fmesh/Out.py:8-68 *)
Definition k_fmesh_Out : cls :=
  {| c_name := "fmesh_Out"; c_kind := KOption; c_kw := L "out";
     c_pat := L "\Aout( " ++ slice 2 2 pat_string ++ L ")\Z";
     c_attrs := [{| a_name := "setting"; a_ty := One TStr;
          a_checks := [(BOr (BIsNone EX) (BNot (BIn (ELower EX) [(ES (L "col")); (ES (L "cf")); (ES (L "ij")); (ES (L "ik")); (ES (L "jk")); (ES (L "none"))])))] |}] |}.

(** /repo/src/pymcnp/inp/fmesh/Tr.py:8-70 *)
Definition k_fmesh_Tr : cls :=
  {| c_name := "fmesh_Tr"; c_kind := KOption; c_kw := L "tr";
     c_pat := L "\Atr( " ++ slice 2 2 pat_number ++ L ")\Z";
     c_attrs := [{| a_name := "number"; a_ty := One TInt;
          a_checks := [(BOr (BIsNone EX) (BNot (BAnd (BCmp OGe EX (EZ 1)) (BCmp OLe EX (EZ 999)))))] |}] |}.

(** /repo/src/pymcnp/inp/fmesh/Inc.py:8-108 *)
Definition k_fmesh_Inc : cls :=
  {| c_name := "fmesh_Inc"; c_kind := KOption; c_kw := L "inc";
     c_pat := L "\Ainc( " ++ slice 2 2 pat_number ++ L ")( " ++ slice 2 2 pat_number ++ L ")?\Z";
     c_attrs := [{| a_name := "lower"; a_ty := One TReal;
          a_checks := [(BIsNone EX)] |};
       {| a_name := "upper"; a_ty := One TReal;
          a_checks := [] |}] |}.

(** /repo/src/pymcnp/inp/fmesh/Type.py:8-68 *)
Definition k_fmesh_Type : cls :=
  {| c_name := "fmesh_Type"; c_kind := KOption; c_kw := L "type";
     c_pat := L "\Atype( " ++ slice 2 2 pat_string ++ L ")\Z";
     c_attrs := [{| a_name := "setting"; a_ty := One TStr;
          a_checks := [(BOr (BIsNone EX) (BNot (BIn (ELower EX) [(ES (L "flux")); (ES (L "source"))])))] |}] |}.

(** /repo/src/pymcnp/inp/fmesh/Kclear.py:8-70 *)
Definition k_fmesh_Kclear : cls :=
  {| c_name := "fmesh_Kclear"; c_kind := KOption; c_kw := L "kclear";
     c_pat := L "\Akclear( " ++ slice 2 2 pat_number ++ L ")\Z";
     c_attrs := [{| a_name := "count"; a_ty := One TInt;
          a_checks := [(BIsNone EX)] |}] |}.

(** /repo/src/pymcnp/inp/fmesh/_option.py:4-9: the subclasses in definition order, and the pattern
    that _symbol.py:40-44 makes of theirs, longest class name first. *)
Definition f_fmesh_FmeshOption : list cls := [k_fmesh_Geom; k_fmesh_Origin; k_fmesh_Axs; k_fmesh_Vec; k_fmesh_Imesh; k_fmesh_Iints; k_fmesh_Jmesh; k_fmesh_Jints; k_fmesh_Kmesh; k_fmesh_Kints; k_fmesh_Emesh; k_fmesh_Eints; k_fmesh_Enorm; k_fmesh_Tmesh; k_fmesh_Tints; k_fmesh_Tnorm; k_fmesh_Factor; k_fmesh_Out; k_fmesh_Tr; k_fmesh_Inc; k_fmesh_Type; k_fmesh_Kclear].
Definition pat_fmesh_FmeshOption : str := union_pat [c_pat k_fmesh_Origin; c_pat k_fmesh_Factor; c_pat k_fmesh_Kclear; c_pat k_fmesh_Imesh; c_pat k_fmesh_Iints; c_pat k_fmesh_Jmesh; c_pat k_fmesh_Jints; c_pat k_fmesh_Kmesh; c_pat k_fmesh_Kints; c_pat k_fmesh_Emesh; c_pat k_fmesh_Eints; c_pat k_fmesh_Enorm; c_pat k_fmesh_Tmesh; c_pat k_fmesh_Tints; c_pat k_fmesh_Tnorm; c_pat k_fmesh_Geom; c_pat k_fmesh_Type; c_pat k_fmesh_Axs; c_pat k_fmesh_Vec; c_pat k_fmesh_Out; c_pat k_fmesh_Inc; c_pat k_fmesh_Tr].

(** /repo/src/pymcnp/inp/Fmesh.py:9-149 *)
Definition k_Fmesh : cls :=
  {| c_name := "Fmesh"; c_kind := KCard; c_kw := L "fmesh";
     c_pat := L "\Afmesh(\d+):(\S+)((?: (?:" ++ slice 2 2 pat_fmesh_FmeshOption ++ L "))+?)?\Z";
     c_attrs := [{| a_name := "suffix"; a_ty := One TInt;
          a_checks := [(BOr (BIsNone EX) (BNot (BAnd (BCmp OGt EX (EZ 0)) (BCmp OLe EX (EZ 999)))))] |};
       {| a_name := "designator"; a_ty := One TDesig;
          a_checks := [(BIsNone EX)] |};
       {| a_name := "options"; a_ty := Tup (TExt "fmesh_FmeshOption" pat_fmesh_FmeshOption);
          a_checks := [] |}] |}.

(** /repo/src/pymcnp/inp/fmult/Sfnu.py:8-73 *)
Definition k_fmult_Sfnu : cls :=
  {| c_name := "fmult_Sfnu"; c_kind := KOption; c_kw := L "sfnu";
     c_pat := L "\Asfnu((?: " ++ slice 2 2 pat_number ++ L ")+?)\Z";
     c_attrs := [{| a_name := "distribution"; a_ty := Tup TReal;
          a_checks := [(BIsNone EX)] |}] |}.

(** /repo/src/pymcnp/inp/fmult/Width.py:8-70 *)
Definition k_fmult_Width : cls :=
  {| c_name := "fmult_Width"; c_kind := KOption; c_kw := L "width";
     c_pat := L "\Awidth( " ++ slice 2 2 pat_number ++ L ")\Z";
     c_attrs := [{| a_name := "width"; a_ty := One TReal;
          a_checks := [(BIsNone EX)] |}] |}.

(** /repo/src/pymcnp/inp/fmult/Sfyield.py:8-70 *)
Definition k_fmult_Sfyield : cls :=
  {| c_name := "fmult_Sfyield"; c_kind := KOption; c_kw := L "sfyield";
     c_pat := L "\Asfyield( " ++ slice 2 2 pat_number ++ L ")\Z";
     c_attrs := [{| a_name := "fission_yield"; a_ty := One TReal;
          a_checks := [(BIsNone EX)] |}] |}.

(** /repo/src/pymcnp/inp/fmult/Watt.py:8-111 *)
Definition k_fmult_Watt : cls :=
  {| c_name := "fmult_Watt"; c_kind := KOption; c_kw := L "watt";
     c_pat := L "\Awatt( " ++ slice 2 2 pat_number ++ L ")( " ++ slice 2 2 pat_number ++ L ")\Z";
     c_attrs := [{| a_name := "a"; a_ty := One TReal;
          a_checks := [(BIsNone EX)] |};
       {| a_name := "b"; a_ty := One TReal;
          a_checks := [(BIsNone EX)] |}] |}.

(** /repo/src/pymcnp/inp/fmult/Method.py:8-70 *)
Definition k_fmult_Method : cls :=
  {| c_name := "fmult_Method"; c_kind := KOption; c_kw := L "method";
     c_pat := L "\Amethod( " ++ slice 2 2 pat_number ++ L ")\Z";
     c_attrs := [{| a_name := "setting"; a_ty := One TInt;
          a_checks := [(BOr (BIsNone EX) (BNot (BIn EX [(EZ 0); (EZ 1); (EZ 3); (EZ 5); (EZ 6); (EZ 7)])))] |}] |}.

(** /repo/src/pymcnp/inp/fmult/Data.py:8-70 *)
Definition k_fmult_Data : cls :=
  {| c_name := "fmult_Data"; c_kind := KOption; c_kw := L "data";
     c_pat := L "\Adata( " ++ slice 2 2 pat_number ++ L ")\Z";
     c_attrs := [{| a_name := "setting"; a_ty := One TInt;
          a_checks := [(BOr (BIsNone EX) (BNot (BIn EX [(EZ 0); (EZ 1); (EZ 2); (EZ 3)])))] |}] |}.

(** /repo/src/pymcnp/inp/fmult/Shift.py:8-70 *)
Definition k_fmult_Shift : cls :=
  {| c_name := "fmult_Shift"; c_kind := KOption; c_kw := L "shift";
     c_pat := L "\Ashift( " ++ slice 2 2 pat_number ++ L ")\Z";
     c_attrs := [{| a_name := "setting"; a_ty := One TInt;
          a_checks := [(BOr (BIsNone EX) (BNot (BIn EX [(EZ 0); (EZ 1); (EZ 2); (EZ 3); (EZ 4)])))] |}] |}.

(** /repo/src/pymcnp/inp/fmult/_option.py:4-9: the subclasses in definition order, and the pattern
    that _symbol.py:40-44 makes of theirs, longest class name first. *)
Definition f_fmult_FmultOption : list cls := [k_fmult_Sfnu; k_fmult_Width; k_fmult_Sfyield; k_fmult_Watt; k_fmult_Method; k_fmult_Data; k_fmult_Shift].
Definition pat_fmult_FmultOption : str := union_pat [c_pat k_fmult_Sfyield; c_pat k_fmult_Method; c_pat k_fmult_Width; c_pat k_fmult_Shift; c_pat k_fmult_Sfnu; c_pat k_fmult_Watt; c_pat k_fmult_Data].

(** /repo/src/pymcnp/inp/Fmult.py:9-108 *)
Definition k_Fmult : cls :=
  {| c_name := "Fmult"; c_kind := KCard; c_kw := L "fmult";
     c_pat := L "\Afmult( " ++ slice 2 2 pat_zaid ++ L ")((?: (?:" ++ slice 2 2 pat_fmult_FmultOption ++ L "))+?)?\Z";
     c_attrs := [{| a_name := "zaid"; a_ty := One TZaid;
          a_checks := [(BIsNone EX)] |};
       {| a_name := "options"; a_ty := Tup (TExt "fmult_FmultOption" pat_fmult_FmultOption);
          a_checks := [] |}] |}.

(** /repo/src/pymcnp/inp/Fq.py:8-396 *)
Definition k_Fq : cls :=
  {| c_name := "Fq"; c_kind := KCard; c_kw := L "fq";
     c_pat := L "\Afq(\d+)?( " ++ slice 2 2 pat_string ++ L ")?( " ++ slice 2 2 pat_string ++ L ")?( " ++ slice 2 2 pat_string ++ L ")?( " ++ slice 2 2 pat_string ++ L ")?( " ++ slice 2 2 pat_string ++ L ")?( " ++ slice 2 2 pat_string ++ L ")?( " ++ slice 2 2 pat_string ++ L ")?( " ++ slice 2 2 pat_string ++ L ")?\Z";
     c_attrs := [{| a_name := "suffix"; a_ty := One TInt;
          a_checks := [(BAnd (BNot (BIsNone EX)) (BNot (BCmp OLe EX (EZ 99999999))))] |};
       {| a_name := "a1"; a_ty := One TStr;
          a_checks := [(BAnd (BNot (BIsNone EX)) (BNot (BIn (ELower EX) [(ES (L "f")); (ES (L "d")); (ES (L "u")); (ES (L "s")); (ES (L "m")); (ES (L "c")); (ES (L "e")); (ES (L "t"))])))] |};
       {| a_name := "a2"; a_ty := One TStr;
          a_checks := [(BAnd (BNot (BIsNone EX)) (BNot (BIn (ELower EX) [(ES (L "f")); (ES (L "d")); (ES (L "u")); (ES (L "s")); (ES (L "m")); (ES (L "c")); (ES (L "e")); (ES (L "t"))])))] |};
       {| a_name := "a3"; a_ty := One TStr;
          a_checks := [(BAnd (BNot (BIsNone EX)) (BNot (BIn (ELower EX) [(ES (L "f")); (ES (L "d")); (ES (L "u")); (ES (L "s")); (ES (L "m")); (ES (L "c")); (ES (L "e")); (ES (L "t"))])))] |};
       {| a_name := "a4"; a_ty := One TStr;
          a_checks := [(BAnd (BNot (BIsNone EX)) (BNot (BIn (ELower EX) [(ES (L "f")); (ES (L "d")); (ES (L "u")); (ES (L "s")); (ES (L "m")); (ES (L "c")); (ES (L "e")); (ES (L "t"))])))] |};
       {| a_name := "a5"; a_ty := One TStr;
          a_checks := [(BAnd (BNot (BIsNone EX)) (BNot (BIn (ELower EX) [(ES (L "f")); (ES (L "d")); (ES (L "u")); (ES (L "s")); (ES (L "m")); (ES (L "c")); (ES (L "e")); (ES (L "t"))])))] |};
       {| a_name := "a6"; a_ty := One TStr;
          a_checks := [(BAnd (BNot (BIsNone EX)) (BNot (BIn (ELower EX) [(ES (L "f")); (ES (L "d")); (ES (L "u")); (ES (L "s")); (ES (L "m")); (ES (L "c")); (ES (L "e")); (ES (L "t"))])))] |};
       {| a_name := "a7"; a_ty := One TStr;
          a_checks := [(BAnd (BNot (BIsNone EX)) (BNot (BIn (ELower EX) [(ES (L "f")); (ES (L "d")); (ES (L "u")); (ES (L "s")); (ES (L "m")); (ES (L "c")); (ES (L "e")); (ES (L "t"))])))] |};
       {| a_name := "a8"; a_ty := One TStr;
          a_checks := [(BAnd (BNot (BIsNone EX)) (BNot (BIn (ELower EX) [(ES (L "f")); (ES (L "d")); (ES (L "u")); (ES (L "s")); (ES (L "m")); (ES (L "c")); (ES (L "e")); (ES (L "t"))])))] |}] |}.

(** /repo/src/pymcnp/inp/Fs.py:8-192 *)
Definition k_Fs : cls :=
  {| c_name := "Fs"; c_kind := KCard; c_kw := L "fs";
     c_pat := L "\Afs(\d+)((?: " ++ slice 2 2 pat_number ++ L ")+?)( t)?( c)?\Z";
     c_attrs := [{| a_name := "suffix"; a_ty := One TInt;
          a_checks := [(BOr (BIsNone EX) (BNot (BCmp OLe EX (EZ 99999999))))] |};
       {| a_name := "numbers"; a_ty := Tup TInt;
          a_checks := [(BIsNone EX)] |};
       {| a_name := "t"; a_ty := One TStr;
          a_checks := [(BAnd (BNot (BIsNone EX)) (BNot (BIn (ELower EX) [(ES (L "t"))])))] |};
       {| a_name := "c"; a_ty := One TStr;
          a_checks := [(BAnd (BNot (BIsNone EX)) (BNot (BIn (ELower EX) [(ES (L "c"))])))] |}] |}.

(** /repo/src/pymcnp/inp/Ft.py:8-109 *)
Definition k_Ft : cls :=
  {| c_name := "Ft"; c_kind := KCard; c_kw := L "ft";
     c_pat := L "\Aft(\d+)( [\S\s]+)\Z";
     c_attrs := [{| a_name := "suffix"; a_ty := One TInt;
          a_checks := [(BOr (BIsNone EX) (BNot (BCmp OLe EX (EZ 99999999))))] |};
       {| a_name := "treatments"; a_ty := One TStr;
          a_checks := [(BIsNone EX)] |}] |}.

(** /repo/src/pymcnp/inp/Fu.py:8-192 *)
Definition k_Fu : cls :=
  {| c_name := "Fu"; c_kind := KCard; c_kw := L "fu";
     c_pat := L "\Afu(\d+)((?: " ++ slice 2 2 pat_number ++ L ")+?)(?: (nt))?(?: (c))?\Z";
     c_attrs := [{| a_name := "suffix"; a_ty := One TInt;
          a_checks := [(BOr (BIsNone EX) (BNot (BCmp OLe EX (EZ 99999999))))] |};
       {| a_name := "bounds"; a_ty := Tup TReal;
          a_checks := [(BIsNone EX)] |};
       {| a_name := "nt"; a_ty := One TStr;
          a_checks := [(BAnd (BNot (BIsNone EX)) (BNot (BIn (ELower EX) [(ES (L "nt"))])))] |};
       {| a_name := "c"; a_ty := One TStr;
          a_checks := [(BAnd (BNot (BIsNone EX)) (BNot (BIn (ELower EX) [(ES (L "c"))])))] |}] |}.

(** /repo/src/pymcnp/inp/Histp.py:7-107 *)
Definition k_Histp : cls :=
  {| c_name := "Histp"; c_kind := KCard; c_kw := L "histp";
     c_pat := L "\Ahistp( " ++ slice 2 2 pat_number ++ L ")?((?: " ++ slice 2 2 pat_number ++ L ")+?)?\Z";
     c_attrs := [{| a_name := "lhist"; a_ty := One TInt;
          a_checks := [] |};
       {| a_name := "cells"; a_ty := Tup TInt;
          a_checks := [] |}] |}.

(** /repo/src/pymcnp/inp/Hsrc.py:8-412 *)
Definition k_Hsrc : cls :=
  {| c_name := "Hsrc"; c_kind := KCard; c_kw := L "hsrc";
     c_pat := L "\Ahsrc( " ++ slice 2 2 pat_number ++ L ")( " ++ slice 2 2 pat_number ++ L ")( " ++ slice 2 2 pat_number ++ L ")( " ++ slice 2 2 pat_number ++ L ")( " ++ slice 2 2 pat_number ++ L ")( " ++ slice 2 2 pat_number ++ L ")( " ++ slice 2 2 pat_number ++ L ")( " ++ slice 2 2 pat_number ++ L ")( " ++ slice 2 2 pat_number ++ L ")\Z";
     c_attrs := [{| a_name := "x_number"; a_ty := One TInt;
          a_checks := [(BOr (BIsNone EX) (BNot (BCmp OGt EX (EZ 0))))] |};
       {| a_name := "x_minimum"; a_ty := One TReal;
          a_checks := [(BIsNone EX)] |};
       {| a_name := "x_maximum"; a_ty := One TReal;
          a_checks := [(BIsNone EX)] |};
       {| a_name := "y_number"; a_ty := One TInt;
          a_checks := [(BOr (BIsNone EX) (BNot (BCmp OGt EX (EZ 0))))] |};
       {| a_name := "y_minimum"; a_ty := One TReal;
          a_checks := [(BIsNone EX)] |};
       {| a_name := "y_maximum"; a_ty := One TReal;
          a_checks := [(BIsNone EX)] |};
       {| a_name := "z_number"; a_ty := One TInt;
          a_checks := [(BOr (BIsNone EX) (BNot (BCmp OGt EX (EZ 0))))] |};
       {| a_name := "z_minimum"; a_ty := One TReal;
          a_checks := [(BIsNone EX)] |};
       {| a_name := "z_maximum"; a_ty := One TReal;
          a_checks := [(BIsNone EX)] |}] |}.

(** /repo/src/pymcnp/inp/Idum.py:8-73 *)
Definition k_Idum : cls :=
  {| c_name := "Idum"; c_kind := KCard; c_kw := L "idum";
     c_pat := L "\Aidum((?: " ++ slice 2 2 pat_number ++ L ")+?)\Z";
     c_attrs := [{| a_name := "intergers"; a_ty := Tup TInt;
          a_checks := [(BIsNone EX)] |}] |}.

(** /repo/src/pymcnp/inp/Imp.py:8-112 *)
Definition k_Imp : cls :=
  {| c_name := "Imp"; c_kind := KCard; c_kw := L "imp";
     c_pat := L "\Aimp:(\S+)((?: " ++ slice 2 2 pat_number ++ L ")+?)\Z";
     c_attrs := [{| a_name := "designator"; a_ty := One TDesig;
          a_checks := [(BIsNone EX)] |};
       {| a_name := "importances"; a_ty := Tup TReal;
          a_checks := [(BIsNone EX)] |}] |}.

(** /repo/src/pymcnp/inp/Kcode.py:8-364 *)
Definition k_Kcode : cls :=
  {| c_name := "Kcode"; c_kind := KCard; c_kw := L "kcode";
     c_pat := L "\Akcode( " ++ slice 2 2 pat_number ++ L ")?( " ++ slice 2 2 pat_number ++ L ")?( " ++ slice 2 2 pat_number ++ L ")?( " ++ slice 2 2 pat_number ++ L ")?( " ++ slice 2 2 pat_number ++ L ")?( " ++ slice 2 2 pat_number ++ L ")?( " ++ slice 2 2 pat_number ++ L ")?( " ++ slice 2 2 pat_number ++ L ")?\Z";
     c_attrs := [{| a_name := "nsrck"; a_ty := One TInt;
          a_checks := [(BAnd (BNot (BIsNone EX)) (BNot (BOr (BJump EX) (BCmp OGe EX (EZ 0)))))] |};
       {| a_name := "rkk"; a_ty := One TReal;
          a_checks := [] |};
       {| a_name := "ikz"; a_ty := One TInt;
          a_checks := [] |};
       {| a_name := "kct"; a_ty := One TInt;
          a_checks := [(BAnd (BNot (BIsNone EX)) (BNot (BOr (BJump EX) (BCmp OGt EX (EZ 0)))))] |};
       {| a_name := "msrk"; a_ty := One TInt;
          a_checks := [(BAnd (BNot (BIsNone EX)) (BNot (BOr (BJump EX) (BCmp OLt EX (EMul 40 (EIte (BOr (BNot (BTruth (ESelf "nsrck"))) (BJump (ESelf "nsrck"))) (EZ 1000) (ESelf "nsrck")))))))] |};
       {| a_name := "knrm"; a_ty := One TInt;
          a_checks := [(BAnd (BNot (BIsNone EX)) (BNot (BOr (BJump EX) (BIn EX [(EZ 0); (EZ 1)]))))] |};
       {| a_name := "mrkp"; a_ty := One TInt;
          a_checks := [(BAnd (BNot (BIsNone EX)) (BNot (BOr (BJump EX) (BCmp OGt EX (EZ 0)))))] |};
       {| a_name := "kc8"; a_ty := One TInt;
          a_checks := [(BAnd (BNot (BIsNone EX)) (BNot (BOr (BJump EX) (BIn EX [(EZ 0); (EZ 1)]))))] |}] |}.

(** /repo/src/pymcnp/inp/kopts/Blocksize.py:8-70 *)
Definition k_kopts_Blocksize : cls :=
  {| c_name := "kopts_Blocksize"; c_kind := KOption; c_kw := L "blocksize";
     c_pat := L "\Ablocksize( " ++ slice 2 2 pat_number ++ L ")\Z";
     c_attrs := [{| a_name := "ncy"; a_ty := One TInt;
          a_checks := [(BOr (BIsNone EX) (BNot (BCmp OGe EX (EZ 2))))] |}] |}.

(** /repo/src/pymcnp/inp/kopts/Kinetics.py:8-68 *)
Definition k_kopts_Kinetics : cls :=
  {| c_name := "kopts_Kinetics"; c_kind := KOption; c_kw := L "kinetics";
     c_pat := L "\Akinetics( " ++ slice 2 2 pat_string ++ L ")\Z";
     c_attrs := [{| a_name := "setting"; a_ty := One TStr;
          a_checks := [(BOr (BIsNone EX) (BNot (BIn (ELower EX) [(ES (L "yes")); (ES (L "no"))])))] |}] |}.

(** /repo/src/pymcnp/inp/kopts/Precursor.py:8-68 *)
Definition k_kopts_Precursor : cls :=
  {| c_name := "kopts_Precursor"; c_kind := KOption; c_kw := L "precursor";
     c_pat := L "\Aprecursor( " ++ slice 2 2 pat_string ++ L ")\Z";
     c_attrs := [{| a_name := "setting"; a_ty := One TStr;
          a_checks := [(BOr (BIsNone EX) (BNot (BIn (ELower EX) [(ES (L "yes")); (ES (L "no"))])))] |}] |}.

(** /repo/src/pymcnp/inp/kopts/Ksental.py:8-68 *)
Definition k_kopts_Ksental : cls :=
  {| c_name := "kopts_Ksental"; c_kind := KOption; c_kw := L "ksental";
     c_pat := L "\Aksental( " ++ slice 2 2 pat_string ++ L ")\Z";
     c_attrs := [{| a_name := "fileopt"; a_ty := One TStr;
          a_checks := [(BOr (BIsNone EX) (BNot (BIn (ELower EX) [(ES (L "mctal")); (ES (L "tsunami-b"))])))] |}] |}.

(** /repo/src/pymcnp/inp/kopts/Fmat.py:8-68 *)
Definition k_kopts_Fmat : cls :=
  {| c_name := "kopts_Fmat"; c_kind := KOption; c_kw := L "fmat";
     c_pat := L "\Afmat( " ++ slice 2 2 pat_string ++ L ")\Z";
     c_attrs := [{| a_name := "setting"; a_ty := One TStr;
          a_checks := [(BOr (BIsNone EX) (BNot (BIn (ELower EX) [(ES (L "yes")); (ES (L "no"))])))] |}] |}.

(** /repo/src/pymcnp/inp/kopts/Fmatskpt.py:8-70 *)
Definition k_kopts_Fmatskpt : cls :=
  {| c_name := "kopts_Fmatskpt"; c_kind := KOption; c_kw := L "fmatskpt";
     c_pat := L "\Afmatskpt( " ++ slice 2 2 pat_number ++ L ")\Z";
     c_attrs := [{| a_name := "fmat_skip"; a_ty := One TReal;
          a_checks := [(BIsNone EX)] |}] |}.

(** /repo/src/pymcnp/inp/kopts/Fmatncyc.py:8-70 *)
Definition k_kopts_Fmatncyc : cls :=
  {| c_name := "kopts_Fmatncyc"; c_kind := KOption; c_kw := L "fmatncyc";
     c_pat := L "\Afmatncyc( " ++ slice 2 2 pat_number ++ L ")\Z";
     c_attrs := [{| a_name := "fmat_ncyc"; a_ty := One TReal;
          a_checks := [(BIsNone EX)] |}] |}.

(** /repo/src/pymcnp/inp/kopts/Fmatspace.py:8-70 *)
Definition k_kopts_Fmatspace : cls :=
  {| c_name := "kopts_Fmatspace"; c_kind := KOption; c_kw := L "fmatspace";
     c_pat := L "\Afmatspace( " ++ slice 2 2 pat_number ++ L ")\Z";
     c_attrs := [{| a_name := "fmat_space"; a_ty := One TReal;
          a_checks := [(BIsNone EX)] |}] |}.

(** /repo/src/pymcnp/inp/kopts/Fmataccel.py:8-68 *)
Definition k_kopts_Fmataccel : cls :=
  {| c_name := "kopts_Fmataccel"; c_kind := KOption; c_kw := L "fmataccel";
     c_pat := L "\Afmataccel( " ++ slice 2 2 pat_string ++ L ")\Z";
     c_attrs := [{| a_name := "setting"; a_ty := One TStr;
          a_checks := [(BOr (BIsNone EX) (BNot (BIn (ELower EX) [(ES (L "yes")); (ES (L "no"))])))] |}] |}.

(** /repo/src/pymcnp/inp/kopts/Fmatreduce.py:8-68 *)
Definition k_kopts_Fmatreduce : cls :=
  {| c_name := "kopts_Fmatreduce"; c_kind := KOption; c_kw := L "fmatreduce";
     c_pat := L "\Afmatreduce( " ++ slice 2 2 pat_string ++ L ")\Z";
     c_attrs := [{| a_name := "setting"; a_ty := One TStr;
          a_checks := [(BOr (BIsNone EX) (BNot (BIn (ELower EX) [(ES (L "yes")); (ES (L "no"))])))] |}] |}.

(** /repo/src/pymcnp/inp/kopts/Fmatnx.py:8-70 *)
Definition k_kopts_Fmatnx : cls :=
  {| c_name := "kopts_Fmatnx"; c_kind := KOption; c_kw := L "fmatnx";
     c_pat := L "\Afmatnx( " ++ slice 2 2 pat_number ++ L ")\Z";
     c_attrs := [{| a_name := "fmat_nx"; a_ty := One TReal;
          a_checks := [(BIsNone EX)] |}] |}.

(** /repo/src/pymcnp/inp/kopts/Fmatny.py:8-70 *)
Definition k_kopts_Fmatny : cls :=
  {| c_name := "kopts_Fmatny"; c_kind := KOption; c_kw := L "fmatny";
     c_pat := L "\Afmatny( " ++ slice 2 2 pat_number ++ L ")\Z";
     c_attrs := [{| a_name := "fmat_ny"; a_ty := One TReal;
          a_checks := [(BIsNone EX)] |}] |}.

(** /repo/src/pymcnp/inp/kopts/Fmatnz.py:8-70 *)
Definition k_kopts_Fmatnz : cls :=
  {| c_name := "kopts_Fmatnz"; c_kind := KOption; c_kw := L "fmatnz";
     c_pat := L "\Afmatnz( " ++ slice 2 2 pat_number ++ L ")\Z";
     c_attrs := [{| a_name := "fmat_nz"; a_ty := One TReal;
          a_checks := [(BIsNone EX)] |}] |}.

(** /repo/src/pymcnp/inp/kopts/_option.py:4-9: the subclasses in definition order, and the pattern
    that _symbol.py:40-44 makes of theirs, longest class name first. *)
Definition f_kopts_KoptsOption : list cls := [k_kopts_Blocksize; k_kopts_Kinetics; k_kopts_Precursor; k_kopts_Ksental; k_kopts_Fmat; k_kopts_Fmatskpt; k_kopts_Fmatncyc; k_kopts_Fmatspace; k_kopts_Fmataccel; k_kopts_Fmatreduce; k_kopts_Fmatnx; k_kopts_Fmatny; k_kopts_Fmatnz].
Definition pat_kopts_KoptsOption : str := union_pat [c_pat k_kopts_Fmatreduce; c_pat k_kopts_Blocksize; c_pat k_kopts_Precursor; c_pat k_kopts_Fmatspace; c_pat k_kopts_Fmataccel; c_pat k_kopts_Kinetics; c_pat k_kopts_Fmatskpt; c_pat k_kopts_Fmatncyc; c_pat k_kopts_Ksental; c_pat k_kopts_Fmatnx; c_pat k_kopts_Fmatny; c_pat k_kopts_Fmatnz; c_pat k_kopts_Fmat].

(** /repo/src/pymcnp/inp/Kopts.py:8-68 *)
Definition k_Kopts : cls :=
  {| c_name := "Kopts"; c_kind := KCard; c_kw := L "kopts";
     c_pat := L "\Akopts((?: (?:" ++ slice 2 2 pat_kopts_KoptsOption ++ L "))+?)?\Z";
     c_attrs := [{| a_name := "options"; a_ty := Tup (TExt "kopts_KoptsOption" pat_kopts_KoptsOption);
          a_checks := [] |}] |}.

(** /repo/src/pymcnp/inp/kpert/Cell.py:8-73 *)
Definition k_kpert_Cell : cls :=
  {| c_name := "kpert_Cell"; c_kind := KOption; c_kw := L "cell";
     c_pat := L "\Acell((?: " ++ slice 2 2 pat_number ++ L ")+?)\Z";
     c_attrs := [{| a_name := "numbers"; a_ty := Tup TInt;
          a_checks := [(BIsNone EX)] |}] |}.

(** /repo/src/pymcnp/inp/kpert/Mat.py:8-73 *)
Definition k_kpert_Mat : cls :=
  {| c_name := "kpert_Mat"; c_kind := KOption; c_kw := L "mat";
     c_pat := L "\Amat((?: " ++ slice 2 2 pat_number ++ L ")+?)\Z";
     c_attrs := [{| a_name := "numbers"; a_ty := Tup TInt;
          a_checks := [(BIsNone EX)] |}] |}.

(** /repo/src/pymcnp/inp/kpert/Rho.py:8-73 *)
Definition k_kpert_Rho : cls :=
  {| c_name := "kpert_Rho"; c_kind := KOption; c_kw := L "rho";
     c_pat := L "\Arho((?: " ++ slice 2 2 pat_number ++ L ")+?)\Z";
     c_attrs := [{| a_name := "densities"; a_ty := Tup TReal;
          a_checks := [(BIsNone EX)] |}] |}.

(** /repo/src/pymcnp/inp/kpert/Iso.py:8-71 *)
Definition k_kpert_Iso : cls :=
  {| c_name := "kpert_Iso"; c_kind := KOption; c_kw := L "iso";
     c_pat := L "\Aiso((?: " ++ slice 2 2 pat_zaid ++ L ")+?)\Z";
     c_attrs := [{| a_name := "zaids"; a_ty := Tup TZaid;
          a_checks := [(BIsNone EX)] |}] |}.

(** /repo/src/pymcnp/inp/kpert/Rxn.py:8-73 *)
Definition k_kpert_Rxn : cls :=
  {| c_name := "kpert_Rxn"; c_kind := KOption; c_kw := L "rxn";
     c_pat := L "\Arxn((?: " ++ slice 2 2 pat_number ++ L ")+?)\Z";
     c_attrs := [{| a_name := "numbers"; a_ty := Tup TInt;
          a_checks := [(BIsNone EX)] |}] |}.

(** /repo/src/pymcnp/inp/kpert/Erg.py:8-73 *)
Definition k_kpert_Erg : cls :=
  {| c_name := "kpert_Erg"; c_kind := KOption; c_kw := L "erg";
     c_pat := L "\Aerg((?: " ++ slice 2 2 pat_number ++ L ")+?)\Z";
     c_attrs := [{| a_name := "energies"; a_ty := Tup TReal;
          a_checks := [(BIsNone EX)] |}] |}.

(** /repo/src/pymcnp/inp/kpert/Linear.py:8-68 *)
Definition k_kpert_Linear : cls :=
  {| c_name := "kpert_Linear"; c_kind := KOption; c_kw := L "linear";
     c_pat := L "\Alinear( " ++ slice 2 2 pat_string ++ L ")\Z";
     c_attrs := [{| a_name := "setting"; a_ty := One TStr;
          a_checks := [(BOr (BIsNone EX) (BNot (BIn (ELower EX) [(ES (L "yes")); (ES (L "no"))])))] |}] |}.

(** /repo/src/pymcnp/inp/kpert/_option.py:4-9: the subclasses in definition order, and the pattern
    that _symbol.py:40-44 makes of theirs, longest class name first. *)
Definition f_kpert_KpertOption : list cls := [k_kpert_Cell; k_kpert_Mat; k_kpert_Rho; k_kpert_Iso; k_kpert_Rxn; k_kpert_Erg; k_kpert_Linear].
Definition pat_kpert_KpertOption : str := union_pat [c_pat k_kpert_Linear; c_pat k_kpert_Cell; c_pat k_kpert_Mat; c_pat k_kpert_Rho; c_pat k_kpert_Iso; c_pat k_kpert_Rxn; c_pat k_kpert_Erg].

(** /repo/src/pymcnp/inp/Kpert.py:9-110 *)
Definition k_Kpert : cls :=
  {| c_name := "Kpert"; c_kind := KCard; c_kw := L "kpert";
     c_pat := L "\Akpert(\d+)((?: (?:" ++ slice 2 2 pat_kpert_KpertOption ++ L "))+?)?\Z";
     c_attrs := [{| a_name := "suffix"; a_ty := One TInt;
          a_checks := [(BOr (BIsNone EX) (BNot (BAnd (BCmp OGt EX (EZ 0)) (BCmp OLe EX (EZ 10000)))))] |};
       {| a_name := "options"; a_ty := Tup (TExt "kpert_KpertOption" pat_kpert_KpertOption);
          a_checks := [] |}] |}.

(** /repo/src/pymcnp/inp/ksen/Iso.py:8-71 *)
Definition k_ksen_Iso : cls :=
  {| c_name := "ksen_Iso"; c_kind := KOption; c_kw := L "iso";
     c_pat := L "\Aiso((?: " ++ slice 2 2 pat_zaid ++ L ")+?)\Z";
     c_attrs := [{| a_name := "zaids"; a_ty := Tup TZaid;
          a_checks := [(BIsNone EX)] |}] |}.

(** /repo/src/pymcnp/inp/ksen/Rxn.py:8-73 *)
Definition k_ksen_Rxn : cls :=
  {| c_name := "ksen_Rxn"; c_kind := KOption; c_kw := L "rxn";
     c_pat := L "\Arxn((?: " ++ slice 2 2 pat_number ++ L ")+?)\Z";
     c_attrs := [{| a_name := "numbers"; a_ty := Tup TInt;
          a_checks := [(BIsNone EX)] |}] |}.

(** /repo/src/pymcnp/inp/ksen/Mt.py:8-73 *)
Definition k_ksen_Mt : cls :=
  {| c_name := "ksen_Mt"; c_kind := KOption; c_kw := L "mt";
     c_pat := L "\Amt((?: " ++ slice 2 2 pat_number ++ L ")+?)\Z";
     c_attrs := [{| a_name := "numbers"; a_ty := Tup TInt;
          a_checks := [(BIsNone EX)] |}] |}.

(** /repo/src/pymcnp/inp/ksen/Erg.py:8-73 *)
Definition k_ksen_Erg : cls :=
  {| c_name := "ksen_Erg"; c_kind := KOption; c_kw := L "erg";
     c_pat := L "\Aerg((?: " ++ slice 2 2 pat_number ++ L ")+?)\Z";
     c_attrs := [{| a_name := "energies"; a_ty := Tup TReal;
          a_checks := [(BIsNone EX)] |}] |}.

(** /repo/src/pymcnp/inp/ksen/Ein.py:8-73 *)
Definition k_ksen_Ein : cls :=
  {| c_name := "ksen_Ein"; c_kind := KOption; c_kw := L "ein";
     c_pat := L "\Aein((?: " ++ slice 2 2 pat_number ++ L ")+?)\Z";
     c_attrs := [{| a_name := "energies"; a_ty := Tup TReal;
          a_checks := [(BIsNone EX)] |}] |}.

(** /repo/src/pymcnp/inp/ksen/Legendre.py:8-70 *)
Definition k_ksen_Legendre : cls :=
  {| c_name := "ksen_Legendre"; c_kind := KOption; c_kw := L "legendre";
     c_pat := L "\Alegendre( " ++ slice 2 2 pat_number ++ L ")\Z";
     c_attrs := [{| a_name := "number"; a_ty := One TInt;
          a_checks := [(BIsNone EX)] |}] |}.

(** /repo/src/pymcnp/inp/ksen/Cos.py:8-73 *)
Definition k_ksen_Cos : cls :=
  {| c_name := "ksen_Cos"; c_kind := KOption; c_kw := L "cos";
     c_pat := L "\Acos((?: " ++ slice 2 2 pat_number ++ L ")+?)\Z";
     c_attrs := [{| a_name := "cosines"; a_ty := Tup TReal;
          a_checks := [(BIsNone EX)] |}] |}.

(** /repo/src/pymcnp/inp/ksen/Constrain.py:8-68 *)
Definition k_ksen_Constrain : cls :=
  {| c_name := "ksen_Constrain"; c_kind := KOption; c_kw := L "constrain";
     c_pat := L "\Aconstrain( " ++ slice 2 2 pat_string ++ L ")\Z";
     c_attrs := [{| a_name := "setting"; a_ty := One TStr;
          a_checks := [(BOr (BIsNone EX) (BNot (BIn (ELower EX) [(ES (L "yes")); (ES (L "no"))])))] |}] |}.

(** /repo/src/pymcnp/inp/ksen/_option.py:4-9: the subclasses in definition order, and the pattern
    that _symbol.py:40-44 makes of theirs, longest class name first. *)
Definition f_ksen_KsenOption : list cls := [k_ksen_Iso; k_ksen_Rxn; k_ksen_Mt; k_ksen_Erg; k_ksen_Ein; k_ksen_Legendre; k_ksen_Cos; k_ksen_Constrain].
Definition pat_ksen_KsenOption : str := union_pat [c_pat k_ksen_Constrain; c_pat k_ksen_Legendre; c_pat k_ksen_Iso; c_pat k_ksen_Rxn; c_pat k_ksen_Erg; c_pat k_ksen_Ein; c_pat k_ksen_Cos; c_pat k_ksen_Mt].

(** /repo/src/pymcnp/inp/Ksen.py:9-149 *)
Definition k_Ksen : cls :=
  {| c_name := "Ksen"; c_kind := KCard; c_kw := L "ksen";
     c_pat := L "\Aksen(\d+)( " ++ slice 2 2 pat_string ++ L ")((?: (?:" ++ slice 2 2 pat_ksen_KsenOption ++ L "))+?)?\Z";
     c_attrs := [{| a_name := "suffix"; a_ty := One TInt;
          a_checks := [(BOr (BIsNone EX) (BNot (BAnd (BCmp OGt EX (EZ 0)) (BCmp OLe EX (EZ 999)))))] |};
       {| a_name := "sen"; a_ty := One TStr;
          a_checks := [(BIsNone EX)] |};
       {| a_name := "options"; a_ty := Tup (TExt "ksen_KsenOption" pat_ksen_KsenOption);
          a_checks := [] |}] |}.

(** /repo/src/pymcnp/inp/ksrc/Location.py:8-152 *)
Definition k_ksrc_Location : cls :=
  {| c_name := "ksrc_Location"; c_kind := KEntry; c_kw := L "";
     c_pat := L "\A(" ++ slice 2 2 pat_number ++ L ") (" ++ slice 2 2 pat_number ++ L ") (" ++ slice 2 2 pat_number ++ L ")\Z";
     c_attrs := [{| a_name := "x"; a_ty := One TReal;
          a_checks := [(BIsNone EX)] |};
       {| a_name := "y"; a_ty := One TReal;
          a_checks := [(BIsNone EX)] |};
       {| a_name := "z"; a_ty := One TReal;
          a_checks := [(BIsNone EX)] |}] |}.

(** /repo/src/pymcnp/inp/Ksrc.py:9-72 *)
Definition k_Ksrc : cls :=
  {| c_name := "Ksrc"; c_kind := KCard; c_kw := L "ksrc";
     c_pat := L "\Aksrc((?: " ++ slice 2 2 (c_pat k_ksrc_Location) ++ L ")+?)\Z";
     c_attrs := [{| a_name := "locations"; a_ty := Tup (TExt "ksrc_Location" (c_pat k_ksrc_Location));
          a_checks := [(BIsNone EX)] |}] |}.

(** /repo/src/pymcnp/inp/Lat.py:8-73 *)
Definition k_Lat : cls :=
  {| c_name := "Lat"; c_kind := KCard; c_kw := L "lat";
     c_pat := L "\Alat((?: " ++ slice 2 2 pat_number ++ L ")+?)\Z";
     c_attrs := [{| a_name := "type"; a_ty := Tup TInt;
          a_checks := [(BIsNone EX)] |}] |}.

(** /repo/src/pymcnp/inp/Lca.py:8-490 *)
Definition k_Lca : cls :=
  {| c_name := "Lca"; c_kind := KCard; c_kw := L "lca";
     c_pat := L "\Alca( " ++ slice 2 2 pat_number ++ L ")?( " ++ slice 2 2 pat_number ++ L ")?( " ++ slice 2 2 pat_number ++ L ")?( " ++ slice 2 2 pat_number ++ L ")?( " ++ slice 2 2 pat_number ++ L ")?( " ++ slice 2 2 pat_number ++ L ")?( " ++ slice 2 2 pat_number ++ L ")?( " ++ slice 2 2 pat_number ++ L ")?( " ++ slice 2 2 pat_number ++ L ")?( " ++ slice 2 2 pat_number ++ L ")?( " ++ slice 2 2 pat_number ++ L ")?\Z";
     c_attrs := [{| a_name := "ielas"; a_ty := One TInt;
          a_checks := [(BAnd (BNot (BIsNone EX)) (BNot (BOr (BJump EX) (BOr (BCmp OEq EX (EZ 0)) (BOr (BCmp OEq EX (EZ 1)) (BCmp OEq EX (EZ 2)))))))] |};
       {| a_name := "ipreg"; a_ty := One TInt;
          a_checks := [(BAnd (BNot (BIsNone EX)) (BNot (BOr (BJump EX) (BOr (BCmp OEq EX (EZ 0)) (BOr (BCmp OEq EX (EZ 1)) (BOr (BCmp OEq EX (EZ 2)) (BCmp OEq EX (EZ 3))))))))] |};
       {| a_name := "iexisa"; a_ty := One TInt;
          a_checks := [(BAnd (BNot (BIsNone EX)) (BNot (BOr (BJump EX) (BOr (BCmp OEq EX (EZ 0)) (BOr (BCmp OEq EX (EZ 1)) (BCmp OEq EX (EZ 2)))))))] |};
       {| a_name := "ichoic"; a_ty := One TInt;
          a_checks := [] |};
       {| a_name := "jcoul"; a_ty := One TInt;
          a_checks := [(BAnd (BNot (BIsNone EX)) (BNot (BOr (BJump EX) (BOr (BCmp OEq EX (EZ 0)) (BCmp OEq EX (EZ 1))))))] |};
       {| a_name := "nexite"; a_ty := One TInt;
          a_checks := [(BAnd (BNot (BIsNone EX)) (BNot (BOr (BJump EX) (BOr (BCmp OEq EX (EZ 0)) (BCmp OEq EX (EZ 1))))))] |};
       {| a_name := "npidk"; a_ty := One TInt;
          a_checks := [(BAnd (BNot (BIsNone EX)) (BNot (BOr (BJump EX) (BOr (BCmp OEq EX (EZ 0)) (BCmp OEq EX (EZ 1))))))] |};
       {| a_name := "noact"; a_ty := One TInt;
          a_checks := [(BAnd (BNot (BIsNone EX)) (BNot (BOr (BJump EX) (BOr (BCmp OEq EX (EZ (-2))) (BOr (BCmp OEq EX (EZ (-1))) (BOr (BCmp OEq EX (EZ 0)) (BOr (BCmp OEq EX (EZ 1)) (BCmp OEq EX (EZ 2)))))))))] |};
       {| a_name := "icem"; a_ty := One TInt;
          a_checks := [(BAnd (BNot (BIsNone EX)) (BNot (BOr (BJump EX) (BOr (BCmp OEq EX (EZ 0)) (BOr (BCmp OEq EX (EZ 1)) (BCmp OEq EX (EZ 2)))))))] |};
       {| a_name := "ilaq"; a_ty := One TInt;
          a_checks := [(BAnd (BNot (BIsNone EX)) (BNot (BOr (BJump EX) (BOr (BCmp OEq EX (EZ 0)) (BCmp OEq EX (EZ 1))))))] |};
       {| a_name := "nevtype"; a_ty := One TInt;
          a_checks := [] |}] |}.

(** /repo/src/pymcnp/inp/Lcb.py:7-345 *)
Definition k_Lcb : cls :=
  {| c_name := "Lcb"; c_kind := KCard; c_kw := L "lcb";
     c_pat := L "\Alcb( " ++ slice 2 2 pat_number ++ L ")?( " ++ slice 2 2 pat_number ++ L ")?( " ++ slice 2 2 pat_number ++ L ")?( " ++ slice 2 2 pat_number ++ L ")?( " ++ slice 2 2 pat_number ++ L ")?( " ++ slice 2 2 pat_number ++ L ")?( " ++ slice 2 2 pat_number ++ L ")?( " ++ slice 2 2 pat_number ++ L ")?\Z";
     c_attrs := [{| a_name := "flenb1"; a_ty := One TReal;
          a_checks := [] |};
       {| a_name := "flenb2"; a_ty := One TReal;
          a_checks := [] |};
       {| a_name := "flenb3"; a_ty := One TReal;
          a_checks := [] |};
       {| a_name := "flenb4"; a_ty := One TReal;
          a_checks := [] |};
       {| a_name := "flenb5"; a_ty := One TReal;
          a_checks := [] |};
       {| a_name := "flenb6"; a_ty := One TReal;
          a_checks := [] |};
       {| a_name := "cotfe"; a_ty := One TReal;
          a_checks := [] |};
       {| a_name := "film0"; a_ty := One TReal;
          a_checks := [] |}] |}.

(** /repo/src/pymcnp/inp/Lcc.py:8-352 *)
Definition k_Lcc : cls :=
  {| c_name := "Lcc"; c_kind := KCard; c_kw := L "lcc";
     c_pat := L "\Alcc( " ++ slice 2 2 pat_number ++ L ")?( " ++ slice 2 2 pat_number ++ L ")?( " ++ slice 2 2 pat_number ++ L ")?( " ++ slice 2 2 pat_number ++ L ")?( " ++ slice 2 2 pat_number ++ L ")?( " ++ slice 2 2 pat_number ++ L ")?( " ++ slice 2 2 pat_number ++ L ")?( " ++ slice 2 2 pat_number ++ L ")?\Z";
     c_attrs := [{| a_name := "stincl"; a_ty := One TReal;
          a_checks := [] |};
       {| a_name := "v0incl"; a_ty := One TReal;
          a_checks := [] |};
       {| a_name := "xfoisaincl"; a_ty := One TReal;
          a_checks := [] |};
       {| a_name := "npaulincl"; a_ty := One TInt;
          a_checks := [(BAnd (BNot (BIsNone EX)) (BNot (BOr (BCmp OEq EX (EZ 0)) (BOr (BCmp OEq EX (EZ (-1))) (BCmp OEq EX (EZ 1))))))] |};
       {| a_name := "nosurfincl"; a_ty := One TInt;
          a_checks := [(BAnd (BNot (BIsNone EX)) (BNot (BIn EX [(EZ (-2)); (EZ (-1)); (EZ 0); (EZ 1)])))] |};
       {| a_name := "ecutincl"; a_ty := One TReal;
          a_checks := [] |};
       {| a_name := "ebankincl"; a_ty := One TReal;
          a_checks := [] |};
       {| a_name := "ebankabia"; a_ty := One TReal;
          a_checks := [] |}] |}.

(** /repo/src/pymcnp/inp/Lea.py:8-370 *)
Definition k_Lea : cls :=
  {| c_name := "Lea"; c_kind := KCard; c_kw := L "lea";
     c_pat := L "\Alea( " ++ slice 2 2 pat_number ++ L ")?( " ++ slice 2 2 pat_number ++ L ")?( " ++ slice 2 2 pat_number ++ L ")?( " ++ slice 2 2 pat_number ++ L ")?( " ++ slice 2 2 pat_number ++ L ")?( " ++ slice 2 2 pat_number ++ L ")?( " ++ slice 2 2 pat_number ++ L ")?( " ++ slice 2 2 pat_number ++ L ")?\Z";
     c_attrs := [{| a_name := "ipht"; a_ty := One TInt;
          a_checks := [(BAnd (BNot (BIsNone EX)) (BNot (BOr (BJump EX) (BIn EX [(EZ 0); (EZ 1)]))))] |};
       {| a_name := "icc"; a_ty := One TInt;
          a_checks := [(BAnd (BNot (BIsNone EX)) (BNot (BOr (BJump EX) (BIn EX [(EZ 0); (EZ 1); (EZ 2); (EZ 3); (EZ 4)]))))] |};
       {| a_name := "nobalc"; a_ty := One TInt;
          a_checks := [(BAnd (BNot (BIsNone EX)) (BNot (BOr (BJump EX) (BIn EX [(EZ 0); (EZ 1)]))))] |};
       {| a_name := "nobale"; a_ty := One TInt;
          a_checks := [(BAnd (BNot (BIsNone EX)) (BNot (BOr (BJump EX) (BIn EX [(EZ 0); (EZ 1)]))))] |};
       {| a_name := "ifbrk"; a_ty := One TInt;
          a_checks := [(BAnd (BNot (BIsNone EX)) (BNot (BOr (BJump EX) (BIn EX [(EZ 0); (EZ 1)]))))] |};
       {| a_name := "ilvden"; a_ty := One TInt;
          a_checks := [(BAnd (BNot (BIsNone EX)) (BNot (BOr (BJump EX) (BIn EX [(EZ 0); (EZ 1); (EZ (-1))]))))] |};
       {| a_name := "ievap"; a_ty := One TInt;
          a_checks := [(BAnd (BNot (BIsNone EX)) (BNot (BOr (BJump EX) (BIn EX [(EZ 0); (EZ 1); (EZ (-1)); (EZ 2)]))))] |};
       {| a_name := "nofis"; a_ty := One TInt;
          a_checks := [(BAnd (BNot (BIsNone EX)) (BNot (BOr (BJump EX) (BIn EX [(EZ 0); (EZ 1)]))))] |}] |}.

(** /repo/src/pymcnp/inp/Leb.py:8-195 *)
Definition k_Leb : cls :=
  {| c_name := "Leb"; c_kind := KCard; c_kw := L "leb";
     c_pat := L "\Aleb( " ++ slice 2 2 pat_number ++ L ")?( " ++ slice 2 2 pat_number ++ L ")?( " ++ slice 2 2 pat_number ++ L ")?( " ++ slice 2 2 pat_number ++ L ")?\Z";
     c_attrs := [{| a_name := "yzere"; a_ty := One TReal;
          a_checks := [(BAnd (BNot (BIsNone EX)) (BNot (BOr (BJump EX) (BCmp OGt EX (EZ 0)))))] |};
       {| a_name := "bzere"; a_ty := One TReal;
          a_checks := [(BAnd (BNot (BIsNone EX)) (BNot (BOr (BJump EX) (BCmp OGt EX (EZ 0)))))] |};
       {| a_name := "yzero"; a_ty := One TReal;
          a_checks := [(BAnd (BNot (BIsNone EX)) (BNot (BOr (BJump EX) (BCmp OGt EX (EZ 0)))))] |};
       {| a_name := "bzero"; a_ty := One TReal;
          a_checks := [(BAnd (BNot (BIsNone EX)) (BNot (BOr (BJump EX) (BCmp OGt EX (EZ 0)))))] |}] |}.

(** /repo/src/pymcnp/inp/Lost.py:8-111 *)
Definition k_Lost : cls :=
  {| c_name := "Lost"; c_kind := KCard; c_kw := L "lost";
     c_pat := L "\Alost( " ++ slice 2 2 pat_number ++ L ")( " ++ slice 2 2 pat_number ++ L ")\Z";
     c_attrs := [{| a_name := "lost1"; a_ty := One TInt;
          a_checks := [(BOr (BIsNone EX) (BNot (BCmp OGe EX (EZ 0))))] |};
       {| a_name := "lost2"; a_ty := One TInt;
          a_checks := [(BOr (BIsNone EX) (BNot (BCmp OGe EX (EZ 0))))] |}] |}.

(** /repo/src/pymcnp/inp/M_1.py:8-109 *)
Definition k_M_1 : cls :=
  {| c_name := "M_1"; c_kind := KCard; c_kw := L "m";
     c_pat := L "\Am(\d+)( " ++ slice 2 2 pat_string ++ L ")\Z";
     c_attrs := [{| a_name := "suffix"; a_ty := One TInt;
          a_checks := [(BIsNone EX)] |};
       {| a_name := "abx"; a_ty := One TStr;
          a_checks := [(BIsNone EX)] |}] |}.

(** /repo/src/pymcnp/inp/mesh/Geom.py:8-68 *)
Definition k_mesh_Geom : cls :=
  {| c_name := "mesh_Geom"; c_kind := KOption; c_kw := L "geom";
     c_pat := L "\Ageom( " ++ slice 2 2 pat_string ++ L ")\Z";
     c_attrs := [{| a_name := "geometry"; a_ty := One TStr;
          a_checks := [(BOr (BIsNone EX) (BNot (BIn (ELower EX) [(ES (L "xyz")); (ES (L "rzt")); (ES (L "rpt")); (ES (L "cyl")); (ES (L "rec")); (ES (L "sph"))])))] |}] |}.

(** /repo/src/pymcnp/inp/mesh/Ref.py:8-73 *)
Definition k_mesh_Ref : cls :=
  {| c_name := "mesh_Ref"; c_kind := KOption; c_kw := L "ref";
     c_pat := L "\Aref((?: " ++ slice 2 2 pat_number ++ L ")+?)\Z";
     c_attrs := [{| a_name := "point"; a_ty := Tup TReal;
          a_checks := [(BIsNone EX)] |}] |}.

(** /repo/src/pymcnp/inp/mesh/Origin.py:8-73 *)
Definition k_mesh_Origin : cls :=
  {| c_name := "mesh_Origin"; c_kind := KOption; c_kw := L "origin";
     c_pat := L "\Aorigin((?: " ++ slice 2 2 pat_number ++ L ")+?)\Z";
     c_attrs := [{| a_name := "point"; a_ty := Tup TReal;
          a_checks := [(BIsNone EX)] |}] |}.

(** /repo/src/pymcnp/inp/mesh/Axs.py:8-73 *)
Definition k_mesh_Axs : cls :=
  {| c_name := "mesh_Axs"; c_kind := KOption; c_kw := L "axs";
     c_pat := L "\Aaxs((?: " ++ slice 2 2 pat_number ++ L ")+?)\Z";
     c_attrs := [{| a_name := "vector"; a_ty := Tup TReal;
          a_checks := [(BIsNone EX)] |}] |}.

(** /repo/src/pymcnp/inp/mesh/Vec.py:8-73 *)
Definition k_mesh_Vec : cls :=
  {| c_name := "mesh_Vec"; c_kind := KOption; c_kw := L "vec";
     c_pat := L "\Avec((?: " ++ slice 2 2 pat_number ++ L ")+?)\Z";
     c_attrs := [{| a_name := "vector"; a_ty := Tup TReal;
          a_checks := [(BIsNone EX)] |}] |}.

(** /repo/src/pymcnp/inp/mesh/Imesh.py:8-73 *)
Definition k_mesh_Imesh : cls :=
  {| c_name := "mesh_Imesh"; c_kind := KOption; c_kw := L "imesh";
     c_pat := L "\Aimesh((?: " ++ slice 2 2 pat_number ++ L ")+?)\Z";
     c_attrs := [{| a_name := "vector"; a_ty := Tup TReal;
          a_checks := [(BIsNone EX)] |}] |}.

(** /repo/src/pymcnp/inp/mesh/Iints.py:8-73 *)
Definition k_mesh_Iints : cls :=
  {| c_name := "mesh_Iints"; c_kind := KOption; c_kw := L "iints";
     c_pat := L "\Aiints((?: " ++ slice 2 2 pat_number ++ L ")+?)\Z";
     c_attrs := [{| a_name := "number"; a_ty := Tup TInt;
          a_checks := [(BIsNone EX)] |}] |}.

(** /repo/src/pymcnp/inp/mesh/Jmesh.py:8-73 *)
Definition k_mesh_Jmesh : cls :=
  {| c_name := "mesh_Jmesh"; c_kind := KOption; c_kw := L "jmesh";
     c_pat := L "\Ajmesh((?: " ++ slice 2 2 pat_number ++ L ")+?)\Z";
     c_attrs := [{| a_name := "vector"; a_ty := Tup TReal;
          a_checks := [(BIsNone EX)] |}] |}.

(** /repo/src/pymcnp/inp/mesh/Jints.py:8-73 *)
Definition k_mesh_Jints : cls :=
  {| c_name := "mesh_Jints"; c_kind := KOption; c_kw := L "jints";
     c_pat := L "\Ajints((?: " ++ slice 2 2 pat_number ++ L ")+?)\Z";
     c_attrs := [{| a_name := "number"; a_ty := Tup TInt;
          a_checks := [(BIsNone EX)] |}] |}.

(** /repo/src/pymcnp/inp/mesh/Kmesh.py:8-73 *)
Definition k_mesh_Kmesh : cls :=
  {| c_name := "mesh_Kmesh"; c_kind := KOption; c_kw := L "kmesh";
     c_pat := L "\Akmesh((?: " ++ slice 2 2 pat_number ++ L ")+?)\Z";
     c_attrs := [{| a_name := "vector"; a_ty := Tup TReal;
          a_checks := [(BIsNone EX)] |}] |}.

(** /repo/src/pymcnp/inp/mesh/Kints.py:8-73 *)
Definition k_mesh_Kints : cls :=
  {| c_name := "mesh_Kints"; c_kind := KOption; c_kw := L "kints";
     c_pat := L "\Akints((?: " ++ slice 2 2 pat_number ++ L ")+?)\Z";
     c_attrs := [{| a_name := "number"; a_ty := Tup TInt;
          a_checks := [(BIsNone EX)] |}] |}.

(** /repo/src/pymcnp/inp/mesh/_option.py:4-9: the subclasses in definition order, and the pattern
    that _symbol.py:40-44 makes of theirs, longest class name first. *)
Definition f_mesh_MeshOption : list cls := [k_mesh_Geom; k_mesh_Ref; k_mesh_Origin; k_mesh_Axs; k_mesh_Vec; k_mesh_Imesh; k_mesh_Iints; k_mesh_Jmesh; k_mesh_Jints; k_mesh_Kmesh; k_mesh_Kints].
Definition pat_mesh_MeshOption : str := union_pat [c_pat k_mesh_Origin; c_pat k_mesh_Imesh; c_pat k_mesh_Iints; c_pat k_mesh_Jmesh; c_pat k_mesh_Jints; c_pat k_mesh_Kmesh; c_pat k_mesh_Kints; c_pat k_mesh_Geom; c_pat k_mesh_Ref; c_pat k_mesh_Axs; c_pat k_mesh_Vec].

(** /repo/src/pymcnp/inp/Mesh.py:8-68 *)
Definition k_Mesh : cls :=
  {| c_name := "Mesh"; c_kind := KCard; c_kw := L "mesh";
     c_pat := L "\Amesh((?: (?:" ++ slice 2 2 pat_mesh_MeshOption ++ L "))+?)?\Z";
     c_attrs := [{| a_name := "options"; a_ty := Tup (TExt "mesh_MeshOption" pat_mesh_MeshOption);
          a_checks := [] |}] |}.

(** /repo/src/pymcnp/inp/Mgopt.py:8-317 *)
Definition k_Mgopt : cls :=
  {| c_name := "Mgopt"; c_kind := KCard; c_kw := L "mgopt";
     c_pat := L "\Amgopt( " ++ slice 2 2 pat_string ++ L ")( " ++ slice 2 2 pat_number ++ L ")( " ++ slice 2 2 pat_number ++ L ")?( " ++ slice 2 2 pat_number ++ L ")?( " ++ slice 2 2 pat_number ++ L ")?( " ++ slice 2 2 pat_number ++ L ")?( " ++ slice 2 2 pat_number ++ L ")?\Z";
     c_attrs := [{| a_name := "mcal"; a_ty := One TStr;
          a_checks := [(BOr (BIsNone EX) (BNot (BIn (ELower EX) [(ES (L "f")); (ES (L "a"))])))] |};
       {| a_name := "igm"; a_ty := One TInt;
          a_checks := [(BOr (BIsNone EX) (BNot (BCmp OGe EX (EZ 0))))] |};
       {| a_name := "iplt"; a_ty := One TInt;
          a_checks := [(BAnd (BNot (BIsNone EX)) (BNot (BIn EX [(EZ 0); (EZ 1); (EZ 2)])))] |};
       {| a_name := "iab"; a_ty := One TInt;
          a_checks := [(BAnd (BNot (BIsNone EX)) (BNot (BIn EX [(EZ 0); (EZ 1); (EZ 2)])))] |};
       {| a_name := "icw"; a_ty := One TInt;
          a_checks := [] |};
       {| a_name := "fnw"; a_ty := One TReal;
          a_checks := [] |};
       {| a_name := "rim"; a_ty := One TReal;
          a_checks := [] |}] |}.

(** /repo/src/pymcnp/inp/Mode.py:8-71 *)
Definition k_Mode : cls :=
  {| c_name := "Mode"; c_kind := KCard; c_kw := L "mode";
     c_pat := L "\Amode((?: " ++ slice 2 2 pat_designator ++ L ")+?)\Z";
     c_attrs := [{| a_name := "particles"; a_ty := Tup TDesig;
          a_checks := [(BIsNone EX)] |}] |}.

(** /repo/src/pymcnp/inp/Mphys.py:8-68 *)
Definition k_Mphys : cls :=
  {| c_name := "Mphys"; c_kind := KCard; c_kw := L "mphys";
     c_pat := L "\Amphys( " ++ slice 2 2 pat_string ++ L ")?\Z";
     c_attrs := [{| a_name := "setting"; a_ty := One TStr;
          a_checks := [(BAnd (BNot (BIsNone EX)) (BNot (BIn (ELower EX) [(ES (L "on")); (ES (L "off"))])))] |}] |}.

(** /repo/src/pymcnp/inp/mplot/Term.py:8-70 *)
Definition k_mplot_Term : cls :=
  {| c_name := "mplot_Term"; c_kind := KOption; c_kw := L "term";
     c_pat := L "\Aterm( " ++ slice 2 2 pat_number ++ L ")\Z";
     c_attrs := [{| a_name := "n"; a_ty := One TInt;
          a_checks := [(BOr (BIsNone EX) (BNot (BIn EX [(EZ 0); (EZ 1)])))] |}] |}.

(** /repo/src/pymcnp/inp/mplot/File.py:8-68 *)
Definition k_mplot_File : cls :=
  {| c_name := "mplot_File"; c_kind := KOption; c_kw := L "file";
     c_pat := L "\Afile(?: (all|none))?\Z";
     c_attrs := [{| a_name := "aa"; a_ty := One TStr;
          a_checks := [(BAnd (BNot (BIsNone EX)) (BNot (BIn (ELower EX) [(ES (L "all")); (ES (L "none"))])))] |}] |}.

(** /repo/src/pymcnp/inp/mplot/Coplot.py:6-28 *)
Definition k_mplot_Coplot : cls :=
  {| c_name := "mplot_Coplot"; c_kind := KOption; c_kw := L "coplot";
     c_pat := L "\Acoplot\Z";
     c_attrs := [] |}.

(** /repo/src/pymcnp/inp/mplot/Freq.py:8-70 *)
Definition k_mplot_Freq : cls :=
  {| c_name := "mplot_Freq"; c_kind := KOption; c_kw := L "freq";
     c_pat := L "\Afreq( " ++ slice 2 2 pat_number ++ L ")\Z";
     c_attrs := [{| a_name := "n"; a_ty := One TInt;
          a_checks := [(BIsNone EX)] |}] |}.

(** /repo/src/pymcnp/inp/mplot/Return.py:6-28 *)
Definition k_mplot_Return : cls :=
  {| c_name := "mplot_Return"; c_kind := KOption; c_kw := L "return";
     c_pat := L "\Areturn\Z";
     c_attrs := [] |}.

(** /repo/src/pymcnp/inp/mplot/Plot.py:6-28 *)
Definition k_mplot_Plot : cls :=
  {| c_name := "mplot_Plot"; c_kind := KOption; c_kw := L "plot";
     c_pat := L "\Aplot\Z";
     c_attrs := [] |}.

(** /repo/src/pymcnp/inp/mplot/Pause.py:7-66 *)
Definition k_mplot_Pause : cls :=
  {| c_name := "mplot_Pause"; c_kind := KOption; c_kw := L "pause";
     c_pat := L "\Apause( " ++ slice 2 2 pat_number ++ L ")?\Z";
     c_attrs := [{| a_name := "n"; a_ty := One TInt;
          a_checks := [] |}] |}.

(** /repo/src/pymcnp/inp/mplot/End.py:6-28 *)
Definition k_mplot_End : cls :=
  {| c_name := "mplot_End"; c_kind := KOption; c_kw := L "end";
     c_pat := L "\Aend\Z";
     c_attrs := [] |}.

(** /repo/src/pymcnp/inp/mplot/Options.py:6-28 *)
Definition k_mplot_Options : cls :=
  {| c_name := "mplot_Options"; c_kind := KOption; c_kw := L "options";
     c_pat := L "\Aoptions\Z";
     c_attrs := [] |}.

(** /repo/src/pymcnp/inp/mplot/Help.py:6-28 *)
Definition k_mplot_Help : cls :=
  {| c_name := "mplot_Help"; c_kind := KOption; c_kw := L "help";
     c_pat := L "\Ahelp\Z";
     c_attrs := [] |}.

(** /repo/src/pymcnp/inp/mplot/Status.py:6-28 *)
Definition k_mplot_Status : cls :=
  {| c_name := "mplot_Status"; c_kind := KOption; c_kw := L "status";
     c_pat := L "\Astatus\Z";
     c_attrs := [] |}.

(** /repo/src/pymcnp/inp/mplot/Printal.py:6-28 *)
Definition k_mplot_Printal : cls :=
  {| c_name := "mplot_Printal"; c_kind := KOption; c_kw := L "printal";
     c_pat := L "\Aprintal\Z";
     c_attrs := [] |}.

(** /repo/src/pymcnp/inp/mplot/Iptal.py:6-28 *)
Definition k_mplot_Iptal : cls :=
  {| c_name := "mplot_Iptal"; c_kind := KOption; c_kw := L "iptal";
     c_pat := L "\Aiptal\Z";
     c_attrs := [] |}.

(** /repo/src/pymcnp/inp/mplot/Printpts.py:6-28 *)
Definition k_mplot_Printpts : cls :=
  {| c_name := "mplot_Printpts"; c_kind := KOption; c_kw := L "printpts";
     c_pat := L "\Aprintpts\Z";
     c_attrs := [] |}.

(** /repo/src/pymcnp/inp/mplot/Runtpe.py:8-106 *)
Definition k_mplot_Runtpe : cls :=
  {| c_name := "mplot_Runtpe"; c_kind := KOption; c_kw := L "runtpe";
     c_pat := L "\Aruntpe( " ++ slice 2 2 pat_string ++ L ")( " ++ slice 2 2 pat_number ++ L ")?\Z";
     c_attrs := [{| a_name := "filename"; a_ty := One TStr;
          a_checks := [(BIsNone EX)] |};
       {| a_name := "n"; a_ty := One TInt;
          a_checks := [] |}] |}.

(** /repo/src/pymcnp/inp/mplot/Dump.py:7-66 *)
Definition k_mplot_Dump : cls :=
  {| c_name := "mplot_Dump"; c_kind := KOption; c_kw := L "dump";
     c_pat := L "\Adump( " ++ slice 2 2 pat_number ++ L ")?\Z";
     c_attrs := [{| a_name := "n"; a_ty := One TInt;
          a_checks := [] |}] |}.

(** /repo/src/pymcnp/inp/mplot/Wmctal.py:8-68 *)
Definition k_mplot_Wmctal : cls :=
  {| c_name := "mplot_Wmctal"; c_kind := KOption; c_kw := L "wmctal";
     c_pat := L "\Awmctal( " ++ slice 2 2 pat_string ++ L ")\Z";
     c_attrs := [{| a_name := "filename"; a_ty := One TStr;
          a_checks := [(BIsNone EX)] |}] |}.

(** /repo/src/pymcnp/inp/mplot/Rmctal.py:8-68 *)
Definition k_mplot_Rmctal : cls :=
  {| c_name := "mplot_Rmctal"; c_kind := KOption; c_kw := L "rmctal";
     c_pat := L "\Armctal( " ++ slice 2 2 pat_string ++ L ")\Z";
     c_attrs := [{| a_name := "filename"; a_ty := One TStr;
          a_checks := [(BIsNone EX)] |}] |}.

(** /repo/src/pymcnp/inp/mplot/Tally.py:7-66 *)
Definition k_mplot_Tally : cls :=
  {| c_name := "mplot_Tally"; c_kind := KOption; c_kw := L "tally";
     c_pat := L "\Atally( " ++ slice 2 2 pat_number ++ L ")?\Z";
     c_attrs := [{| a_name := "n"; a_ty := One TInt;
          a_checks := [] |}] |}.

(** /repo/src/pymcnp/inp/mplot/Pert.py:7-66 *)
Definition k_mplot_Pert : cls :=
  {| c_name := "mplot_Pert"; c_kind := KOption; c_kw := L "pert";
     c_pat := L "\Apert( " ++ slice 2 2 pat_number ++ L ")?\Z";
     c_attrs := [{| a_name := "n"; a_ty := One TInt;
          a_checks := [] |}] |}.

(** /repo/src/pymcnp/inp/mplot/Lethargy.py:6-28 *)
Definition k_mplot_Lethargy : cls :=
  {| c_name := "mplot_Lethargy"; c_kind := KOption; c_kw := L "lethargy";
     c_pat := L "\Alethargy\Z";
     c_attrs := [] |}.

(** /repo/src/pymcnp/inp/mplot/Nonorm.py:6-28 *)
Definition k_mplot_Nonorm : cls :=
  {| c_name := "mplot_Nonorm"; c_kind := KOption; c_kw := L "nonorm";
     c_pat := L "\Anonorm\Z";
     c_attrs := [] |}.

(** /repo/src/pymcnp/inp/mplot/Factor.py:8-147 *)
Definition k_mplot_Factor : cls :=
  {| c_name := "mplot_Factor"; c_kind := KOption; c_kw := L "factor";
     c_pat := L "\Afactor( " ++ slice 2 2 pat_string ++ L ")( " ++ slice 2 2 pat_number ++ L ")( " ++ slice 2 2 pat_number ++ L ")?\Z";
     c_attrs := [{| a_name := "a"; a_ty := One TStr;
          a_checks := [(BOr (BIsNone EX) (BNot (BIn (ELower EX) [(ES (L "x")); (ES (L "y")); (ES (L "z"))])))] |};
       {| a_name := "f"; a_ty := One TReal;
          a_checks := [(BIsNone EX)] |};
       {| a_name := "s"; a_ty := One TReal;
          a_checks := [] |}] |}.

(** /repo/src/pymcnp/inp/mplot/Reset.py:8-68 *)
Definition k_mplot_Reset : cls :=
  {| c_name := "mplot_Reset"; c_kind := KOption; c_kw := L "reset";
     c_pat := L "\Areset(?: (all|coplot))?\Z";
     c_attrs := [{| a_name := "aa"; a_ty := One TStr;
          a_checks := [(BAnd (BNot (BIsNone EX)) (BNot (BIn (ELower EX) [(ES (L "all")); (ES (L "coplot"))])))] |}] |}.

(** /repo/src/pymcnp/inp/mplot/Title.py:8-109 *)
Definition k_mplot_Title : cls :=
  {| c_name := "mplot_Title"; c_kind := KOption; c_kw := L "title";
     c_pat := L "\Atitle( " ++ slice 2 2 pat_number ++ L ")( \""" ++ slice 2 2 pat_string ++ L "\"")\Z";
     c_attrs := [{| a_name := "n"; a_ty := One TInt;
          a_checks := [(BOr (BIsNone EX) (BNot (BCmp OGt EX (EZ 0))))] |};
       {| a_name := "aa"; a_ty := One TStr;
          a_checks := [(BOr (BIsNone EX) (BNot (BCmp OLe (ELen EX) (EZ 40))))] |}] |}.

(** /repo/src/pymcnp/inp/mplot/Below.py:6-28 *)
Definition k_mplot_Below : cls :=
  {| c_name := "mplot_Below"; c_kind := KOption; c_kw := L "below";
     c_pat := L "\Abelow\Z";
     c_attrs := [] |}.

(** /repo/src/pymcnp/inp/mplot/Subtitle.py:8-150 *)
Definition k_mplot_Subtitle : cls :=
  {| c_name := "mplot_Subtitle"; c_kind := KOption; c_kw := L "subtitle";
     c_pat := L "\Asubtitle( " ++ slice 2 2 pat_number ++ L ")( " ++ slice 2 2 pat_number ++ L ")( \""" ++ slice 2 2 pat_string ++ L "\"")\Z";
     c_attrs := [{| a_name := "x"; a_ty := One TInt;
          a_checks := [(BIsNone EX)] |};
       {| a_name := "y"; a_ty := One TInt;
          a_checks := [(BIsNone EX)] |};
       {| a_name := "aa"; a_ty := One TStr;
          a_checks := [(BOr (BIsNone EX) (BNot (BCmp OLe (ELen EX) (EZ 40))))] |}] |}.

(** /repo/src/pymcnp/inp/mplot/Xtitle.py:8-68 *)
Definition k_mplot_Xtitle : cls :=
  {| c_name := "mplot_Xtitle"; c_kind := KOption; c_kw := L "xtitle";
     c_pat := L "\Axtitle( \""" ++ slice 2 2 pat_string ++ L "\"")\Z";
     c_attrs := [{| a_name := "aa"; a_ty := One TStr;
          a_checks := [(BOr (BIsNone EX) (BNot (BCmp OLe (ELen EX) (EZ 40))))] |}] |}.

(** /repo/src/pymcnp/inp/mplot/Ytitle.py:8-68 *)
Definition k_mplot_Ytitle : cls :=
  {| c_name := "mplot_Ytitle"; c_kind := KOption; c_kw := L "ytitle";
     c_pat := L "\Aytitle( \""" ++ slice 2 2 pat_string ++ L "\"")\Z";
     c_attrs := [{| a_name := "aa"; a_ty := One TStr;
          a_checks := [(BOr (BIsNone EX) (BNot (BCmp OLe (ELen EX) (EZ 40))))] |}] |}.

(** /repo/src/pymcnp/inp/mplot/Ztitle.py:8-68 *)
Definition k_mplot_Ztitle : cls :=
  {| c_name := "mplot_Ztitle"; c_kind := KOption; c_kw := L "ztitle";
     c_pat := L "\Aztitle( \""" ++ slice 2 2 pat_string ++ L "\"")\Z";
     c_attrs := [{| a_name := "aa"; a_ty := One TStr;
          a_checks := [(BOr (BIsNone EX) (BNot (BCmp OLe (ELen EX) (EZ 40))))] |}] |}.

(** /repo/src/pymcnp/inp/mplot/Label.py:8-68 *)
Definition k_mplot_Label : cls :=
  {| c_name := "mplot_Label"; c_kind := KOption; c_kw := L "label";
     c_pat := L "\Alabel( \""" ++ slice 2 2 pat_string ++ L "\"")\Z";
     c_attrs := [{| a_name := "aa"; a_ty := One TStr;
          a_checks := [(BOr (BIsNone EX) (BNot (BCmp OLe (ELen EX) (EZ 10))))] |}] |}.

(** /repo/src/pymcnp/inp/mplot/free/All.py:6-28 *)
Definition k_mplot_free_All : cls :=
  {| c_name := "mplot_free_All"; c_kind := KOption; c_kw := L "all";
     c_pat := L "\Aall\Z";
     c_attrs := [] |}.

(** /repo/src/pymcnp/inp/mplot/free/Noall.py:6-28 *)
Definition k_mplot_free_Noall : cls :=
  {| c_name := "mplot_free_Noall"; c_kind := KOption; c_kw := L "noall";
     c_pat := L "\Anoall\Z";
     c_attrs := [] |}.

(** /repo/src/pymcnp/inp/mplot/free/_option.py:4-9: the subclasses in definition order, and the pattern
    that _symbol.py:40-44 makes of theirs, longest class name first. *)
Definition f_mplot_free_FreeOption : list cls := [k_mplot_free_All; k_mplot_free_Noall].
Definition pat_mplot_free_FreeOption : str := union_pat [c_pat k_mplot_free_Noall; c_pat k_mplot_free_All].

(** /repo/src/pymcnp/inp/mplot/Free.py:9-144 *)
Definition k_mplot_Free : cls :=
  {| c_name := "mplot_Free"; c_kind := KOption; c_kw := L "free";
     c_pat := L "\Afree( " ++ slice 2 2 pat_string ++ L ")( " ++ slice 2 2 pat_string ++ L ")( (?:" ++ slice 2 2 pat_mplot_free_FreeOption ++ L "))?\Z";
     c_attrs := [{| a_name := "x"; a_ty := One TStr;
          a_checks := [(BOr (BIsNone EX) (BNot (BIn (ELower EX) [(ES (L "f")); (ES (L "d")); (ES (L "u")); (ES (L "s")); (ES (L "m")); (ES (L "c")); (ES (L "e")); (ES (L "t")); (ES (L "i")); (ES (L "j")); (ES (L "k"))])))] |};
       {| a_name := "y"; a_ty := One TStr;
          a_checks := [(BOr (BIsNone EX) (BNot (BIn (ELower EX) [(ES (L "f")); (ES (L "d")); (ES (L "u")); (ES (L "s")); (ES (L "m")); (ES (L "c")); (ES (L "e")); (ES (L "t")); (ES (L "i")); (ES (L "j")); (ES (L "k"))])))] |};
       {| a_name := "option"; a_ty := One (TExt "mplot_free_FreeOption" pat_mplot_free_FreeOption);
          a_checks := [] |}] |}.

(** /repo/src/pymcnp/inp/mplot/Fixed.py:8-109 *)
Definition k_mplot_Fixed : cls :=
  {| c_name := "mplot_Fixed"; c_kind := KOption; c_kw := L "fixed";
     c_pat := L "\Afixed( " ++ slice 2 2 pat_string ++ L ")( " ++ slice 2 2 pat_number ++ L ")\Z";
     c_attrs := [{| a_name := "q"; a_ty := One TStr;
          a_checks := [(BOr (BIsNone EX) (BNot (BIn (ELower EX) [(ES (L "f")); (ES (L "d")); (ES (L "u")); (ES (L "s")); (ES (L "m")); (ES (L "c")); (ES (L "e")); (ES (L "t")); (ES (L "i")); (ES (L "j")); (ES (L "k"))])))] |};
       {| a_name := "n"; a_ty := One TInt;
          a_checks := [(BIsNone EX)] |}] |}.

(** /repo/src/pymcnp/inp/mplot/Set.py:8-370 *)
Definition k_mplot_Set : cls :=
  {| c_name := "mplot_Set"; c_kind := KOption; c_kw := L "set";
     c_pat := L "\Aset( " ++ slice 2 2 pat_number ++ L ")( " ++ slice 2 2 pat_number ++ L ")( " ++ slice 2 2 pat_number ++ L ")( " ++ slice 2 2 pat_number ++ L ")( " ++ slice 2 2 pat_number ++ L ")( " ++ slice 2 2 pat_number ++ L ")( " ++ slice 2 2 pat_number ++ L ")( " ++ slice 2 2 pat_number ++ L ")\Z";
     c_attrs := [{| a_name := "f"; a_ty := One TInt;
          a_checks := [(BIsNone EX)] |};
       {| a_name := "d"; a_ty := One TInt;
          a_checks := [(BIsNone EX)] |};
       {| a_name := "u"; a_ty := One TInt;
          a_checks := [(BIsNone EX)] |};
       {| a_name := "s"; a_ty := One TInt;
          a_checks := [(BIsNone EX)] |};
       {| a_name := "m"; a_ty := One TInt;
          a_checks := [(BIsNone EX)] |};
       {| a_name := "c"; a_ty := One TInt;
          a_checks := [(BIsNone EX)] |};
       {| a_name := "e"; a_ty := One TInt;
          a_checks := [(BIsNone EX)] |};
       {| a_name := "t"; a_ty := One TInt;
          a_checks := [(BIsNone EX)] |}] |}.

(** /repo/src/pymcnp/inp/mplot/Tfc.py:8-68 *)
Definition k_mplot_Tfc : cls :=
  {| c_name := "mplot_Tfc"; c_kind := KOption; c_kw := L "tfc";
     c_pat := L "\Atfc( " ++ slice 2 2 pat_string ++ L ")\Z";
     c_attrs := [{| a_name := "x"; a_ty := One TStr;
          a_checks := [(BIsNone EX)] |}] |}.

(** /repo/src/pymcnp/inp/mplot/Kcode.py:8-70 *)
Definition k_mplot_Kcode : cls :=
  {| c_name := "mplot_Kcode"; c_kind := KOption; c_kw := L "kcode";
     c_pat := L "\Akcode( " ++ slice 2 2 pat_number ++ L ")\Z";
     c_attrs := [{| a_name := "i"; a_ty := One TInt;
          a_checks := [(BOr (BIsNone EX) (BNot (BOr (BAnd (BCmp OGe EX (EZ 1)) (BCmp OLe EX (EZ 6))) (BAnd (BCmp OGe EX (EZ 1)) (BCmp OLe EX (EZ 19))))))] |}] |}.

(** /repo/src/pymcnp/inp/mplot/Xs_0.py:8-70 *)
Definition k_mplot_Xs_0 : cls :=
  {| c_name := "mplot_Xs_0"; c_kind := KOption; c_kw := L "xs";
     c_pat := L "\Axs( " ++ slice 2 2 pat_number ++ L ")\Z";
     c_attrs := [{| a_name := "m"; a_ty := One TInt;
          a_checks := [(BIsNone EX)] |}] |}.

(** /repo/src/pymcnp/inp/mplot/Xs_1.py:8-68 *)
Definition k_mplot_Xs_1 : cls :=
  {| c_name := "mplot_Xs_1"; c_kind := KOption; c_kw := L "xs";
     c_pat := L "\Axs( " ++ slice 2 2 pat_zaid ++ L ")\Z";
     c_attrs := [{| a_name := "m"; a_ty := One TZaid;
          a_checks := [(BIsNone EX)] |}] |}.

(** /repo/src/pymcnp/inp/mplot/Xs_2.py:8-68 *)
Definition k_mplot_Xs_2 : cls :=
  {| c_name := "mplot_Xs_2"; c_kind := KOption; c_kw := L "xs";
     c_pat := L "\Axs( " ++ slice 2 2 pat_string ++ L ")\Z";
     c_attrs := [{| a_name := "m"; a_ty := One TStr;
          a_checks := [(BOr (BIsNone EX) (BNot (BCmp OEq EX (ES (L "?")))))] |}] |}.

(** /repo/src/pymcnp/inp/mplot/Mt.py:8-70 *)
Definition k_mplot_Mt : cls :=
  {| c_name := "mplot_Mt"; c_kind := KOption; c_kw := L "mt";
     c_pat := L "\Amt( " ++ slice 2 2 pat_number ++ L ")\Z";
     c_attrs := [{| a_name := "n"; a_ty := One TInt;
          a_checks := [(BIsNone EX)] |}] |}.

(** /repo/src/pymcnp/inp/mplot/Par.py:8-68 *)
Definition k_mplot_Par : cls :=
  {| c_name := "mplot_Par"; c_kind := KOption; c_kw := L "par";
     c_pat := L "\Apar( " ++ slice 2 2 pat_designator ++ L ")\Z";
     c_attrs := [{| a_name := "particle"; a_ty := One TDesig;
          a_checks := [(BIsNone EX)] |}] |}.

(** /repo/src/pymcnp/inp/mplot/Linlin.py:6-28 *)
Definition k_mplot_Linlin : cls :=
  {| c_name := "mplot_Linlin"; c_kind := KOption; c_kw := L "linlin";
     c_pat := L "\Alinlin\Z";
     c_attrs := [] |}.

(** /repo/src/pymcnp/inp/mplot/Linlog.py:6-28 *)
Definition k_mplot_Linlog : cls :=
  {| c_name := "mplot_Linlog"; c_kind := KOption; c_kw := L "linlog";
     c_pat := L "\Alinlog\Z";
     c_attrs := [] |}.

(** /repo/src/pymcnp/inp/mplot/Loglin.py:6-28 *)
Definition k_mplot_Loglin : cls :=
  {| c_name := "mplot_Loglin"; c_kind := KOption; c_kw := L "loglin";
     c_pat := L "\Aloglin\Z";
     c_attrs := [] |}.

(** /repo/src/pymcnp/inp/mplot/Loglog.py:6-28 *)
Definition k_mplot_Loglog : cls :=
  {| c_name := "mplot_Loglog"; c_kind := KOption; c_kw := L "loglog";
     c_pat := L "\Aloglog\Z";
     c_attrs := [] |}.

(** /repo/src/pymcnp/inp/mplot/Xlims.py:8-152 *)
Definition k_mplot_Xlims : cls :=
  {| c_name := "mplot_Xlims"; c_kind := KOption; c_kw := L "xlims";
     c_pat := L "\Axlims( " ++ slice 2 2 pat_number ++ L ")( " ++ slice 2 2 pat_number ++ L ")( " ++ slice 2 2 pat_number ++ L ")?\Z";
     c_attrs := [{| a_name := "lower"; a_ty := One TReal;
          a_checks := [(BIsNone EX)] |};
       {| a_name := "upper"; a_ty := One TReal;
          a_checks := [(BOr (BIsNone EX) (BNot (BCmp OLt (ESelf "lower") EX)))] |};
       {| a_name := "nsteps"; a_ty := One TReal;
          a_checks := [(BAnd (BNot (BIsNone EX)) (BNot (BCmp OGe EX (EZ 0))))] |}] |}.

(** /repo/src/pymcnp/inp/mplot/Ylims.py:8-152 *)
Definition k_mplot_Ylims : cls :=
  {| c_name := "mplot_Ylims"; c_kind := KOption; c_kw := L "ylims";
     c_pat := L "\Aylims( " ++ slice 2 2 pat_number ++ L ")( " ++ slice 2 2 pat_number ++ L ")( " ++ slice 2 2 pat_number ++ L ")?\Z";
     c_attrs := [{| a_name := "lower"; a_ty := One TReal;
          a_checks := [(BIsNone EX)] |};
       {| a_name := "upper"; a_ty := One TReal;
          a_checks := [(BOr (BIsNone EX) (BNot (BCmp OLt (ESelf "lower") EX)))] |};
       {| a_name := "nsteps"; a_ty := One TReal;
          a_checks := [(BAnd (BNot (BIsNone EX)) (BNot (BCmp OGe EX (EZ 0))))] |}] |}.

(** /repo/src/pymcnp/inp/mplot/Scales.py:8-70 *)
Definition k_mplot_Scales : cls :=
  {| c_name := "mplot_Scales"; c_kind := KOption; c_kw := L "scales";
     c_pat := L "\Ascales( " ++ slice 2 2 pat_number ++ L ")\Z";
     c_attrs := [{| a_name := "n"; a_ty := One TInt;
          a_checks := [(BOr (BIsNone EX) (BNot (BIn EX [(EZ 1); (EZ 2); (EZ 3)])))] |}] |}.

(** /repo/src/pymcnp/inp/mplot/Hist.py:6-28 *)
Definition k_mplot_Hist : cls :=
  {| c_name := "mplot_Hist"; c_kind := KOption; c_kw := L "hist";
     c_pat := L "\Ahist\Z";
     c_attrs := [] |}.

(** /repo/src/pymcnp/inp/mplot/Plinear.py:6-28 *)
Definition k_mplot_Plinear : cls :=
  {| c_name := "mplot_Plinear"; c_kind := KOption; c_kw := L "plinear";
     c_pat := L "\Aplinear\Z";
     c_attrs := [] |}.

(** /repo/src/pymcnp/inp/mplot/Spline.py:7-66 *)
Definition k_mplot_Spline : cls :=
  {| c_name := "mplot_Spline"; c_kind := KOption; c_kw := L "spline";
     c_pat := L "\Aspline( " ++ slice 2 2 pat_number ++ L ")?\Z";
     c_attrs := [{| a_name := "x"; a_ty := One TReal;
          a_checks := [] |}] |}.

(** /repo/src/pymcnp/inp/mplot/Bar.py:6-28 *)
Definition k_mplot_Bar : cls :=
  {| c_name := "mplot_Bar"; c_kind := KOption; c_kw := L "bar";
     c_pat := L "\Abar\Z";
     c_attrs := [] |}.

(** /repo/src/pymcnp/inp/mplot/Noerrbar.py:6-28 *)
Definition k_mplot_Noerrbar : cls :=
  {| c_name := "mplot_Noerrbar"; c_kind := KOption; c_kw := L "noerrbar";
     c_pat := L "\Anoerrbar\Z";
     c_attrs := [] |}.

(** /repo/src/pymcnp/inp/mplot/Thick.py:8-70 *)
Definition k_mplot_Thick : cls :=
  {| c_name := "mplot_Thick"; c_kind := KOption; c_kw := L "thick";
     c_pat := L "\Athick( " ++ slice 2 2 pat_number ++ L ")\Z";
     c_attrs := [{| a_name := "x"; a_ty := One TReal;
          a_checks := [(BIsNone EX)] |}] |}.

(** /repo/src/pymcnp/inp/mplot/Thin.py:6-28 *)
Definition k_mplot_Thin : cls :=
  {| c_name := "mplot_Thin"; c_kind := KOption; c_kw := L "thin";
     c_pat := L "\Athin\Z";
     c_attrs := [] |}.

(** /repo/src/pymcnp/inp/mplot/Legend.py:7-104 *)
Definition k_mplot_Legend : cls :=
  {| c_name := "mplot_Legend"; c_kind := KOption; c_kw := L "legend";
     c_pat := L "\Alegend( " ++ slice 2 2 pat_number ++ L ")?( " ++ slice 2 2 pat_number ++ L ")?\Z";
     c_attrs := [{| a_name := "x"; a_ty := One TReal;
          a_checks := [] |};
       {| a_name := "y"; a_ty := One TReal;
          a_checks := [] |}] |}.

(** /repo/src/pymcnp/inp/mplot/contour/Pct.py:6-28 *)
Definition k_mplot_contour_Pct : cls :=
  {| c_name := "mplot_contour_Pct"; c_kind := KOption; c_kw := L "pct";
     c_pat := L "\Apct\Z";
     c_attrs := [] |}.

(** /repo/src/pymcnp/inp/mplot/contour/Lin.py:6-28 *)
Definition k_mplot_contour_Lin : cls :=
  {| c_name := "mplot_contour_Lin"; c_kind := KOption; c_kw := L "lin";
     c_pat := L "\Alin\Z";
     c_attrs := [] |}.

(** /repo/src/pymcnp/inp/mplot/contour/Log.py:6-28 *)
Definition k_mplot_contour_Log : cls :=
  {| c_name := "mplot_contour_Log"; c_kind := KOption; c_kw := L "log";
     c_pat := L "\Alog\Z";
     c_attrs := [] |}.

(** /repo/src/pymcnp/inp/mplot/contour/All.py:6-28 *)
Definition k_mplot_contour_All : cls :=
  {| c_name := "mplot_contour_All"; c_kind := KOption; c_kw := L "all";
     c_pat := L "\Aall\Z";
     c_attrs := [] |}.

(** /repo/src/pymcnp/inp/mplot/contour/Noall.py:6-28 *)
Definition k_mplot_contour_Noall : cls :=
  {| c_name := "mplot_contour_Noall"; c_kind := KOption; c_kw := L "noall";
     c_pat := L "\Anoall\Z";
     c_attrs := [] |}.

(** /repo/src/pymcnp/inp/mplot/contour/Line.py:6-28 *)
Definition k_mplot_contour_Line : cls :=
  {| c_name := "mplot_contour_Line"; c_kind := KOption; c_kw := L "line";
     c_pat := L "\Aline\Z";
     c_attrs := [] |}.

(** /repo/src/pymcnp/inp/mplot/contour/Noline.py:6-28 *)
Definition k_mplot_contour_Noline : cls :=
  {| c_name := "mplot_contour_Noline"; c_kind := KOption; c_kw := L "noline";
     c_pat := L "\Anoline\Z";
     c_attrs := [] |}.

(** /repo/src/pymcnp/inp/mplot/contour/Color.py:6-28 *)
Definition k_mplot_contour_Color : cls :=
  {| c_name := "mplot_contour_Color"; c_kind := KOption; c_kw := L "color";
     c_pat := L "\Acolor\Z";
     c_attrs := [] |}.

(** /repo/src/pymcnp/inp/mplot/contour/Nocolor.py:6-28 *)
Definition k_mplot_contour_Nocolor : cls :=
  {| c_name := "mplot_contour_Nocolor"; c_kind := KOption; c_kw := L "nocolor";
     c_pat := L "\Anocolor\Z";
     c_attrs := [] |}.

(** /repo/src/pymcnp/inp/mplot/contour/_option.py:4-9: the subclasses in definition order, and the pattern
    that _symbol.py:40-44 makes of theirs, longest class name first. *)
Definition f_mplot_contour_ContourOption : list cls := [k_mplot_contour_Pct; k_mplot_contour_Lin; k_mplot_contour_Log; k_mplot_contour_All; k_mplot_contour_Noall; k_mplot_contour_Line; k_mplot_contour_Noline; k_mplot_contour_Color; k_mplot_contour_Nocolor].
Definition pat_mplot_contour_ContourOption : str := union_pat [c_pat k_mplot_contour_Nocolor; c_pat k_mplot_contour_Noline; c_pat k_mplot_contour_Noall; c_pat k_mplot_contour_Color; c_pat k_mplot_contour_Line; c_pat k_mplot_contour_Pct; c_pat k_mplot_contour_Lin; c_pat k_mplot_contour_Log; c_pat k_mplot_contour_All].

(** /repo/src/pymcnp/inp/mplot/Contour.py:9-195 *)
Definition k_mplot_Contour : cls :=
  {| c_name := "mplot_Contour"; c_kind := KOption; c_kw := L "contour";
     c_pat := L "\Acontour( " ++ slice 2 2 pat_number ++ L ")( " ++ slice 2 2 pat_number ++ L ")( " ++ slice 2 2 pat_number ++ L ")((?: (?:" ++ slice 2 2 pat_mplot_contour_ContourOption ++ L "))+?)?\Z";
     c_attrs := [{| a_name := "cmin"; a_ty := One TReal;
          a_checks := [(BIsNone EX)] |};
       {| a_name := "cmax"; a_ty := One TReal;
          a_checks := [(BIsNone EX)] |};
       {| a_name := "cstep"; a_ty := One TReal;
          a_checks := [(BIsNone EX)] |};
       {| a_name := "options"; a_ty := Tup (TExt "mplot_contour_ContourOption" pat_mplot_contour_ContourOption);
          a_checks := [] |}] |}.

(** /repo/src/pymcnp/inp/mplot/Wash.py:8-68 *)
Definition k_mplot_Wash : cls :=
  {| c_name := "mplot_Wash"; c_kind := KOption; c_kw := L "wash";
     c_pat := L "\Awash( " ++ slice 2 2 pat_string ++ L ")\Z";
     c_attrs := [{| a_name := "aa"; a_ty := One TStr;
          a_checks := [(BOr (BIsNone EX) (BNot (BIn (ELower EX) [(ES (L "on")); (ES (L "off"))])))] |}] |}.

(** /repo/src/pymcnp/inp/mplot/Fmesh.py:8-70 *)
Definition k_mplot_Fmesh : cls :=
  {| c_name := "mplot_Fmesh"; c_kind := KOption; c_kw := L "fmesh";
     c_pat := L "\Afmesh( " ++ slice 2 2 pat_number ++ L ")\Z";
     c_attrs := [{| a_name := "n"; a_ty := One TInt;
          a_checks := [(BIsNone EX)] |}] |}.

(** /repo/src/pymcnp/inp/mplot/Fmrelerr.py:8-70 *)
Definition k_mplot_Fmrelerr : cls :=
  {| c_name := "mplot_Fmrelerr"; c_kind := KOption; c_kw := L "fmrelerr";
     c_pat := L "\Afmrelerr( " ++ slice 2 2 pat_number ++ L ")\Z";
     c_attrs := [{| a_name := "n"; a_ty := One TInt;
          a_checks := [(BIsNone EX)] |}] |}.

(** /repo/src/pymcnp/inp/mplot/Zlev.py:8-71 *)
Definition k_mplot_Zlev : cls :=
  {| c_name := "mplot_Zlev"; c_kind := KOption; c_kw := L "zlev";
     c_pat := L "\Azlev((?: " ++ slice 2 2 pat_string ++ L ")+?)\Z";
     c_attrs := [{| a_name := "n"; a_ty := Tup TStr;
          a_checks := [(BIsNone EX)] |}] |}.

(** /repo/src/pymcnp/inp/mplot/Ebin.py:8-70 *)
Definition k_mplot_Ebin : cls :=
  {| c_name := "mplot_Ebin"; c_kind := KOption; c_kw := L "ebin";
     c_pat := L "\Aebin( " ++ slice 2 2 pat_number ++ L ")\Z";
     c_attrs := [{| a_name := "n"; a_ty := One TInt;
          a_checks := [(BIsNone EX)] |}] |}.

(** /repo/src/pymcnp/inp/mplot/Tbin.py:8-70 *)
Definition k_mplot_Tbin : cls :=
  {| c_name := "mplot_Tbin"; c_kind := KOption; c_kw := L "tbin";
     c_pat := L "\Atbin( " ++ slice 2 2 pat_number ++ L ")\Z";
     c_attrs := [{| a_name := "n"; a_ty := One TInt;
          a_checks := [(BIsNone EX)] |}] |}.

(** /repo/src/pymcnp/inp/mplot/Cop.py:6-28 *)
Definition k_mplot_Cop : cls :=
  {| c_name := "mplot_Cop"; c_kind := KOption; c_kw := L "cop";
     c_pat := L "\Acop\Z";
     c_attrs := [] |}.

(** /repo/src/pymcnp/inp/mplot/Tal.py:8-70 *)
Definition k_mplot_Tal : cls :=
  {| c_name := "mplot_Tal"; c_kind := KOption; c_kw := L "tal";
     c_pat := L "\Atal( " ++ slice 2 2 pat_number ++ L ")\Z";
     c_attrs := [{| a_name := "n"; a_ty := One TInt;
          a_checks := [(BIsNone EX)] |}] |}.

(** /repo/src/pymcnp/inp/mplot/_option.py:4-9: the subclasses in definition order, and the pattern
    that _symbol.py:40-44 makes of theirs, longest class name first. *)
Definition f_mplot_MplotOption : list cls := [k_mplot_Term; k_mplot_File; k_mplot_Coplot; k_mplot_Freq; k_mplot_Return; k_mplot_Plot; k_mplot_Pause; k_mplot_End; k_mplot_Options; k_mplot_Help; k_mplot_Status; k_mplot_Printal; k_mplot_Iptal; k_mplot_Printpts; k_mplot_Runtpe; k_mplot_Dump; k_mplot_Wmctal; k_mplot_Rmctal; k_mplot_Tally; k_mplot_Pert; k_mplot_Lethargy; k_mplot_Nonorm; k_mplot_Factor; k_mplot_Reset; k_mplot_Title; k_mplot_Below; k_mplot_Subtitle; k_mplot_Xtitle; k_mplot_Ytitle; k_mplot_Ztitle; k_mplot_Label; k_mplot_Free; k_mplot_Fixed; k_mplot_Set; k_mplot_Tfc; k_mplot_Kcode; k_mplot_Xs_0; k_mplot_Xs_1; k_mplot_Xs_2; k_mplot_Mt; k_mplot_Par; k_mplot_Linlin; k_mplot_Linlog; k_mplot_Loglin; k_mplot_Loglog; k_mplot_Xlims; k_mplot_Ylims; k_mplot_Scales; k_mplot_Hist; k_mplot_Plinear; k_mplot_Spline; k_mplot_Bar; k_mplot_Noerrbar; k_mplot_Thick; k_mplot_Thin; k_mplot_Legend; k_mplot_Contour; k_mplot_Wash; k_mplot_Fmesh; k_mplot_Fmrelerr; k_mplot_Zlev; k_mplot_Ebin; k_mplot_Tbin; k_mplot_Cop; k_mplot_Tal].
Definition pat_mplot_MplotOption : str := union_pat [c_pat k_mplot_Printpts; c_pat k_mplot_Lethargy; c_pat k_mplot_Subtitle; c_pat k_mplot_Noerrbar; c_pat k_mplot_Fmrelerr; c_pat k_mplot_Options; c_pat k_mplot_Printal; c_pat k_mplot_Plinear; c_pat k_mplot_Contour; c_pat k_mplot_Coplot; c_pat k_mplot_Return; c_pat k_mplot_Status; c_pat k_mplot_Runtpe; c_pat k_mplot_Wmctal; c_pat k_mplot_Rmctal; c_pat k_mplot_Nonorm; c_pat k_mplot_Factor; c_pat k_mplot_Xtitle; c_pat k_mplot_Ytitle; c_pat k_mplot_Ztitle; c_pat k_mplot_Linlin; c_pat k_mplot_Linlog; c_pat k_mplot_Loglin; c_pat k_mplot_Loglog; c_pat k_mplot_Scales; c_pat k_mplot_Spline; c_pat k_mplot_Legend; c_pat k_mplot_Pause; c_pat k_mplot_Iptal; c_pat k_mplot_Tally; c_pat k_mplot_Reset; c_pat k_mplot_Title; c_pat k_mplot_Below; c_pat k_mplot_Label; c_pat k_mplot_Fixed; c_pat k_mplot_Kcode; c_pat k_mplot_Xlims; c_pat k_mplot_Ylims; c_pat k_mplot_Thick; c_pat k_mplot_Fmesh; c_pat k_mplot_Term; c_pat k_mplot_File; c_pat k_mplot_Freq; c_pat k_mplot_Plot; c_pat k_mplot_Help; c_pat k_mplot_Dump; c_pat k_mplot_Pert; c_pat k_mplot_Free; c_pat k_mplot_Xs_0; c_pat k_mplot_Xs_1; c_pat k_mplot_Xs_2; c_pat k_mplot_Hist; c_pat k_mplot_Thin; c_pat k_mplot_Wash; c_pat k_mplot_Zlev; c_pat k_mplot_Ebin; c_pat k_mplot_Tbin; c_pat k_mplot_End; c_pat k_mplot_Set; c_pat k_mplot_Tfc; c_pat k_mplot_Par; c_pat k_mplot_Bar; c_pat k_mplot_Cop; c_pat k_mplot_Tal; c_pat k_mplot_Mt].

(** /repo/src/pymcnp/inp/Mplot.py:8-68 *)
Definition k_Mplot : cls :=
  {| c_name := "Mplot"; c_kind := KCard; c_kw := L "mplot";
     c_pat := L "\Amplot((?: (?:" ++ slice 2 2 pat_mplot_MplotOption ++ L "))+?)?\Z";
     c_attrs := [{| a_name := "options"; a_ty := Tup (TExt "mplot_MplotOption" pat_mplot_MplotOption);
          a_checks := [] |}] |}.

(** /repo/src/pymcnp/inp/Mt.py:8-112 *)
Definition k_Mt : cls :=
  {| c_name := "Mt"; c_kind := KCard; c_kw := L "mt";
     c_pat := L "\Amt(\d+)((?: " ++ slice 2 2 pat_string ++ L ")+?)\Z";
     c_attrs := [{| a_name := "suffix"; a_ty := One TInt;
          a_checks := [(BIsNone EX)] |};
       {| a_name := "identifiers"; a_ty := Tup TStr;
          a_checks := [(BIsNone EX)] |}] |}.

(** /repo/src/pymcnp/inp/Mx.py:8-151 *)
Definition k_Mx : cls :=
  {| c_name := "Mx"; c_kind := KCard; c_kw := L "mx";
     c_pat := L "\Amx(\d+):(\S+)((?: (?:" ++ slice 2 2 pat_zaid ++ L "|j|model|0))+?)\Z";
     c_attrs := [{| a_name := "suffix"; a_ty := One TInt;
          a_checks := [(BIsNone EX)] |};
       {| a_name := "designator"; a_ty := One TDesig;
          a_checks := [(BIsNone EX)] |};
       {| a_name := "zaids"; a_ty := Tup TStr;
          a_checks := [(BIsNone EX)] |}] |}.

(** /repo/src/pymcnp/inp/Nonu.py:7-69 *)
Definition k_Nonu : cls :=
  {| c_name := "Nonu"; c_kind := KCard; c_kw := L "nonu";
     c_pat := L "\Anonu((?: " ++ slice 2 2 pat_number ++ L ")+?)?\Z";
     c_attrs := [{| a_name := "settings"; a_ty := Tup TInt;
          a_checks := [] |}] |}.

(** /repo/src/pymcnp/inp/Notrn.py:6-28 *)
Definition k_Notrn : cls :=
  {| c_name := "Notrn"; c_kind := KCard; c_kw := L "notrn";
     c_pat := L "\Anotrn\Z";
     c_attrs := [] |}.

(** /repo/src/pymcnp/inp/Nps.py:8-111 *)
Definition k_Nps : cls :=
  {| c_name := "Nps"; c_kind := KCard; c_kw := L "nps";
     c_pat := L "\Anps( " ++ slice 2 2 pat_number ++ L ")( " ++ slice 2 2 pat_number ++ L ")?\Z";
     c_attrs := [{| a_name := "npp"; a_ty := One TInt;
          a_checks := [(BOr (BIsNone EX) (BNot (BCmp OGt EX (EZ 0))))] |};
       {| a_name := "npsmg"; a_ty := One TInt;
          a_checks := [(BAnd (BNot (BIsNone EX)) (BNot (BCmp OGt EX (EZ 0))))] |}] |}.

(** /repo/src/pymcnp/inp/Otfdb.py:8-71 *)
Definition k_Otfdb : cls :=
  {| c_name := "Otfdb"; c_kind := KCard; c_kw := L "otfdb";
     c_pat := L "\Aotfdb((?: " ++ slice 2 2 pat_zaid ++ L ")+?)\Z";
     c_attrs := [{| a_name := "zaids"; a_ty := Tup TZaid;
          a_checks := [(BIsNone EX)] |}] |}.

(** /repo/src/pymcnp/inp/Pd.py:8-153 *)
Definition k_Pd : cls :=
  {| c_name := "Pd"; c_kind := KCard; c_kw := L "pd";
     c_pat := L "\Apd(\d+):(\S+)((?: " ++ slice 2 2 pat_number ++ L ")+?)\Z";
     c_attrs := [{| a_name := "suffix"; a_ty := One TInt;
          a_checks := [(BOr (BIsNone EX) (BNot (BCmp OLe EX (EZ 99999999))))] |};
       {| a_name := "designator"; a_ty := One TDesig;
          a_checks := [(BIsNone EX)] |};
       {| a_name := "probabilities"; a_ty := Tup TReal;
          a_checks := [(BIsNone EX)] |}] |}.

(** /repo/src/pymcnp/inp/pert/Cell.py:8-73 *)
Definition k_pert_Cell : cls :=
  {| c_name := "pert_Cell"; c_kind := KOption; c_kw := L "cell";
     c_pat := L "\Acell((?: " ++ slice 2 2 pat_number ++ L ")+?)\Z";
     c_attrs := [{| a_name := "numbers"; a_ty := Tup TInt;
          a_checks := [(BIsNone EX)] |}] |}.

(** /repo/src/pymcnp/inp/pert/Mat.py:8-70 *)
Definition k_pert_Mat : cls :=
  {| c_name := "pert_Mat"; c_kind := KOption; c_kw := L "mat";
     c_pat := L "\Amat( " ++ slice 2 2 pat_number ++ L ")\Z";
     c_attrs := [{| a_name := "material"; a_ty := One TInt;
          a_checks := [(BOr (BIsNone EX) (BNot (BAnd (BCmp OGe EX (EZ 0)) (BCmp OLe EX (EZ 99999999)))))] |}] |}.

(** /repo/src/pymcnp/inp/pert/Rho.py:8-70 *)
Definition k_pert_Rho : cls :=
  {| c_name := "pert_Rho"; c_kind := KOption; c_kw := L "rho";
     c_pat := L "\Arho( " ++ slice 2 2 pat_number ++ L ")\Z";
     c_attrs := [{| a_name := "density"; a_ty := One TReal;
          a_checks := [(BIsNone EX)] |}] |}.

(** /repo/src/pymcnp/inp/pert/Method.py:8-70 *)
Definition k_pert_Method : cls :=
  {| c_name := "pert_Method"; c_kind := KOption; c_kw := L "method";
     c_pat := L "\Amethod( " ++ slice 2 2 pat_number ++ L ")\Z";
     c_attrs := [{| a_name := "setting"; a_ty := One TInt;
          a_checks := [(BOr (BIsNone EX) (BNot (BIn EX [(EZ 1); (EZ (-1)); (EZ 2); (EZ (-2)); (EZ 3); (EZ (-3))])))] |}] |}.

(** /repo/src/pymcnp/inp/pert/Erg.py:8-111 *)
Definition k_pert_Erg : cls :=
  {| c_name := "pert_Erg"; c_kind := KOption; c_kw := L "erg";
     c_pat := L "\Aerg( " ++ slice 2 2 pat_number ++ L ")( " ++ slice 2 2 pat_number ++ L ")\Z";
     c_attrs := [{| a_name := "energy_lower_bound"; a_ty := One TReal;
          a_checks := [(BIsNone EX)] |};
       {| a_name := "energy_upper_bound"; a_ty := One TReal;
          a_checks := [(BIsNone EX)] |}] |}.

(** /repo/src/pymcnp/inp/pert/Rxn.py:8-73 *)
Definition k_pert_Rxn : cls :=
  {| c_name := "pert_Rxn"; c_kind := KOption; c_kw := L "rxn";
     c_pat := L "\Arxn((?: " ++ slice 2 2 pat_number ++ L ")+?)\Z";
     c_attrs := [{| a_name := "numbers"; a_ty := Tup TInt;
          a_checks := [(BIsNone EX)] |}] |}.

(** /repo/src/pymcnp/inp/pert/_option.py:4-9: the subclasses in definition order, and the pattern
    that _symbol.py:40-44 makes of theirs, longest class name first. *)
Definition f_pert_PertOption : list cls := [k_pert_Cell; k_pert_Mat; k_pert_Rho; k_pert_Method; k_pert_Erg; k_pert_Rxn].
Definition pat_pert_PertOption : str := union_pat [c_pat k_pert_Method; c_pat k_pert_Cell; c_pat k_pert_Mat; c_pat k_pert_Rho; c_pat k_pert_Erg; c_pat k_pert_Rxn].

(** /repo/src/pymcnp/inp/Pert.py:9-149 *)
Definition k_Pert : cls :=
  {| c_name := "Pert"; c_kind := KCard; c_kw := L "pert";
     c_pat := L "\Apert(\d+):(\S+)((?: (?:" ++ slice 2 2 pat_pert_PertOption ++ L "))+?)?\Z";
     c_attrs := [{| a_name := "suffix"; a_ty := One TInt;
          a_checks := [(BOr (BIsNone EX) (BNot (BCmp OLe EX (EZ 99999999))))] |};
       {| a_name := "designator"; a_ty := One TDesig;
          a_checks := [(BIsNone EX)] |};
       {| a_name := "options"; a_ty := Tup (TExt "pert_PertOption" pat_pert_PertOption);
          a_checks := [] |}] |}.

(** /repo/src/pymcnp/inp/Phys_0.py:8-358 *)
Definition k_Phys_0 : cls :=
  {| c_name := "Phys_0"; c_kind := KCard; c_kw := L "phys:n";
     c_pat := L "\Aphys:n( " ++ slice 2 2 pat_number ++ L ")?( " ++ slice 2 2 pat_number ++ L ")?( " ++ slice 2 2 pat_number ++ L ")?( " ++ slice 2 2 pat_number ++ L ")?( " ++ slice 2 2 pat_number ++ L ")?( " ++ slice 2 2 pat_number ++ L ")?( " ++ slice 2 2 pat_number ++ L ")?( " ++ slice 2 2 pat_number ++ L ")?\Z";
     c_attrs := [{| a_name := "emax"; a_ty := One TReal;
          a_checks := [] |};
       {| a_name := "emcnf"; a_ty := One TReal;
          a_checks := [] |};
       {| a_name := "iunr"; a_ty := One TInt;
          a_checks := [(BAnd (BNot (BIsNone EX)) (BNot (BOr (BJump EX) (BIn EX [(EZ 0); (EZ 1)]))))] |};
       {| a_name := "coilf"; a_ty := One TReal;
          a_checks := [] |};
       {| a_name := "cutn"; a_ty := One TInt;
          a_checks := [] |};
       {| a_name := "ngam"; a_ty := One TInt;
          a_checks := [(BAnd (BNot (BIsNone EX)) (BNot (BOr (BJump EX) (BIn EX [(EZ 0); (EZ 1); (EZ 2)]))))] |};
       {| a_name := "i_int_model"; a_ty := One TInt;
          a_checks := [(BAnd (BNot (BIsNone EX)) (BNot (BOr (BJump EX) (BIn EX [(EZ (-1)); (EZ 0); (EZ 1); (EZ 2); (EZ 3)]))))] |};
       {| a_name := "i_els_model"; a_ty := One TInt;
          a_checks := [(BAnd (BNot (BIsNone EX)) (BNot (BOr (BJump EX) (BIn EX [(EZ (-1)); (EZ 0); (EZ 1)]))))] |}] |}.

(** /repo/src/pymcnp/inp/Phys_1.py:8-280 *)
Definition k_Phys_1 : cls :=
  {| c_name := "Phys_1"; c_kind := KCard; c_kw := L "phys:p";
     c_pat := L "\Aphys:p( " ++ slice 2 2 pat_number ++ L ")?( " ++ slice 2 2 pat_number ++ L ")?( " ++ slice 2 2 pat_number ++ L ")?( " ++ slice 2 2 pat_number ++ L ")?( " ++ slice 2 2 pat_number ++ L ")?( " ++ slice 2 2 pat_number ++ L ")?\Z";
     c_attrs := [{| a_name := "emcpf"; a_ty := One TReal;
          a_checks := [] |};
       {| a_name := "ides"; a_ty := One TInt;
          a_checks := [(BAnd (BNot (BIsNone EX)) (BNot (BOr (BJump EX) (BIn EX [(EZ 0); (EZ 1)]))))] |};
       {| a_name := "nocoh"; a_ty := One TInt;
          a_checks := [(BAnd (BNot (BIsNone EX)) (BNot (BOr (BJump EX) (BIn EX [(EZ 0); (EZ 1)]))))] |};
       {| a_name := "ispn"; a_ty := One TInt;
          a_checks := [(BAnd (BNot (BIsNone EX)) (BNot (BOr (BJump EX) (BIn EX [(EZ (-1)); (EZ 0); (EZ 1)]))))] |};
       {| a_name := "nodop"; a_ty := One TInt;
          a_checks := [(BAnd (BNot (BIsNone EX)) (BNot (BOr (BJump EX) (BIn EX [(EZ 0); (EZ 1)]))))] |};
       {| a_name := "fism"; a_ty := One TInt;
          a_checks := [] |}] |}.

(** /repo/src/pymcnp/inp/Phys_2.py:8-653 *)
Definition k_Phys_2 : cls :=
  {| c_name := "Phys_2"; c_kind := KCard; c_kw := L "phys:e";
     c_pat := L "\Aphys:e(?: (\S+))?(?: (\S+))?(?: (\S+))?(?: (\S+))?(?: (\S+))?(?: (\S+))?(?: (\S+))?(?: (\S+))?(?: (\S+))?(?: (\S+))?(?: (\S+))?(?: (j j))?(?: (\S+))?(?: (\S+))?(?: (\S+))?\Z";
     c_attrs := [{| a_name := "emax"; a_ty := One TReal;
          a_checks := [] |};
       {| a_name := "ides"; a_ty := One TInt;
          a_checks := [(BAnd (BNot (BIsNone EX)) (BNot (BOr (BJump EX) (BIn EX [(EZ 0); (EZ 1)]))))] |};
       {| a_name := "iphot"; a_ty := One TInt;
          a_checks := [(BAnd (BNot (BIsNone EX)) (BNot (BOr (BJump EX) (BIn EX [(EZ 0); (EZ 1)]))))] |};
       {| a_name := "ibad"; a_ty := One TInt;
          a_checks := [(BAnd (BNot (BIsNone EX)) (BNot (BOr (BJump EX) (BIn EX [(EZ 0); (EZ 1)]))))] |};
       {| a_name := "istrg"; a_ty := One TInt;
          a_checks := [(BAnd (BNot (BIsNone EX)) (BNot (BOr (BJump EX) (BIn EX [(EZ 0); (EZ 1)]))))] |};
       {| a_name := "bnum"; a_ty := One TReal;
          a_checks := [] |};
       {| a_name := "xnum"; a_ty := One TReal;
          a_checks := [(BAnd (BNot (BIsNone EX)) (BNot (BOr (BJump EX) (BCmp OGe EX (EZ 0)))))] |};
       {| a_name := "rnok"; a_ty := One TInt;
          a_checks := [(BAnd (BNot (BIsNone EX)) (BNot (BOr (BJump EX) (BCmp OGe EX (EZ 0)))))] |};
       {| a_name := "enum"; a_ty := One TInt;
          a_checks := [(BAnd (BNot (BIsNone EX)) (BNot (BOr (BJump EX) (BCmp OGe EX (EZ 0)))))] |};
       {| a_name := "numb"; a_ty := One TInt;
          a_checks := [(BAnd (BNot (BIsNone EX)) (BNot (BOr (BJump EX) (BCmp OGe EX (EZ 0)))))] |};
       {| a_name := "i_mcs_model"; a_ty := One TInt;
          a_checks := [(BAnd (BNot (BIsNone EX)) (BNot (BOr (BJump EX) (BIn EX [(EZ (-1)); (EZ 0)]))))] |};
       {| a_name := "j"; a_ty := One TStr;
          a_checks := [(BAnd (BNot (BIsNone EX)) (BNot (BIn (ELower EX) [(ES (L "j j"))])))] |};
       {| a_name := "efac"; a_ty := One TReal;
          a_checks := [(BAnd (BNot (BIsNone EX)) (BNot (BOr (BJump EX) (BAnd (BCmp OGe EX (ED (Fin false 8 (-1)))) (BCmp OLe EX (ED (Fin false 99 (-2))))))))] |};
       {| a_name := "electron_method_boundary"; a_ty := One TReal;
          a_checks := [] |};
       {| a_name := "ckvnum"; a_ty := One TReal;
          a_checks := [(BAnd (BNot (BIsNone EX)) (BNot (BOr (BJump EX) (BAnd (BCmp OGe EX (EZ 0)) (BCmp OLt EX (EZ 1))))))] |}] |}.

(** /repo/src/pymcnp/inp/Phys_3.py:8-490 *)
Definition k_Phys_3 : cls :=
  {| c_name := "Phys_3"; c_kind := KCard; c_kw := L "phys:h";
     c_pat := L "\Aphys:h( " ++ slice 2 2 pat_number ++ L ")?( " ++ slice 2 2 pat_number ++ L ")?( " ++ slice 2 2 pat_number ++ L ")?( " ++ slice 2 2 pat_number ++ L ")?( " ++ slice 2 2 pat_number ++ L ")?( " ++ slice 2 2 pat_number ++ L ")?( " ++ slice 2 2 pat_number ++ L ")?( " ++ slice 2 2 pat_number ++ L ")?( " ++ slice 2 2 pat_number ++ L ")?( " ++ slice 2 2 pat_number ++ L ")?( " ++ slice 2 2 pat_number ++ L ")?\Z";
     c_attrs := [{| a_name := "emax"; a_ty := One TReal;
          a_checks := [] |};
       {| a_name := "ean"; a_ty := One TReal;
          a_checks := [] |};
       {| a_name := "tabl"; a_ty := One TReal;
          a_checks := [(BAnd (BNot (BIsNone EX)) (BNot (BOr (BJump EX) (BOr (BCmp OEq EX (EZ (-1))) (BCmp OGe EX (EZ 0))))))] |};
       {| a_name := "istrg"; a_ty := One TInt;
          a_checks := [(BAnd (BNot (BIsNone EX)) (BNot (BOr (BJump EX) (BIn EX [(EZ 0); (EZ 1)]))))] |};
       {| a_name := "recl"; a_ty := One TReal;
          a_checks := [(BAnd (BNot (BIsNone EX)) (BNot (BOr (BJump EX) (BAnd (BCmp OGe EX (EZ 0)) (BCmp OLe EX (EZ 1))))))] |};
       {| a_name := "i_mcs_model"; a_ty := One TInt;
          a_checks := [(BAnd (BNot (BIsNone EX)) (BNot (BOr (BJump EX) (BIn EX [(EZ (-1)); (EZ 0); (EZ 1); (EZ 2)]))))] |};
       {| a_name := "i_int_model"; a_ty := One TInt;
          a_checks := [(BAnd (BNot (BIsNone EX)) (BNot (BOr (BJump EX) (BIn EX [(EZ (-1)); (EZ 0); (EZ 1); (EZ 2)]))))] |};
       {| a_name := "i_els_model"; a_ty := One TInt;
          a_checks := [(BAnd (BNot (BIsNone EX)) (BNot (BOr (BJump EX) (BIn EX [(EZ (-1)); (EZ 0)]))))] |};
       {| a_name := "efac"; a_ty := One TReal;
          a_checks := [(BAnd (BNot (BIsNone EX)) (BNot (BOr (BJump EX) (BAnd (BCmp OGe EX (ED (Fin false 8 (-1)))) (BCmp OLe EX (ED (Fin false 99 (-2))))))))] |};
       {| a_name := "ckvnum"; a_ty := One TReal;
          a_checks := [(BAnd (BNot (BIsNone EX)) (BNot (BOr (BJump EX) (BAnd (BCmp OGe EX (EZ 0)) (BCmp OLt EX (EZ 1))))))] |};
       {| a_name := "drp"; a_ty := One TReal;
          a_checks := [(BAnd (BNot (BIsNone EX)) (BNot (BOr (BJump EX) (BOr (BCmp OGe EX (EZ 0)) (BCmp OEq EX (EZ (-1)))))))] |}] |}.

(** /repo/src/pymcnp/inp/Phys_4.py:8-488 *)
Definition k_Phys_4 : cls :=
  {| c_name := "Phys_4"; c_kind := KCard; c_kw := L "phys";
     c_pat := L "\Aphys:(\S+)( " ++ slice 2 2 pat_number ++ L ")?( " ++ slice 2 2 pat_number ++ L ")?( " ++ slice 2 2 pat_number ++ L ")?( " ++ slice 2 2 pat_number ++ L ")?( " ++ slice 2 2 pat_number ++ L ")?( " ++ slice 2 2 pat_number ++ L ")?( " ++ slice 2 2 pat_number ++ L ")?( " ++ slice 2 2 pat_number ++ L ")?( " ++ slice 2 2 pat_number ++ L ")?( " ++ slice 2 2 pat_number ++ L ")?\Z";
     c_attrs := [{| a_name := "designator"; a_ty := One TDesig;
          a_checks := [(BIsNone EX)] |};
       {| a_name := "emax"; a_ty := One TReal;
          a_checks := [] |};
       {| a_name := "istrg"; a_ty := One TInt;
          a_checks := [(BAnd (BNot (BIsNone EX)) (BNot (BOr (BJump EX) (BIn EX [(EZ 0); (EZ 1)]))))] |};
       {| a_name := "xmunum"; a_ty := One TInt;
          a_checks := [(BAnd (BNot (BIsNone EX)) (BNot (BOr (BJump EX) (BIn EX [(EZ (-1)); (EZ 1)]))))] |};
       {| a_name := "xmugam"; a_ty := One TReal;
          a_checks := [] |};
       {| a_name := "i_mcs_model"; a_ty := One TInt;
          a_checks := [(BAnd (BNot (BIsNone EX)) (BNot (BOr (BJump EX) (BIn EX [(EZ (-1)); (EZ 0); (EZ 1); (EZ 2)]))))] |};
       {| a_name := "i_int_model"; a_ty := One TInt;
          a_checks := [(BAnd (BNot (BIsNone EX)) (BNot (BOr (BJump EX) (BIn EX [(EZ (-1)); (EZ 0); (EZ 1); (EZ 2)]))))] |};
       {| a_name := "i_els_model"; a_ty := One TInt;
          a_checks := [(BAnd (BNot (BIsNone EX)) (BNot (BOr (BJump EX) (BIn EX [(EZ (-1)); (EZ 0)]))))] |};
       {| a_name := "efac"; a_ty := One TReal;
          a_checks := [(BAnd (BNot (BIsNone EX)) (BNot (BOr (BJump EX) (BAnd (BCmp OGe EX (ED (Fin false 8 (-1)))) (BCmp OLe EX (ED (Fin false 99 (-2))))))))] |};
       {| a_name := "ckvnum"; a_ty := One TReal;
          a_checks := [(BAnd (BNot (BIsNone EX)) (BNot (BOr (BJump EX) (BAnd (BCmp OGe EX (EZ 0)) (BCmp OLt EX (EZ 1))))))] |};
       {| a_name := "drp"; a_ty := One TReal;
          a_checks := [(BAnd (BNot (BIsNone EX)) (BNot (BOr (BJump EX) (BOr (BCmp OGe EX (EZ 0)) (BCmp OEq EX (EZ (-1)))))))] |}] |}.

(** /repo/src/pymcnp/inp/pikmt/Photonbias.py:8-109 *)
Definition k_pikmt_Photonbias : cls :=
  {| c_name := "pikmt_Photonbias"; c_kind := KEntry; c_kw := L "";
     c_pat := L "\A(" ++ slice 2 2 pat_zaid ++ L ") (" ++ slice 2 2 pat_number ++ L ")\Z";
     c_attrs := [{| a_name := "zaid"; a_ty := One TZaid;
          a_checks := [(BIsNone EX)] |};
       {| a_name := "ipiki"; a_ty := One TInt;
          a_checks := [(BIsNone EX)] |}] |}.

(** /repo/src/pymcnp/inp/Pikmt.py:9-72 *)
Definition k_Pikmt : cls :=
  {| c_name := "Pikmt"; c_kind := KCard; c_kw := L "pikmt";
     c_pat := L "\Apikmt((?: " ++ slice 2 2 (c_pat k_pikmt_Photonbias) ++ L ")+?)\Z";
     c_attrs := [{| a_name := "biases"; a_ty := Tup (TExt "pikmt_Photonbias" (c_pat k_pikmt_Photonbias));
          a_checks := [(BIsNone EX)] |}] |}.

(** /repo/src/pymcnp/inp/Prdmp.py:7-228 *)
Definition k_Prdmp : cls :=
  {| c_name := "Prdmp"; c_kind := KCard; c_kw := L "prdmp";
     c_pat := L "\Aprdmp( " ++ slice 2 2 pat_number ++ L ")?( " ++ slice 2 2 pat_number ++ L ")?( " ++ slice 2 2 pat_number ++ L ")?( " ++ slice 2 2 pat_number ++ L ")?( " ++ slice 2 2 pat_number ++ L ")?\Z";
     c_attrs := [{| a_name := "ndp"; a_ty := One TInt;
          a_checks := [] |};
       {| a_name := "ndm"; a_ty := One TInt;
          a_checks := [] |};
       {| a_name := "mct"; a_ty := One TInt;
          a_checks := [] |};
       {| a_name := "ndmp"; a_ty := One TInt;
          a_checks := [] |};
       {| a_name := "dmmp"; a_ty := One TInt;
          a_checks := [] |}] |}.

(** /repo/src/pymcnp/inp/Print.py:7-69 *)
Definition k_Print : cls :=
  {| c_name := "Print"; c_kind := KCard; c_kw := L "print";
     c_pat := L "\Aprint((?: " ++ slice 2 2 pat_number ++ L ")+?)?\Z";
     c_attrs := [{| a_name := "tables"; a_ty := Tup TInt;
          a_checks := [] |}] |}.

(** /repo/src/pymcnp/inp/ptrac/Buffer.py:8-70 *)
Definition k_ptrac_Buffer : cls :=
  {| c_name := "ptrac_Buffer"; c_kind := KOption; c_kw := L "buffer";
     c_pat := L "\Abuffer( " ++ slice 2 2 pat_number ++ L ")\Z";
     c_attrs := [{| a_name := "storage"; a_ty := One TInt;
          a_checks := [(BOr (BIsNone EX) (BNot (BCmp OGt EX (EZ 0))))] |}] |}.

(** /repo/src/pymcnp/inp/ptrac/File.py:8-68 *)
Definition k_ptrac_File : cls :=
  {| c_name := "ptrac_File"; c_kind := KOption; c_kw := L "file";
     c_pat := L "\Afile(?: (asc|bin|aov|bov))\Z";
     c_attrs := [{| a_name := "setting"; a_ty := One TStr;
          a_checks := [(BOr (BIsNone EX) (BNot (BIn (ELower EX) [(ES (L "asc")); (ES (L "bin")); (ES (L "aov")); (ES (L "bov"))])))] |}] |}.

(** /repo/src/pymcnp/inp/ptrac/Max.py:8-70 *)
Definition k_ptrac_Max : cls :=
  {| c_name := "ptrac_Max"; c_kind := KOption; c_kw := L "max";
     c_pat := L "\Amax( " ++ slice 2 2 pat_number ++ L ")\Z";
     c_attrs := [{| a_name := "events"; a_ty := One TInt;
          a_checks := [(BOr (BIsNone EX) (BNot (BCmp ONe EX (EZ 0))))] |}] |}.

(** /repo/src/pymcnp/inp/ptrac/Meph.py:8-70 *)
Definition k_ptrac_Meph : cls :=
  {| c_name := "ptrac_Meph"; c_kind := KOption; c_kw := L "meph";
     c_pat := L "\Ameph( " ++ slice 2 2 pat_number ++ L ")\Z";
     c_attrs := [{| a_name := "events"; a_ty := One TInt;
          a_checks := [(BOr (BIsNone EX) (BNot (BCmp OGt EX (EZ 0))))] |}] |}.

(** /repo/src/pymcnp/inp/ptrac/Write.py:8-68 *)
Definition k_ptrac_Write : cls :=
  {| c_name := "ptrac_Write"; c_kind := KOption; c_kw := L "write";
     c_pat := L "\Awrite(?: (pos|all))\Z";
     c_attrs := [{| a_name := "setting"; a_ty := One TStr;
          a_checks := [(BOr (BIsNone EX) (BNot (BIn (ELower EX) [(ES (L "pos")); (ES (L "all"))])))] |}] |}.

(** /repo/src/pymcnp/inp/ptrac/Conic.py:8-68 *)
Definition k_ptrac_Conic : cls :=
  {| c_name := "ptrac_Conic"; c_kind := KOption; c_kw := L "conic";
     c_pat := L "\Aconic(?: (col|lin))\Z";
     c_attrs := [{| a_name := "setting"; a_ty := One TStr;
          a_checks := [(BOr (BIsNone EX) (BNot (BIn (ELower EX) [(ES (L "col")); (ES (L "lin"))])))] |}] |}.

(** /repo/src/pymcnp/inp/ptrac/Event.py:8-71 *)
Definition k_ptrac_Event : cls :=
  {| c_name := "ptrac_Event"; c_kind := KOption; c_kw := L "event";
     c_pat := L "\Aevent((?: " ++ slice 2 2 pat_string ++ L ")+?)\Z";
     c_attrs := [{| a_name := "settings"; a_ty := Tup TStr;
          a_checks := [(BIsNone EX)] |}] |}.

(** /repo/src/pymcnp/inp/ptrac/filter/Entry.py:8-157 *)
Definition k_ptrac_filter_Entry : cls :=
  {| c_name := "ptrac_filter_Entry"; c_kind := (KOwn OFilter); c_kw := L "";
     c_pat := L "\A([^\s,]+),([^\s,]+)(?:,([^\s,]+))?\Z";
     c_attrs := [{| a_name := "lower"; a_ty := One TReal;
          a_checks := [(BIsNone EX)] |};
       {| a_name := "variable"; a_ty := One TStr;
          a_checks := [] |};
       {| a_name := "upper"; a_ty := One TReal;
          a_checks := [(BIsNone EX)] |}] |}.

(** /repo/src/pymcnp/inp/ptrac/Filter.py:9-72 *)
Definition k_ptrac_Filter : cls :=
  {| c_name := "ptrac_Filter"; c_kind := KOption; c_kw := L "filter";
     c_pat := L "\Afilter((?: " ++ slice 2 2 (c_pat k_ptrac_filter_Entry) ++ L ")+?)\Z";
     c_attrs := [{| a_name := "variables"; a_ty := Tup (TExt "ptrac_filter_Entry" (c_pat k_ptrac_filter_Entry));
          a_checks := [(BIsNone EX)] |}] |}.

(** /repo/src/pymcnp/inp/ptrac/Type.py:8-71 *)
Definition k_ptrac_Type : cls :=
  {| c_name := "ptrac_Type"; c_kind := KOption; c_kw := L "type";
     c_pat := L "\Atype((?: " ++ slice 2 2 pat_designator ++ L ")+?)\Z";
     c_attrs := [{| a_name := "particles"; a_ty := Tup TDesig;
          a_checks := [(BIsNone EX)] |}] |}.

(** /repo/src/pymcnp/inp/ptrac/Nps.py:8-73 *)
Definition k_ptrac_Nps : cls :=
  {| c_name := "ptrac_Nps"; c_kind := KOption; c_kw := L "nps";
     c_pat := L "\Anps((?: " ++ slice 2 2 pat_number ++ L ")+?)\Z";
     c_attrs := [{| a_name := "particles"; a_ty := Tup TInt;
          a_checks := [(BIsNone EX)] |}] |}.

(** /repo/src/pymcnp/inp/ptrac/Cell.py:8-73 *)
Definition k_ptrac_Cell : cls :=
  {| c_name := "ptrac_Cell"; c_kind := KOption; c_kw := L "cell";
     c_pat := L "\Acell((?: " ++ slice 2 2 pat_number ++ L ")+?)\Z";
     c_attrs := [{| a_name := "numbers"; a_ty := Tup TInt;
          a_checks := [(BIsNone EX)] |}] |}.

(** /repo/src/pymcnp/inp/ptrac/Surface.py:8-73 *)
Definition k_ptrac_Surface : cls :=
  {| c_name := "ptrac_Surface"; c_kind := KOption; c_kw := L "surface";
     c_pat := L "\Asurface((?: " ++ slice 2 2 pat_number ++ L ")+?)\Z";
     c_attrs := [{| a_name := "numbers"; a_ty := Tup TInt;
          a_checks := [(BIsNone EX)] |}] |}.

(** /repo/src/pymcnp/inp/ptrac/Tally.py:8-73 *)
Definition k_ptrac_Tally : cls :=
  {| c_name := "ptrac_Tally"; c_kind := KOption; c_kw := L "tally";
     c_pat := L "\Atally((?: " ++ slice 2 2 pat_number ++ L ")+?)\Z";
     c_attrs := [{| a_name := "numbers"; a_ty := Tup TInt;
          a_checks := [(BIsNone EX)] |}] |}.

(** /repo/src/pymcnp/inp/ptrac/Value.py:8-70 *)
Definition k_ptrac_Value : cls :=
  {| c_name := "ptrac_Value"; c_kind := KOption; c_kw := L "value";
     c_pat := L "\Avalue( " ++ slice 2 2 pat_number ++ L ")\Z";
     c_attrs := [{| a_name := "cutoff"; a_ty := One TReal;
          a_checks := [(BIsNone EX)] |}] |}.

(** /repo/src/pymcnp/inp/ptrac/_option.py:4-9: the subclasses in definition order, and the pattern
    that _symbol.py:40-44 makes of theirs, longest class name first. *)
Definition f_ptrac_PtracOption : list cls := [k_ptrac_Buffer; k_ptrac_File; k_ptrac_Max; k_ptrac_Meph; k_ptrac_Write; k_ptrac_Conic; k_ptrac_Event; k_ptrac_Filter; k_ptrac_Type; k_ptrac_Nps; k_ptrac_Cell; k_ptrac_Surface; k_ptrac_Tally; k_ptrac_Value].
Definition pat_ptrac_PtracOption : str := union_pat [c_pat k_ptrac_Surface; c_pat k_ptrac_Buffer; c_pat k_ptrac_Filter; c_pat k_ptrac_Write; c_pat k_ptrac_Conic; c_pat k_ptrac_Event; c_pat k_ptrac_Tally; c_pat k_ptrac_Value; c_pat k_ptrac_File; c_pat k_ptrac_Meph; c_pat k_ptrac_Type; c_pat k_ptrac_Cell; c_pat k_ptrac_Max; c_pat k_ptrac_Nps].

(** /repo/src/pymcnp/inp/Ptrac.py:8-68 *)
Definition k_Ptrac : cls :=
  {| c_name := "Ptrac"; c_kind := KCard; c_kw := L "ptrac";
     c_pat := L "\Aptrac((?: (?:" ++ slice 2 2 pat_ptrac_PtracOption ++ L "))+?)?\Z";
     c_attrs := [{| a_name := "options"; a_ty := Tup (TExt "ptrac_PtracOption" pat_ptrac_PtracOption);
          a_checks := [] |}] |}.

(** /repo/src/pymcnp/inp/Pwt.py:8-73 *)
Definition k_Pwt : cls :=
  {| c_name := "Pwt"; c_kind := KCard; c_kw := L "pwt";
     c_pat := L "\Apwt((?: " ++ slice 2 2 pat_number ++ L ")+?)\Z";
     c_attrs := [{| a_name := "weights"; a_ty := Tup TReal;
          a_checks := [(BIsNone EX)] |}] |}.

(** /repo/src/pymcnp/inp/rand/Gen.py:8-70 *)
Definition k_rand_Gen : cls :=
  {| c_name := "rand_Gen"; c_kind := KOption; c_kw := L "gen";
     c_pat := L "\Agen( " ++ slice 2 2 pat_number ++ L ")\Z";
     c_attrs := [{| a_name := "setting"; a_ty := One TInt;
          a_checks := [(BOr (BIsNone EX) (BNot (BIn EX [(EZ 1); (EZ 2); (EZ 3); (EZ 4)])))] |}] |}.

(** /repo/src/pymcnp/inp/rand/Seed.py:8-70 *)
Definition k_rand_Seed : cls :=
  {| c_name := "rand_Seed"; c_kind := KOption; c_kw := L "seed";
     c_pat := L "\Aseed( " ++ slice 2 2 pat_number ++ L ")\Z";
     c_attrs := [{| a_name := "seed"; a_ty := One TInt;
          a_checks := [(BOr (BIsNone EX) (BNot (BCmp OEq (EMod EX 2) (EZ 1))))] |}] |}.

(** /repo/src/pymcnp/inp/rand/Stride.py:8-70 *)
Definition k_rand_Stride : cls :=
  {| c_name := "rand_Stride"; c_kind := KOption; c_kw := L "stride";
     c_pat := L "\Astride( " ++ slice 2 2 pat_number ++ L ")\Z";
     c_attrs := [{| a_name := "stride"; a_ty := One TInt;
          a_checks := [(BIsNone EX)] |}] |}.

(** /repo/src/pymcnp/inp/rand/Hist.py:8-70 *)
Definition k_rand_Hist : cls :=
  {| c_name := "rand_Hist"; c_kind := KOption; c_kw := L "hist";
     c_pat := L "\Ahist( " ++ slice 2 2 pat_number ++ L ")\Z";
     c_attrs := [{| a_name := "hist"; a_ty := One TInt;
          a_checks := [(BIsNone EX)] |}] |}.

(** /repo/src/pymcnp/inp/rand/_option.py:4-9: the subclasses in definition order, and the pattern
    that _symbol.py:40-44 makes of theirs, longest class name first. *)
Definition f_rand_RandOption : list cls := [k_rand_Gen; k_rand_Seed; k_rand_Stride; k_rand_Hist].
Definition pat_rand_RandOption : str := union_pat [c_pat k_rand_Stride; c_pat k_rand_Seed; c_pat k_rand_Hist; c_pat k_rand_Gen].

(** /repo/src/pymcnp/inp/Rand.py:8-68 *)
Definition k_Rand : cls :=
  {| c_name := "Rand"; c_kind := KCard; c_kw := L "rand";
     c_pat := L "\Arand((?: (?:" ++ slice 2 2 pat_rand_RandOption ++ L "))+?)?\Z";
     c_attrs := [{| a_name := "options"; a_ty := Tup (TExt "rand_RandOption" pat_rand_RandOption);
          a_checks := [] |}] |}.

(** /repo/src/pymcnp/inp/Rdum.py:8-73 *)
Definition k_Rdum : cls :=
  {| c_name := "Rdum"; c_kind := KCard; c_kw := L "rdum";
     c_pat := L "\Ardum((?: " ++ slice 2 2 pat_number ++ L ")+?)\Z";
     c_attrs := [{| a_name := "floats"; a_ty := Tup TReal;
          a_checks := [(BIsNone EX)] |}] |}.

(** /repo/src/pymcnp/inp/Sb_0.py:8-153 *)
Definition k_Sb_0 : cls :=
  {| c_name := "Sb_0"; c_kind := KCard; c_kw := L "sb";
     c_pat := L "\Asb(\d+)( [dcvw])?((?: " ++ slice 2 2 pat_number ++ L ")+?)\Z";
     c_attrs := [{| a_name := "suffix"; a_ty := One TInt;
          a_checks := [(BOr (BIsNone EX) (BNot (BAnd (BCmp OGe EX (EZ 1)) (BCmp OLe EX (EZ 999)))))] |};
       {| a_name := "option"; a_ty := One TStr;
          a_checks := [(BAnd (BNot (BIsNone EX)) (BNot (BIn (ELower EX) [(ES (L "d")); (ES (L "c")); (ES (L "v")); (ES (L "w"))])))] |};
       {| a_name := "biases"; a_ty := Tup TReal;
          a_checks := [(BIsNone EX)] |}] |}.

(** /repo/src/pymcnp/inp/Sb_1.py:8-149 *)
Definition k_Sb_1 : cls :=
  {| c_name := "Sb_1"; c_kind := KCard; c_kw := L "sb";
     c_pat := L "\Asb( " ++ slice 2 2 pat_number ++ L ")( " ++ slice 2 2 pat_number ++ L ")( " ++ slice 2 2 pat_number ++ L ")?\Z";
     c_attrs := [{| a_name := "function"; a_ty := One TInt;
          a_checks := [(BOr (BIsNone EX) (BNot (BIn EX [(EZ (-2)); (EZ (-3)); (EZ (-4)); (EZ (-5)); (EZ (-6)); (EZ (-7)); (EZ (-21)); (EZ (-31)); (EZ (-41))])))] |};
       {| a_name := "a"; a_ty := One TReal;
          a_checks := [(BIsNone EX)] |};
       {| a_name := "b"; a_ty := One TReal;
          a_checks := [] |}] |}.

(** /repo/src/pymcnp/inp/Sc.py:8-112 *)
Definition k_Sc : cls :=
  {| c_name := "Sc"; c_kind := KCard; c_kw := L "sc";
     c_pat := L "\Asc(\d+)((?: " ++ slice 2 2 pat_string ++ L ")+?)\Z";
     c_attrs := [{| a_name := "suffix"; a_ty := One TInt;
          a_checks := [(BOr (BIsNone EX) (BNot (BAnd (BCmp OGe EX (EZ 1)) (BCmp OLe EX (EZ 999)))))] |};
       {| a_name := "comment"; a_ty := Tup TStr;
          a_checks := [(BIsNone EX)] |}] |}.

(** /repo/src/pymcnp/inp/Sd.py:8-114 *)
Definition k_Sd : cls :=
  {| c_name := "Sd"; c_kind := KCard; c_kw := L "sd";
     c_pat := L "\Asd(\d+)((?: " ++ slice 2 2 pat_number ++ L ")+?)\Z";
     c_attrs := [{| a_name := "suffix"; a_ty := One TInt;
          a_checks := [(BOr (BIsNone EX) (BNot (BCmp OLe EX (EZ 99999999))))] |};
       {| a_name := "information"; a_ty := Tup TReal;
          a_checks := [(BIsNone EX)] |}] |}.

(** /repo/src/pymcnp/inp/sdef/Ara_0.py:8-70 *)
Definition k_sdef_Ara_0 : cls :=
  {| c_name := "sdef_Ara_0"; c_kind := KOption; c_kw := L "ara";
     c_pat := L "\Aara( " ++ slice 2 2 pat_number ++ L ")\Z";
     c_attrs := [{| a_name := "area"; a_ty := One TReal;
          a_checks := [(BIsNone EX)] |}] |}.

(** /repo/src/pymcnp/inp/sdef/f/Fcel.py:8-68 *)
Definition k_sdef_f_Fcel : cls :=
  {| c_name := "sdef_f_Fcel"; c_kind := KOption; c_kw := L "fcel";
     c_pat := L "\Afcel( " ++ slice 2 2 pat_distribution ++ L ")\Z";
     c_attrs := [{| a_name := "distribution"; a_ty := One TDist;
          a_checks := [(BIsNone EX)] |}] |}.

(** /repo/src/pymcnp/inp/sdef/f/Fsur.py:8-68 *)
Definition k_sdef_f_Fsur : cls :=
  {| c_name := "sdef_f_Fsur"; c_kind := KOption; c_kw := L "fsur";
     c_pat := L "\Afsur( " ++ slice 2 2 pat_distribution ++ L ")\Z";
     c_attrs := [{| a_name := "distribution"; a_ty := One TDist;
          a_checks := [(BIsNone EX)] |}] |}.

(** /repo/src/pymcnp/inp/sdef/f/Ferg.py:8-68 *)
Definition k_sdef_f_Ferg : cls :=
  {| c_name := "sdef_f_Ferg"; c_kind := KOption; c_kw := L "ferg";
     c_pat := L "\Aferg( " ++ slice 2 2 pat_distribution ++ L ")\Z";
     c_attrs := [{| a_name := "distribution"; a_ty := One TDist;
          a_checks := [(BIsNone EX)] |}] |}.

(** /repo/src/pymcnp/inp/sdef/f/Ftme.py:8-68 *)
Definition k_sdef_f_Ftme : cls :=
  {| c_name := "sdef_f_Ftme"; c_kind := KOption; c_kw := L "ftme";
     c_pat := L "\Aftme( " ++ slice 2 2 pat_distribution ++ L ")\Z";
     c_attrs := [{| a_name := "distribution"; a_ty := One TDist;
          a_checks := [(BIsNone EX)] |}] |}.

(** /repo/src/pymcnp/inp/sdef/f/Fdir.py:8-68 *)
Definition k_sdef_f_Fdir : cls :=
  {| c_name := "sdef_f_Fdir"; c_kind := KOption; c_kw := L "fdir";
     c_pat := L "\Afdir( " ++ slice 2 2 pat_distribution ++ L ")\Z";
     c_attrs := [{| a_name := "distribution"; a_ty := One TDist;
          a_checks := [(BIsNone EX)] |}] |}.

(** /repo/src/pymcnp/inp/sdef/f/Fvec.py:8-68 *)
Definition k_sdef_f_Fvec : cls :=
  {| c_name := "sdef_f_Fvec"; c_kind := KOption; c_kw := L "fvec";
     c_pat := L "\Afvec( " ++ slice 2 2 pat_distribution ++ L ")\Z";
     c_attrs := [{| a_name := "distribution"; a_ty := One TDist;
          a_checks := [(BIsNone EX)] |}] |}.

(** /repo/src/pymcnp/inp/sdef/f/Fnrm.py:8-68 *)
Definition k_sdef_f_Fnrm : cls :=
  {| c_name := "sdef_f_Fnrm"; c_kind := KOption; c_kw := L "fnrm";
     c_pat := L "\Afnrm( " ++ slice 2 2 pat_distribution ++ L ")\Z";
     c_attrs := [{| a_name := "distribution"; a_ty := One TDist;
          a_checks := [(BIsNone EX)] |}] |}.

(** /repo/src/pymcnp/inp/sdef/f/Fpos.py:8-68 *)
Definition k_sdef_f_Fpos : cls :=
  {| c_name := "sdef_f_Fpos"; c_kind := KOption; c_kw := L "fpos";
     c_pat := L "\Afpos( " ++ slice 2 2 pat_distribution ++ L ")\Z";
     c_attrs := [{| a_name := "distribution"; a_ty := One TDist;
          a_checks := [(BIsNone EX)] |}] |}.

(** /repo/src/pymcnp/inp/sdef/f/Frad.py:8-68 *)
Definition k_sdef_f_Frad : cls :=
  {| c_name := "sdef_f_Frad"; c_kind := KOption; c_kw := L "frad";
     c_pat := L "\Afrad( " ++ slice 2 2 pat_distribution ++ L ")\Z";
     c_attrs := [{| a_name := "distribution"; a_ty := One TDist;
          a_checks := [(BIsNone EX)] |}] |}.

(** /repo/src/pymcnp/inp/sdef/f/Fext.py:8-68 *)
Definition k_sdef_f_Fext : cls :=
  {| c_name := "sdef_f_Fext"; c_kind := KOption; c_kw := L "fext";
     c_pat := L "\Afext( " ++ slice 2 2 pat_distribution ++ L ")\Z";
     c_attrs := [{| a_name := "distribution"; a_ty := One TDist;
          a_checks := [(BIsNone EX)] |}] |}.

(** /repo/src/pymcnp/inp/sdef/f/Faxs.py:8-68 *)
Definition k_sdef_f_Faxs : cls :=
  {| c_name := "sdef_f_Faxs"; c_kind := KOption; c_kw := L "faxs";
     c_pat := L "\Afaxs( " ++ slice 2 2 pat_distribution ++ L ")\Z";
     c_attrs := [{| a_name := "distribution"; a_ty := One TDist;
          a_checks := [(BIsNone EX)] |}] |}.

(** /repo/src/pymcnp/inp/sdef/f/Fx.py:8-68 *)
Definition k_sdef_f_Fx : cls :=
  {| c_name := "sdef_f_Fx"; c_kind := KOption; c_kw := L "fx";
     c_pat := L "\Afx( " ++ slice 2 2 pat_distribution ++ L ")\Z";
     c_attrs := [{| a_name := "distribution"; a_ty := One TDist;
          a_checks := [(BIsNone EX)] |}] |}.

(** /repo/src/pymcnp/inp/sdef/f/Fy.py:8-68 *)
Definition k_sdef_f_Fy : cls :=
  {| c_name := "sdef_f_Fy"; c_kind := KOption; c_kw := L "fy";
     c_pat := L "\Afy( " ++ slice 2 2 pat_distribution ++ L ")\Z";
     c_attrs := [{| a_name := "distribution"; a_ty := One TDist;
          a_checks := [(BIsNone EX)] |}] |}.

(** /repo/src/pymcnp/inp/sdef/f/Fz.py:8-68 *)
Definition k_sdef_f_Fz : cls :=
  {| c_name := "sdef_f_Fz"; c_kind := KOption; c_kw := L "fz";
     c_pat := L "\Afz( " ++ slice 2 2 pat_distribution ++ L ")\Z";
     c_attrs := [{| a_name := "distribution"; a_ty := One TDist;
          a_checks := [(BIsNone EX)] |}] |}.

(** /repo/src/pymcnp/inp/sdef/f/Fccc.py:8-68 *)
Definition k_sdef_f_Fccc : cls :=
  {| c_name := "sdef_f_Fccc"; c_kind := KOption; c_kw := L "fccc";
     c_pat := L "\Afccc( " ++ slice 2 2 pat_distribution ++ L ")\Z";
     c_attrs := [{| a_name := "distribution"; a_ty := One TDist;
          a_checks := [(BIsNone EX)] |}] |}.

(** /repo/src/pymcnp/inp/sdef/f/Fara.py:8-68 *)
Definition k_sdef_f_Fara : cls :=
  {| c_name := "sdef_f_Fara"; c_kind := KOption; c_kw := L "fara";
     c_pat := L "\Afara( " ++ slice 2 2 pat_distribution ++ L ")\Z";
     c_attrs := [{| a_name := "distribution"; a_ty := One TDist;
          a_checks := [(BIsNone EX)] |}] |}.

(** /repo/src/pymcnp/inp/sdef/f/Fwgt.py:8-68 *)
Definition k_sdef_f_Fwgt : cls :=
  {| c_name := "sdef_f_Fwgt"; c_kind := KOption; c_kw := L "fwgt";
     c_pat := L "\Afwgt( " ++ slice 2 2 pat_distribution ++ L ")\Z";
     c_attrs := [{| a_name := "distribution"; a_ty := One TDist;
          a_checks := [(BIsNone EX)] |}] |}.

(** /repo/src/pymcnp/inp/sdef/f/Ftr.py:8-68 *)
Definition k_sdef_f_Ftr : cls :=
  {| c_name := "sdef_f_Ftr"; c_kind := KOption; c_kw := L "ftr";
     c_pat := L "\Aftr( " ++ slice 2 2 pat_distribution ++ L ")\Z";
     c_attrs := [{| a_name := "distribution"; a_ty := One TDist;
          a_checks := [(BIsNone EX)] |}] |}.

(** /repo/src/pymcnp/inp/sdef/f/Feff.py:8-68 *)
Definition k_sdef_f_Feff : cls :=
  {| c_name := "sdef_f_Feff"; c_kind := KOption; c_kw := L "feff";
     c_pat := L "\Afeff( " ++ slice 2 2 pat_distribution ++ L ")\Z";
     c_attrs := [{| a_name := "distribution"; a_ty := One TDist;
          a_checks := [(BIsNone EX)] |}] |}.

(** /repo/src/pymcnp/inp/sdef/f/Fpar.py:8-68 *)
Definition k_sdef_f_Fpar : cls :=
  {| c_name := "sdef_f_Fpar"; c_kind := KOption; c_kw := L "fpar";
     c_pat := L "\Afpar( " ++ slice 2 2 pat_distribution ++ L ")\Z";
     c_attrs := [{| a_name := "distribution"; a_ty := One TDist;
          a_checks := [(BIsNone EX)] |}] |}.

(** /repo/src/pymcnp/inp/sdef/f/Fdat.py:8-68 *)
Definition k_sdef_f_Fdat : cls :=
  {| c_name := "sdef_f_Fdat"; c_kind := KOption; c_kw := L "fdat";
     c_pat := L "\Afdat( " ++ slice 2 2 pat_distribution ++ L ")\Z";
     c_attrs := [{| a_name := "distribution"; a_ty := One TDist;
          a_checks := [(BIsNone EX)] |}] |}.

(** /repo/src/pymcnp/inp/sdef/f/Floc.py:8-68 *)
Definition k_sdef_f_Floc : cls :=
  {| c_name := "sdef_f_Floc"; c_kind := KOption; c_kw := L "floc";
     c_pat := L "\Afloc( " ++ slice 2 2 pat_distribution ++ L ")\Z";
     c_attrs := [{| a_name := "distribution"; a_ty := One TDist;
          a_checks := [(BIsNone EX)] |}] |}.

(** /repo/src/pymcnp/inp/sdef/f/Fbem.py:8-68 *)
Definition k_sdef_f_Fbem : cls :=
  {| c_name := "sdef_f_Fbem"; c_kind := KOption; c_kw := L "fbem";
     c_pat := L "\Afbem( " ++ slice 2 2 pat_distribution ++ L ")\Z";
     c_attrs := [{| a_name := "distribution"; a_ty := One TDist;
          a_checks := [(BIsNone EX)] |}] |}.

(** /repo/src/pymcnp/inp/sdef/f/Fbap.py:8-68 *)
Definition k_sdef_f_Fbap : cls :=
  {| c_name := "sdef_f_Fbap"; c_kind := KOption; c_kw := L "fbap";
     c_pat := L "\Afbap( " ++ slice 2 2 pat_distribution ++ L ")\Z";
     c_attrs := [{| a_name := "distribution"; a_ty := One TDist;
          a_checks := [(BIsNone EX)] |}] |}.

(** /repo/src/pymcnp/inp/sdef/f/_option.py:4-9: the subclasses in definition order, and the pattern
    that _symbol.py:40-44 makes of theirs, longest class name first. *)
Definition f_sdef_f_FOption : list cls := [k_sdef_f_Fcel; k_sdef_f_Fsur; k_sdef_f_Ferg; k_sdef_f_Ftme; k_sdef_f_Fdir; k_sdef_f_Fvec; k_sdef_f_Fnrm; k_sdef_f_Fpos; k_sdef_f_Frad; k_sdef_f_Fext; k_sdef_f_Faxs; k_sdef_f_Fx; k_sdef_f_Fy; k_sdef_f_Fz; k_sdef_f_Fccc; k_sdef_f_Fara; k_sdef_f_Fwgt; k_sdef_f_Ftr; k_sdef_f_Feff; k_sdef_f_Fpar; k_sdef_f_Fdat; k_sdef_f_Floc; k_sdef_f_Fbem; k_sdef_f_Fbap].
Definition pat_sdef_f_FOption : str := union_pat [c_pat k_sdef_f_Fcel; c_pat k_sdef_f_Fsur; c_pat k_sdef_f_Ferg; c_pat k_sdef_f_Ftme; c_pat k_sdef_f_Fdir; c_pat k_sdef_f_Fvec; c_pat k_sdef_f_Fnrm; c_pat k_sdef_f_Fpos; c_pat k_sdef_f_Frad; c_pat k_sdef_f_Fext; c_pat k_sdef_f_Faxs; c_pat k_sdef_f_Fccc; c_pat k_sdef_f_Fara; c_pat k_sdef_f_Fwgt; c_pat k_sdef_f_Feff; c_pat k_sdef_f_Fpar; c_pat k_sdef_f_Fdat; c_pat k_sdef_f_Floc; c_pat k_sdef_f_Fbem; c_pat k_sdef_f_Fbap; c_pat k_sdef_f_Ftr; c_pat k_sdef_f_Fx; c_pat k_sdef_f_Fy; c_pat k_sdef_f_Fz].

(** /repo/src/pymcnp/inp/sdef/Ara_1.py:8-68 *)
Definition k_sdef_Ara_1 : cls :=
  {| c_name := "sdef_Ara_1"; c_kind := KOption; c_kw := L "ara";
     c_pat := L "\Aara( (?:" ++ slice 2 2 pat_sdef_f_FOption ++ L "))\Z";
     c_attrs := [{| a_name := "option"; a_ty := One (TExt "sdef_f_FOption" pat_sdef_f_FOption);
          a_checks := [(BIsNone EX)] |}] |}.

(** /repo/src/pymcnp/inp/sdef/Axs_0.py:8-152 *)
Definition k_sdef_Axs_0 : cls :=
  {| c_name := "sdef_Axs_0"; c_kind := KOption; c_kw := L "axs";
     c_pat := L "\Aaxs( " ++ slice 2 2 pat_number ++ L ")( " ++ slice 2 2 pat_number ++ L ")( " ++ slice 2 2 pat_number ++ L ")\Z";
     c_attrs := [{| a_name := "x"; a_ty := One TReal;
          a_checks := [(BIsNone EX)] |};
       {| a_name := "y"; a_ty := One TReal;
          a_checks := [(BIsNone EX)] |};
       {| a_name := "z"; a_ty := One TReal;
          a_checks := [(BIsNone EX)] |}] |}.

(** /repo/src/pymcnp/inp/sdef/Axs_1.py:8-68 *)
Definition k_sdef_Axs_1 : cls :=
  {| c_name := "sdef_Axs_1"; c_kind := KOption; c_kw := L "axs";
     c_pat := L "\Aaxs( (?:" ++ slice 2 2 pat_sdef_f_FOption ++ L "))\Z";
     c_attrs := [{| a_name := "option"; a_ty := One (TExt "sdef_f_FOption" pat_sdef_f_FOption);
          a_checks := [(BIsNone EX)] |}] |}.

(** /repo/src/pymcnp/inp/sdef/Bap_0.py:8-152 *)
Definition k_sdef_Bap_0 : cls :=
  {| c_name := "sdef_Bap_0"; c_kind := KOption; c_kw := L "bap";
     c_pat := L "\Abap( " ++ slice 2 2 pat_number ++ L ")( " ++ slice 2 2 pat_number ++ L ")( " ++ slice 2 2 pat_number ++ L ")\Z";
     c_attrs := [{| a_name := "ba1"; a_ty := One TReal;
          a_checks := [(BIsNone EX)] |};
       {| a_name := "ba2"; a_ty := One TReal;
          a_checks := [(BIsNone EX)] |};
       {| a_name := "u"; a_ty := One TReal;
          a_checks := [(BIsNone EX)] |}] |}.

(** /repo/src/pymcnp/inp/sdef/Bap_1.py:8-68 *)
Definition k_sdef_Bap_1 : cls :=
  {| c_name := "sdef_Bap_1"; c_kind := KOption; c_kw := L "bap";
     c_pat := L "\Abap( (?:" ++ slice 2 2 pat_sdef_f_FOption ++ L "))\Z";
     c_attrs := [{| a_name := "option"; a_ty := One (TExt "sdef_f_FOption" pat_sdef_f_FOption);
          a_checks := [(BIsNone EX)] |}] |}.

(** /repo/src/pymcnp/inp/sdef/Bem_0.py:8-152 *)
Definition k_sdef_Bem_0 : cls :=
  {| c_name := "sdef_Bem_0"; c_kind := KOption; c_kw := L "bem";
     c_pat := L "\Abem( " ++ slice 2 2 pat_number ++ L ")( " ++ slice 2 2 pat_number ++ L ")( " ++ slice 2 2 pat_number ++ L ")\Z";
     c_attrs := [{| a_name := "exn"; a_ty := One TReal;
          a_checks := [(BIsNone EX)] |};
       {| a_name := "eyn"; a_ty := One TReal;
          a_checks := [(BIsNone EX)] |};
       {| a_name := "bml"; a_ty := One TReal;
          a_checks := [(BOr (BIsNone EX) (BNot (BCmp OGe EX (EZ 0))))] |}] |}.

(** /repo/src/pymcnp/inp/sdef/Bem_1.py:8-68 *)
Definition k_sdef_Bem_1 : cls :=
  {| c_name := "sdef_Bem_1"; c_kind := KOption; c_kw := L "bem";
     c_pat := L "\Abem( (?:" ++ slice 2 2 pat_sdef_f_FOption ++ L "))\Z";
     c_attrs := [{| a_name := "option"; a_ty := One (TExt "sdef_f_FOption" pat_sdef_f_FOption);
          a_checks := [(BIsNone EX)] |}] |}.

(** /repo/src/pymcnp/inp/sdef/Ccc_0.py:8-70 *)
Definition k_sdef_Ccc_0 : cls :=
  {| c_name := "sdef_Ccc_0"; c_kind := KOption; c_kw := L "ccc";
     c_pat := L "\Accc( " ++ slice 2 2 pat_number ++ L ")\Z";
     c_attrs := [{| a_name := "number"; a_ty := One TInt;
          a_checks := [(BOr (BIsNone EX) (BNot (BAnd (BCmp OGe EX (EZ 0)) (BCmp OLe EX (EZ 99999999)))))] |}] |}.

(** /repo/src/pymcnp/inp/sdef/Ccc_1.py:8-68 *)
Definition k_sdef_Ccc_1 : cls :=
  {| c_name := "sdef_Ccc_1"; c_kind := KOption; c_kw := L "ccc";
     c_pat := L "\Accc( (?:" ++ slice 2 2 pat_sdef_f_FOption ++ L "))\Z";
     c_attrs := [{| a_name := "option"; a_ty := One (TExt "sdef_f_FOption" pat_sdef_f_FOption);
          a_checks := [(BIsNone EX)] |}] |}.

(** /repo/src/pymcnp/inp/sdef/Cel_0.py:8-70 *)
Definition k_sdef_Cel_0 : cls :=
  {| c_name := "sdef_Cel_0"; c_kind := KOption; c_kw := L "cel";
     c_pat := L "\Acel( " ++ slice 2 2 pat_number ++ L ")\Z";
     c_attrs := [{| a_name := "number"; a_ty := One TInt;
          a_checks := [(BOr (BIsNone EX) (BNot (BOr (BJump EX) (BAnd (BCmp OGe EX (EZ 0)) (BCmp OLe EX (EZ 99999999))))))] |}] |}.

(** /repo/src/pymcnp/inp/sdef/Cel_1.py:8-68 *)
Definition k_sdef_Cel_1 : cls :=
  {| c_name := "sdef_Cel_1"; c_kind := KOption; c_kw := L "cel";
     c_pat := L "\Acel( " ++ slice 2 2 pat_distribution ++ L ")\Z";
     c_attrs := [{| a_name := "number"; a_ty := One TDist;
          a_checks := [(BIsNone EX)] |}] |}.

(** /repo/src/pymcnp/inp/sdef/Cel_2.py:8-68 *)
Definition k_sdef_Cel_2 : cls :=
  {| c_name := "sdef_Cel_2"; c_kind := KOption; c_kw := L "cel";
     c_pat := L "\Acel( (?:" ++ slice 2 2 pat_sdef_f_FOption ++ L "))\Z";
     c_attrs := [{| a_name := "option"; a_ty := One (TExt "sdef_f_FOption" pat_sdef_f_FOption);
          a_checks := [(BIsNone EX)] |}] |}.

(** /repo/src/pymcnp/inp/sdef/Dat_0.py:8-152 *)
Definition k_sdef_Dat_0 : cls :=
  {| c_name := "sdef_Dat_0"; c_kind := KOption; c_kw := L "dat";
     c_pat := L "\Adat( " ++ slice 2 2 pat_number ++ L ")( " ++ slice 2 2 pat_number ++ L ")( " ++ slice 2 2 pat_number ++ L ")\Z";
     c_attrs := [{| a_name := "month"; a_ty := One TInt;
          a_checks := [(BOr (BIsNone EX) (BNot (BAnd (BCmp OGe EX (EZ 1)) (BCmp OLe EX (EZ 12)))))] |};
       {| a_name := "day"; a_ty := One TInt;
          a_checks := [(BOr (BIsNone EX) (BNot (BAnd (BCmp OGe EX (EZ 1)) (BCmp OLe EX (EZ 31)))))] |};
       {| a_name := "year"; a_ty := One TInt;
          a_checks := [(BOr (BIsNone EX) (BNot (BAnd (BCmp OGe EX (EZ 1)) (BCmp OLe EX (EZ 9999)))))] |}] |}.

(** /repo/src/pymcnp/inp/sdef/Dat_1.py:8-68 *)
Definition k_sdef_Dat_1 : cls :=
  {| c_name := "sdef_Dat_1"; c_kind := KOption; c_kw := L "dat";
     c_pat := L "\Adat( (?:" ++ slice 2 2 pat_sdef_f_FOption ++ L "))\Z";
     c_attrs := [{| a_name := "option"; a_ty := One (TExt "sdef_f_FOption" pat_sdef_f_FOption);
          a_checks := [(BIsNone EX)] |}] |}.

(** /repo/src/pymcnp/inp/sdef/Dir_1.py:8-68 *)
Definition k_sdef_Dir_1 : cls :=
  {| c_name := "sdef_Dir_1"; c_kind := KOption; c_kw := L "dir";
     c_pat := L "\Adir( " ++ slice 2 2 pat_distribution ++ L ")\Z";
     c_attrs := [{| a_name := "cosine"; a_ty := One TDist;
          a_checks := [(BIsNone EX)] |}] |}.

(** /repo/src/pymcnp/inp/sdef/Dir_2.py:8-68 *)
Definition k_sdef_Dir_2 : cls :=
  {| c_name := "sdef_Dir_2"; c_kind := KOption; c_kw := L "dir";
     c_pat := L "\Adir( (?:" ++ slice 2 2 pat_sdef_f_FOption ++ L "))\Z";
     c_attrs := [{| a_name := "option"; a_ty := One (TExt "sdef_f_FOption" pat_sdef_f_FOption);
          a_checks := [(BIsNone EX)] |}] |}.

(** /repo/src/pymcnp/inp/sdef/Dir_0.py:7-66 *)
Definition k_sdef_Dir_0 : cls :=
  {| c_name := "sdef_Dir_0"; c_kind := KOption; c_kw := L "dir";
     c_pat := L "\Adir( " ++ slice 2 2 pat_number ++ L ")?\Z";
     c_attrs := [{| a_name := "cosine"; a_ty := One TReal;
          a_checks := [] |}] |}.

(** /repo/src/pymcnp/inp/sdef/Eff_0.py:8-70 *)
Definition k_sdef_Eff_0 : cls :=
  {| c_name := "sdef_Eff_0"; c_kind := KOption; c_kw := L "eff";
     c_pat := L "\Aeff( " ++ slice 2 2 pat_number ++ L ")\Z";
     c_attrs := [{| a_name := "criterion"; a_ty := One TReal;
          a_checks := [(BIsNone EX)] |}] |}.

(** /repo/src/pymcnp/inp/sdef/Eff_1.py:8-68 *)
Definition k_sdef_Eff_1 : cls :=
  {| c_name := "sdef_Eff_1"; c_kind := KOption; c_kw := L "eff";
     c_pat := L "\Aeff( (?:" ++ slice 2 2 pat_sdef_f_FOption ++ L "))\Z";
     c_attrs := [{| a_name := "option"; a_ty := One (TExt "sdef_f_FOption" pat_sdef_f_FOption);
          a_checks := [(BIsNone EX)] |}] |}.

(** /repo/src/pymcnp/inp/sdef/Erg_0.py:8-70 *)
Definition k_sdef_Erg_0 : cls :=
  {| c_name := "sdef_Erg_0"; c_kind := KOption; c_kw := L "erg";
     c_pat := L "\Aerg( " ++ slice 2 2 pat_number ++ L ")\Z";
     c_attrs := [{| a_name := "energy"; a_ty := One TReal;
          a_checks := [(BIsNone EX)] |}] |}.

(** /repo/src/pymcnp/inp/sdef/Erg_1.py:8-68 *)
Definition k_sdef_Erg_1 : cls :=
  {| c_name := "sdef_Erg_1"; c_kind := KOption; c_kw := L "erg";
     c_pat := L "\Aerg( " ++ slice 2 2 pat_distribution ++ L ")\Z";
     c_attrs := [{| a_name := "energy"; a_ty := One TDist;
          a_checks := [(BIsNone EX)] |}] |}.

(** /repo/src/pymcnp/inp/sdef/Erg_2.py:8-68 *)
Definition k_sdef_Erg_2 : cls :=
  {| c_name := "sdef_Erg_2"; c_kind := KOption; c_kw := L "erg";
     c_pat := L "\Aerg( (?:" ++ slice 2 2 pat_sdef_f_FOption ++ L "))\Z";
     c_attrs := [{| a_name := "option"; a_ty := One (TExt "sdef_f_FOption" pat_sdef_f_FOption);
          a_checks := [(BIsNone EX)] |}] |}.

(** /repo/src/pymcnp/inp/sdef/Ext_0.py:8-70 *)
Definition k_sdef_Ext_0 : cls :=
  {| c_name := "sdef_Ext_0"; c_kind := KOption; c_kw := L "ext";
     c_pat := L "\Aext( " ++ slice 2 2 pat_number ++ L ")\Z";
     c_attrs := [{| a_name := "distance_cosine"; a_ty := One TReal;
          a_checks := [(BIsNone EX)] |}] |}.

(** /repo/src/pymcnp/inp/sdef/Ext_1.py:8-68 *)
Definition k_sdef_Ext_1 : cls :=
  {| c_name := "sdef_Ext_1"; c_kind := KOption; c_kw := L "ext";
     c_pat := L "\Aext( " ++ slice 2 2 pat_distribution ++ L ")\Z";
     c_attrs := [{| a_name := "distance_cosine"; a_ty := One TDist;
          a_checks := [(BIsNone EX)] |}] |}.

(** /repo/src/pymcnp/inp/sdef/Ext_2.py:8-68 *)
Definition k_sdef_Ext_2 : cls :=
  {| c_name := "sdef_Ext_2"; c_kind := KOption; c_kw := L "ext";
     c_pat := L "\Aext( (?:" ++ slice 2 2 pat_sdef_f_FOption ++ L "))\Z";
     c_attrs := [{| a_name := "option"; a_ty := One (TExt "sdef_f_FOption" pat_sdef_f_FOption);
          a_checks := [(BIsNone EX)] |}] |}.

(** /repo/src/pymcnp/inp/sdef/Loc_0.py:8-152 *)
Definition k_sdef_Loc_0 : cls :=
  {| c_name := "sdef_Loc_0"; c_kind := KOption; c_kw := L "loc";
     c_pat := L "\Aloc( " ++ slice 2 2 pat_number ++ L ")( " ++ slice 2 2 pat_number ++ L ")( " ++ slice 2 2 pat_number ++ L ")\Z";
     c_attrs := [{| a_name := "latitude"; a_ty := One TReal;
          a_checks := [(BOr (BIsNone EX) (BNot (BAnd (BCmp OGe EX (EZ 0)) (BCmp OLe EX (EZ 90)))))] |};
       {| a_name := "longitude"; a_ty := One TReal;
          a_checks := [(BOr (BIsNone EX) (BNot (BAnd (BCmp OGe EX (EZ 0)) (BCmp OLe EX (EZ 180)))))] |};
       {| a_name := "altitude"; a_ty := One TReal;
          a_checks := [(BOr (BIsNone EX) (BNot (BCmp OLe (EZ 0) EX)))] |}] |}.

(** /repo/src/pymcnp/inp/sdef/Loc_1.py:8-68 *)
Definition k_sdef_Loc_1 : cls :=
  {| c_name := "sdef_Loc_1"; c_kind := KOption; c_kw := L "loc";
     c_pat := L "\Aloc( (?:" ++ slice 2 2 pat_sdef_f_FOption ++ L "))\Z";
     c_attrs := [{| a_name := "option"; a_ty := One (TExt "sdef_f_FOption" pat_sdef_f_FOption);
          a_checks := [(BIsNone EX)] |}] |}.

(** /repo/src/pymcnp/inp/sdef/Nrm_0.py:8-70 *)
Definition k_sdef_Nrm_0 : cls :=
  {| c_name := "sdef_Nrm_0"; c_kind := KOption; c_kw := L "nrm";
     c_pat := L "\Anrm( " ++ slice 2 2 pat_number ++ L ")\Z";
     c_attrs := [{| a_name := "sign"; a_ty := One TInt;
          a_checks := [(BIsNone EX)] |}] |}.

(** /repo/src/pymcnp/inp/sdef/Nrm_1.py:8-68 *)
Definition k_sdef_Nrm_1 : cls :=
  {| c_name := "sdef_Nrm_1"; c_kind := KOption; c_kw := L "nrm";
     c_pat := L "\Anrm( (?:" ++ slice 2 2 pat_sdef_f_FOption ++ L "))\Z";
     c_attrs := [{| a_name := "option"; a_ty := One (TExt "sdef_f_FOption" pat_sdef_f_FOption);
          a_checks := [(BIsNone EX)] |}] |}.

(** /repo/src/pymcnp/inp/sdef/Par_0.py:8-68 *)
Definition k_sdef_Par_0 : cls :=
  {| c_name := "sdef_Par_0"; c_kind := KOption; c_kw := L "par";
     c_pat := L "\Apar( " ++ slice 2 2 pat_string ++ L ")\Z";
     c_attrs := [{| a_name := "kind"; a_ty := One TStr;
          a_checks := [(BIsNone EX)] |}] |}.

(** /repo/src/pymcnp/inp/sdef/Par_1.py:8-68 *)
Definition k_sdef_Par_1 : cls :=
  {| c_name := "sdef_Par_1"; c_kind := KOption; c_kw := L "par";
     c_pat := L "\Apar( (?:" ++ slice 2 2 pat_sdef_f_FOption ++ L "))\Z";
     c_attrs := [{| a_name := "option"; a_ty := One (TExt "sdef_f_FOption" pat_sdef_f_FOption);
          a_checks := [(BIsNone EX)] |}] |}.

(** /repo/src/pymcnp/inp/sdef/Pos_0.py:8-152 *)
Definition k_sdef_Pos_0 : cls :=
  {| c_name := "sdef_Pos_0"; c_kind := KOption; c_kw := L "pos";
     c_pat := L "\Apos( " ++ slice 2 2 pat_number ++ L ")( " ++ slice 2 2 pat_number ++ L ")( " ++ slice 2 2 pat_number ++ L ")\Z";
     c_attrs := [{| a_name := "x"; a_ty := One TReal;
          a_checks := [(BIsNone EX)] |};
       {| a_name := "y"; a_ty := One TReal;
          a_checks := [(BIsNone EX)] |};
       {| a_name := "z"; a_ty := One TReal;
          a_checks := [(BIsNone EX)] |}] |}.

(** /repo/src/pymcnp/inp/sdef/Pos_1.py:8-67 *)
Definition k_sdef_Pos_1 : cls :=
  {| c_name := "sdef_Pos_1"; c_kind := KOption; c_kw := L "pos";
     c_pat := L "\Apos( " ++ slice 2 2 pat_distribution ++ L ")\Z";
     c_attrs := [{| a_name := "vector"; a_ty := One TDist;
          a_checks := [(BIsNone EX)] |}] |}.

(** /repo/src/pymcnp/inp/sdef/Pos_2.py:8-68 *)
Definition k_sdef_Pos_2 : cls :=
  {| c_name := "sdef_Pos_2"; c_kind := KOption; c_kw := L "pos";
     c_pat := L "\Apos( (?:" ++ slice 2 2 pat_sdef_f_FOption ++ L "))\Z";
     c_attrs := [{| a_name := "option"; a_ty := One (TExt "sdef_f_FOption" pat_sdef_f_FOption);
          a_checks := [(BIsNone EX)] |}] |}.

(** /repo/src/pymcnp/inp/sdef/Rad_0.py:8-70 *)
Definition k_sdef_Rad_0 : cls :=
  {| c_name := "sdef_Rad_0"; c_kind := KOption; c_kw := L "rad";
     c_pat := L "\Arad( " ++ slice 2 2 pat_number ++ L ")\Z";
     c_attrs := [{| a_name := "radial_distance"; a_ty := One TReal;
          a_checks := [(BIsNone EX)] |}] |}.

(** /repo/src/pymcnp/inp/sdef/Rad_1.py:8-68 *)
Definition k_sdef_Rad_1 : cls :=
  {| c_name := "sdef_Rad_1"; c_kind := KOption; c_kw := L "rad";
     c_pat := L "\Arad( " ++ slice 2 2 pat_distribution ++ L ")\Z";
     c_attrs := [{| a_name := "radial_distance"; a_ty := One TDist;
          a_checks := [(BIsNone EX)] |}] |}.

(** /repo/src/pymcnp/inp/sdef/Rad_2.py:8-68 *)
Definition k_sdef_Rad_2 : cls :=
  {| c_name := "sdef_Rad_2"; c_kind := KOption; c_kw := L "rad";
     c_pat := L "\Arad( (?:" ++ slice 2 2 pat_sdef_f_FOption ++ L "))\Z";
     c_attrs := [{| a_name := "option"; a_ty := One (TExt "sdef_f_FOption" pat_sdef_f_FOption);
          a_checks := [(BIsNone EX)] |}] |}.

(** /repo/src/pymcnp/inp/sdef/Sur_0.py:8-70 *)
Definition k_sdef_Sur_0 : cls :=
  {| c_name := "sdef_Sur_0"; c_kind := KOption; c_kw := L "sur";
     c_pat := L "\Asur( " ++ slice 2 2 pat_number ++ L ")\Z";
     c_attrs := [{| a_name := "number"; a_ty := One TInt;
          a_checks := [(BOr (BIsNone EX) (BNot (BOr (BJump EX) (BAnd (BCmp OGe EX (EZ 0)) (BCmp OLe EX (EZ 99999999))))))] |}] |}.

(** /repo/src/pymcnp/inp/sdef/Sur_1.py:8-68 *)
Definition k_sdef_Sur_1 : cls :=
  {| c_name := "sdef_Sur_1"; c_kind := KOption; c_kw := L "sur";
     c_pat := L "\Asur( (?:" ++ slice 2 2 pat_sdef_f_FOption ++ L "))\Z";
     c_attrs := [{| a_name := "option"; a_ty := One (TExt "sdef_f_FOption" pat_sdef_f_FOption);
          a_checks := [(BIsNone EX)] |}] |}.

(** /repo/src/pymcnp/inp/sdef/Tme_0.py:8-70 *)
Definition k_sdef_Tme_0 : cls :=
  {| c_name := "sdef_Tme_0"; c_kind := KOption; c_kw := L "tme";
     c_pat := L "\Atme( " ++ slice 2 2 pat_number ++ L ")\Z";
     c_attrs := [{| a_name := "time"; a_ty := One TReal;
          a_checks := [(BIsNone EX)] |}] |}.

(** /repo/src/pymcnp/inp/sdef/tme_1/Embedded.py:8-66.  The class has a reader of its own (34-56): it takes the
    sequence from the text with its [<] turned into blanks.  The generic reader, which
    takes it from the text itself, gives the same, as neither is part of a distribution;
    it raises InpError where the class raises TypesError. *)
Definition k_sdef_tme_1_Embedded : cls :=
  {| c_name := "sdef_tme_1_Embedded"; c_kind := (KOwn OChain); c_kw := L "";
     c_pat := L "\A(" ++ slice 2 2 pat_distribution ++ L "(?: ?< ?" ++ slice 2 2 pat_distribution ++ L ")*)\Z";
     c_attrs := [{| a_name := "distributions"; a_ty := Tup TDist; a_checks := [(BIsNone EX)] |}] |}.

(** /repo/src/pymcnp/inp/sdef/Tme_1.py:8-68 *)
Definition k_sdef_Tme_1 : cls :=
  {| c_name := "sdef_Tme_1"; c_kind := KOption; c_kw := L "tme";
     c_pat := L "\Atme( " ++ slice 2 2 (c_pat k_sdef_tme_1_Embedded) ++ L ")\Z";
     c_attrs := [{| a_name := "time"; a_ty := One (TExt "sdef_tme_1_Embedded" (c_pat k_sdef_tme_1_Embedded));
          a_checks := [(BIsNone EX)] |}] |}.

(** /repo/src/pymcnp/inp/sdef/Tme_2.py:8-68 *)
Definition k_sdef_Tme_2 : cls :=
  {| c_name := "sdef_Tme_2"; c_kind := KOption; c_kw := L "tme";
     c_pat := L "\Atme( (?:" ++ slice 2 2 pat_sdef_f_FOption ++ L "))\Z";
     c_attrs := [{| a_name := "option"; a_ty := One (TExt "sdef_f_FOption" pat_sdef_f_FOption);
          a_checks := [(BIsNone EX)] |}] |}.

(** /repo/src/pymcnp/inp/sdef/Tr_0.py:8-70 *)
Definition k_sdef_Tr_0 : cls :=
  {| c_name := "sdef_Tr_0"; c_kind := KOption; c_kw := L "tr";
     c_pat := L "\Atr( " ++ slice 2 2 pat_number ++ L ")\Z";
     c_attrs := [{| a_name := "number"; a_ty := One TInt;
          a_checks := [(BIsNone EX)] |}] |}.

(** /repo/src/pymcnp/inp/sdef/Tr_1.py:8-68 *)
Definition k_sdef_Tr_1 : cls :=
  {| c_name := "sdef_Tr_1"; c_kind := KOption; c_kw := L "tr";
     c_pat := L "\Atr( " ++ slice 2 2 pat_distribution ++ L ")\Z";
     c_attrs := [{| a_name := "number"; a_ty := One TDist;
          a_checks := [(BIsNone EX)] |}] |}.

(** /repo/src/pymcnp/inp/sdef/Tr_2.py:8-68 *)
Definition k_sdef_Tr_2 : cls :=
  {| c_name := "sdef_Tr_2"; c_kind := KOption; c_kw := L "tr";
     c_pat := L "\Atr( (?:" ++ slice 2 2 pat_sdef_f_FOption ++ L "))\Z";
     c_attrs := [{| a_name := "option"; a_ty := One (TExt "sdef_f_FOption" pat_sdef_f_FOption);
          a_checks := [(BIsNone EX)] |}] |}.

(** /repo/src/pymcnp/inp/sdef/Vec_0.py:8-152 *)
Definition k_sdef_Vec_0 : cls :=
  {| c_name := "sdef_Vec_0"; c_kind := KOption; c_kw := L "vec";
     c_pat := L "\Avec( " ++ slice 2 2 pat_number ++ L ")( " ++ slice 2 2 pat_number ++ L ")( " ++ slice 2 2 pat_number ++ L ")\Z";
     c_attrs := [{| a_name := "x"; a_ty := One TReal;
          a_checks := [(BIsNone EX)] |};
       {| a_name := "y"; a_ty := One TReal;
          a_checks := [(BIsNone EX)] |};
       {| a_name := "z"; a_ty := One TReal;
          a_checks := [(BIsNone EX)] |}] |}.

(** /repo/src/pymcnp/inp/sdef/Vec_1.py:8-68 *)
Definition k_sdef_Vec_1 : cls :=
  {| c_name := "sdef_Vec_1"; c_kind := KOption; c_kw := L "vec";
     c_pat := L "\Avec( (?:" ++ slice 2 2 pat_sdef_f_FOption ++ L "))\Z";
     c_attrs := [{| a_name := "option"; a_ty := One (TExt "sdef_f_FOption" pat_sdef_f_FOption);
          a_checks := [(BIsNone EX)] |}] |}.

(** /repo/src/pymcnp/inp/sdef/Wgt_0.py:8-70 *)
Definition k_sdef_Wgt_0 : cls :=
  {| c_name := "sdef_Wgt_0"; c_kind := KOption; c_kw := L "wgt";
     c_pat := L "\Awgt( " ++ slice 2 2 pat_number ++ L ")\Z";
     c_attrs := [{| a_name := "weight"; a_ty := One TReal;
          a_checks := [(BIsNone EX)] |}] |}.

(** /repo/src/pymcnp/inp/sdef/Wgt_1.py:8-68 *)
Definition k_sdef_Wgt_1 : cls :=
  {| c_name := "sdef_Wgt_1"; c_kind := KOption; c_kw := L "wgt";
     c_pat := L "\Awgt( (?:" ++ slice 2 2 pat_sdef_f_FOption ++ L "))\Z";
     c_attrs := [{| a_name := "option"; a_ty := One (TExt "sdef_f_FOption" pat_sdef_f_FOption);
          a_checks := [(BIsNone EX)] |}] |}.

(** /repo/src/pymcnp/inp/sdef/X_0.py:8-70 *)
Definition k_sdef_X_0 : cls :=
  {| c_name := "sdef_X_0"; c_kind := KOption; c_kw := L "x";
     c_pat := L "\Ax( " ++ slice 2 2 pat_number ++ L ")\Z";
     c_attrs := [{| a_name := "position"; a_ty := One TReal;
          a_checks := [(BIsNone EX)] |}] |}.

(** /repo/src/pymcnp/inp/sdef/X_1.py:8-68 *)
Definition k_sdef_X_1 : cls :=
  {| c_name := "sdef_X_1"; c_kind := KOption; c_kw := L "x";
     c_pat := L "\Ax( " ++ slice 2 2 pat_distribution ++ L ")\Z";
     c_attrs := [{| a_name := "position"; a_ty := One TDist;
          a_checks := [(BIsNone EX)] |}] |}.

(** /repo/src/pymcnp/inp/sdef/X_2.py:8-68 *)
Definition k_sdef_X_2 : cls :=
  {| c_name := "sdef_X_2"; c_kind := KOption; c_kw := L "x";
     c_pat := L "\Ax( (?:" ++ slice 2 2 pat_sdef_f_FOption ++ L "))\Z";
     c_attrs := [{| a_name := "option"; a_ty := One (TExt "sdef_f_FOption" pat_sdef_f_FOption);
          a_checks := [(BIsNone EX)] |}] |}.

(** /repo/src/pymcnp/inp/sdef/Y_0.py:8-70 *)
Definition k_sdef_Y_0 : cls :=
  {| c_name := "sdef_Y_0"; c_kind := KOption; c_kw := L "y";
     c_pat := L "\Ay( " ++ slice 2 2 pat_number ++ L ")\Z";
     c_attrs := [{| a_name := "position"; a_ty := One TReal;
          a_checks := [(BIsNone EX)] |}] |}.

(** /repo/src/pymcnp/inp/sdef/Y_1.py:8-68 *)
Definition k_sdef_Y_1 : cls :=
  {| c_name := "sdef_Y_1"; c_kind := KOption; c_kw := L "y";
     c_pat := L "\Ay( " ++ slice 2 2 pat_distribution ++ L ")\Z";
     c_attrs := [{| a_name := "position"; a_ty := One TDist;
          a_checks := [(BIsNone EX)] |}] |}.

(** /repo/src/pymcnp/inp/sdef/Y_2.py:8-68 *)
Definition k_sdef_Y_2 : cls :=
  {| c_name := "sdef_Y_2"; c_kind := KOption; c_kw := L "y";
     c_pat := L "\Ay( (?:" ++ slice 2 2 pat_sdef_f_FOption ++ L "))\Z";
     c_attrs := [{| a_name := "option"; a_ty := One (TExt "sdef_f_FOption" pat_sdef_f_FOption);
          a_checks := [(BIsNone EX)] |}] |}.

(** /repo/src/pymcnp/inp/sdef/Z_0.py:8-70 *)
Definition k_sdef_Z_0 : cls :=
  {| c_name := "sdef_Z_0"; c_kind := KOption; c_kw := L "z";
     c_pat := L "\Az( " ++ slice 2 2 pat_number ++ L ")\Z";
     c_attrs := [{| a_name := "position"; a_ty := One TReal;
          a_checks := [(BIsNone EX)] |}] |}.

(** /repo/src/pymcnp/inp/sdef/Z_1.py:8-68 *)
Definition k_sdef_Z_1 : cls :=
  {| c_name := "sdef_Z_1"; c_kind := KOption; c_kw := L "z";
     c_pat := L "\Az( " ++ slice 2 2 pat_distribution ++ L ")\Z";
     c_attrs := [{| a_name := "position"; a_ty := One TDist;
          a_checks := [(BIsNone EX)] |}] |}.

(** /repo/src/pymcnp/inp/sdef/Z_2.py:8-68 *)
Definition k_sdef_Z_2 : cls :=
  {| c_name := "sdef_Z_2"; c_kind := KOption; c_kw := L "z";
     c_pat := L "\Az( (?:" ++ slice 2 2 pat_sdef_f_FOption ++ L "))\Z";
     c_attrs := [{| a_name := "option"; a_ty := One (TExt "sdef_f_FOption" pat_sdef_f_FOption);
          a_checks := [(BIsNone EX)] |}] |}.

(** /repo/src/pymcnp/inp/sdef/_option.py:4-11: the subclasses in definition order, and the pattern
    that _symbol.py:40-44 makes of theirs, longest class name first. *)
Definition f_sdef_SdefOption : list cls := [k_sdef_Ara_0; k_sdef_Ara_1; k_sdef_Axs_0; k_sdef_Axs_1; k_sdef_Bap_0; k_sdef_Bap_1; k_sdef_Bem_0; k_sdef_Bem_1; k_sdef_Ccc_0; k_sdef_Ccc_1; k_sdef_Cel_0; k_sdef_Cel_1; k_sdef_Cel_2; k_sdef_Dat_0; k_sdef_Dat_1; k_sdef_Dir_1; k_sdef_Dir_2; k_sdef_Dir_0; k_sdef_Eff_0; k_sdef_Eff_1; k_sdef_Erg_0; k_sdef_Erg_1; k_sdef_Erg_2; k_sdef_Ext_0; k_sdef_Ext_1; k_sdef_Ext_2; k_sdef_Loc_0; k_sdef_Loc_1; k_sdef_Nrm_0; k_sdef_Nrm_1; k_sdef_Par_0; k_sdef_Par_1; k_sdef_Pos_0; k_sdef_Pos_1; k_sdef_Pos_2; k_sdef_Rad_0; k_sdef_Rad_1; k_sdef_Rad_2; k_sdef_Sur_0; k_sdef_Sur_1; k_sdef_Tme_0; k_sdef_Tme_1; k_sdef_Tme_2; k_sdef_Tr_0; k_sdef_Tr_1; k_sdef_Tr_2; k_sdef_Vec_0; k_sdef_Vec_1; k_sdef_Wgt_0; k_sdef_Wgt_1; k_sdef_X_0; k_sdef_X_1; k_sdef_X_2; k_sdef_Y_0; k_sdef_Y_1; k_sdef_Y_2; k_sdef_Z_0; k_sdef_Z_1; k_sdef_Z_2].
Definition pat_sdef_SdefOption : str := union_pat [c_pat k_sdef_Ara_0; c_pat k_sdef_Ara_1; c_pat k_sdef_Axs_0; c_pat k_sdef_Axs_1; c_pat k_sdef_Bap_0; c_pat k_sdef_Bap_1; c_pat k_sdef_Bem_0; c_pat k_sdef_Bem_1; c_pat k_sdef_Ccc_0; c_pat k_sdef_Ccc_1; c_pat k_sdef_Cel_0; c_pat k_sdef_Cel_1; c_pat k_sdef_Cel_2; c_pat k_sdef_Dat_0; c_pat k_sdef_Dat_1; c_pat k_sdef_Dir_1; c_pat k_sdef_Dir_2; c_pat k_sdef_Dir_0; c_pat k_sdef_Eff_0; c_pat k_sdef_Eff_1; c_pat k_sdef_Erg_0; c_pat k_sdef_Erg_1; c_pat k_sdef_Erg_2; c_pat k_sdef_Ext_0; c_pat k_sdef_Ext_1; c_pat k_sdef_Ext_2; c_pat k_sdef_Loc_0; c_pat k_sdef_Loc_1; c_pat k_sdef_Nrm_0; c_pat k_sdef_Nrm_1; c_pat k_sdef_Par_0; c_pat k_sdef_Par_1; c_pat k_sdef_Pos_0; c_pat k_sdef_Pos_1; c_pat k_sdef_Pos_2; c_pat k_sdef_Rad_0; c_pat k_sdef_Rad_1; c_pat k_sdef_Rad_2; c_pat k_sdef_Sur_0; c_pat k_sdef_Sur_1; c_pat k_sdef_Tme_0; c_pat k_sdef_Tme_1; c_pat k_sdef_Tme_2; c_pat k_sdef_Vec_0; c_pat k_sdef_Vec_1; c_pat k_sdef_Wgt_0; c_pat k_sdef_Wgt_1; c_pat k_sdef_Tr_0; c_pat k_sdef_Tr_1; c_pat k_sdef_Tr_2; c_pat k_sdef_X_0; c_pat k_sdef_X_1; c_pat k_sdef_X_2; c_pat k_sdef_Y_0; c_pat k_sdef_Y_1; c_pat k_sdef_Y_2; c_pat k_sdef_Z_0; c_pat k_sdef_Z_1; c_pat k_sdef_Z_2].

(** /repo/src/pymcnp/inp/Sdef.py:8-68 *)
Definition k_Sdef : cls :=
  {| c_name := "Sdef"; c_kind := KCard; c_kw := L "sdef";
     c_pat := L "\Asdef((?: (?:" ++ slice 2 2 pat_sdef_SdefOption ++ L "))+?)?\Z";
     c_attrs := [{| a_name := "options"; a_ty := Tup (TExt "sdef_SdefOption" pat_sdef_SdefOption);
          a_checks := [] |}] |}.

(** /repo/src/pymcnp/inp/Sf.py:8-114 *)
Definition k_Sf : cls :=
  {| c_name := "Sf"; c_kind := KCard; c_kw := L "sf";
     c_pat := L "\Asf(\d+)((?: " ++ slice 2 2 pat_number ++ L ")+?)\Z";
     c_attrs := [{| a_name := "suffix"; a_ty := One TInt;
          a_checks := [(BOr (BIsNone EX) (BNot (BCmp OLe EX (EZ 99999999))))] |};
       {| a_name := "numbers"; a_ty := Tup TInt;
          a_checks := [(BIsNone EX)] |}] |}.

(** /repo/src/pymcnp/inp/Si_0.py:8-148 *)
Definition k_Si_0 : cls :=
  {| c_name := "Si_0"; c_kind := KCard; c_kw := L "si";
     c_pat := L "\Asi(\d+)( [hlas])?((?: " ++ slice 2 2 pat_distribution ++ L ")+?)\Z";
     c_attrs := [{| a_name := "suffix"; a_ty := One TInt;
          a_checks := [(BIsNone EX)] |};
       {| a_name := "option"; a_ty := One TStr;
          a_checks := [] |};
       {| a_name := "information"; a_ty := Tup TDist;
          a_checks := [(BIsNone EX)] |}] |}.

(** /repo/src/pymcnp/inp/Si_1.py:8-150 *)
Definition k_Si_1 : cls :=
  {| c_name := "Si_1"; c_kind := KCard; c_kw := L "si";
     c_pat := L "\Asi(\d+)( [hlas])?((?: " ++ slice 2 2 pat_number ++ L ")+?)\Z";
     c_attrs := [{| a_name := "suffix"; a_ty := One TInt;
          a_checks := [(BIsNone EX)] |};
       {| a_name := "option"; a_ty := One TStr;
          a_checks := [] |};
       {| a_name := "information"; a_ty := Tup TReal;
          a_checks := [(BIsNone EX)] |}] |}.

(** /repo/src/pymcnp/inp/Si_2.py:8-148 *)
Definition k_Si_2 : cls :=
  {| c_name := "Si_2"; c_kind := KCard; c_kw := L "si";
     c_pat := L "\Asi(\d+)( [hlas])?((?: " ++ slice 2 2 pat_designator ++ L ")+?)\Z";
     c_attrs := [{| a_name := "suffix"; a_ty := One TInt;
          a_checks := [(BIsNone EX)] |};
       {| a_name := "option"; a_ty := One TStr;
          a_checks := [] |};
       {| a_name := "information"; a_ty := Tup TDesig;
          a_checks := [(BIsNone EX)] |}] |}.

(** /repo/src/pymcnp/inp/Sp_0.py:8-153 *)
Definition k_Sp_0 : cls :=
  {| c_name := "Sp_0"; c_kind := KCard; c_kw := L "sp";
     c_pat := L "\Asp(\d+)( [dcvw])?((?: " ++ slice 2 2 pat_number ++ L ")+?)\Z";
     c_attrs := [{| a_name := "suffix"; a_ty := One TInt;
          a_checks := [(BOr (BIsNone EX) (BNot (BAnd (BCmp OGe EX (EZ 1)) (BCmp OLe EX (EZ 999)))))] |};
       {| a_name := "option"; a_ty := One TStr;
          a_checks := [(BAnd (BNot (BIsNone EX)) (BNot (BIn (ELower EX) [(ES (L "d")); (ES (L "c")); (ES (L "v")); (ES (L "w"))])))] |};
       {| a_name := "probabilities"; a_ty := Tup TReal;
          a_checks := [(BIsNone EX)] |}] |}.

(** /repo/src/pymcnp/inp/Sp_1.py:8-149 *)
Definition k_Sp_1 : cls :=
  {| c_name := "Sp_1"; c_kind := KCard; c_kw := L "sp";
     c_pat := L "\Asp( " ++ slice 2 2 pat_number ++ L ")( " ++ slice 2 2 pat_number ++ L ")( " ++ slice 2 2 pat_number ++ L ")?\Z";
     c_attrs := [{| a_name := "function"; a_ty := One TInt;
          a_checks := [(BOr (BIsNone EX) (BNot (BIn EX [(EZ (-2)); (EZ (-3)); (EZ (-4)); (EZ (-5)); (EZ (-6)); (EZ (-7)); (EZ (-21)); (EZ (-31)); (EZ (-41))])))] |};
       {| a_name := "a"; a_ty := One TReal;
          a_checks := [(BIsNone EX)] |};
       {| a_name := "b"; a_ty := One TReal;
          a_checks := [] |}] |}.

(** /repo/src/pymcnp/inp/Spdtl.py:8-68 *)
Definition k_Spdtl : cls :=
  {| c_name := "Spdtl"; c_kind := KCard; c_kw := L "spdtl";
     c_pat := L "\Aspdtl( " ++ slice 2 2 pat_string ++ L ")\Z";
     c_attrs := [{| a_name := "keyword"; a_ty := One TStr;
          a_checks := [(BIsNone EX)] |}] |}.

(** /repo/src/pymcnp/inp/ssr/Old.py:8-73 *)
Definition k_ssr_Old : cls :=
  {| c_name := "ssr_Old"; c_kind := KOption; c_kw := L "old";
     c_pat := L "\Aold((?: " ++ slice 2 2 pat_number ++ L ")+?)\Z";
     c_attrs := [{| a_name := "numbers"; a_ty := Tup TInt;
          a_checks := [(BIsNone EX)] |}] |}.

(** /repo/src/pymcnp/inp/ssr/Cel.py:8-73 *)
Definition k_ssr_Cel : cls :=
  {| c_name := "ssr_Cel"; c_kind := KOption; c_kw := L "cel";
     c_pat := L "\Acel((?: " ++ slice 2 2 pat_number ++ L ")+?)\Z";
     c_attrs := [{| a_name := "numbers"; a_ty := Tup TInt;
          a_checks := [(BIsNone EX)] |}] |}.

(** /repo/src/pymcnp/inp/ssr/New.py:8-73 *)
Definition k_ssr_New : cls :=
  {| c_name := "ssr_New"; c_kind := KOption; c_kw := L "new";
     c_pat := L "\Anew((?: " ++ slice 2 2 pat_number ++ L ")+?)\Z";
     c_attrs := [{| a_name := "numbers"; a_ty := Tup TInt;
          a_checks := [(BIsNone EX)] |}] |}.

(** /repo/src/pymcnp/inp/ssr/Pty.py:8-71 *)
Definition k_ssr_Pty : cls :=
  {| c_name := "ssr_Pty"; c_kind := KOption; c_kw := L "pty";
     c_pat := L "\Apty((?: " ++ slice 2 2 pat_designator ++ L ")+?)\Z";
     c_attrs := [{| a_name := "particles"; a_ty := Tup TDesig;
          a_checks := [(BIsNone EX)] |}] |}.

(** /repo/src/pymcnp/inp/ssr/Col.py:8-70 *)
Definition k_ssr_Col : cls :=
  {| c_name := "ssr_Col"; c_kind := KOption; c_kw := L "col";
     c_pat := L "\Acol( " ++ slice 2 2 pat_number ++ L ")\Z";
     c_attrs := [{| a_name := "setting"; a_ty := One TInt;
          a_checks := [(BOr (BIsNone EX) (BNot (BIn EX [(EZ (-1)); (EZ 0); (EZ 1)])))] |}] |}.

(** /repo/src/pymcnp/inp/ssr/Wgt.py:8-70 *)
Definition k_ssr_Wgt : cls :=
  {| c_name := "ssr_Wgt"; c_kind := KOption; c_kw := L "wgt";
     c_pat := L "\Awgt( " ++ slice 2 2 pat_number ++ L ")\Z";
     c_attrs := [{| a_name := "constant"; a_ty := One TReal;
          a_checks := [(BIsNone EX)] |}] |}.

(** /repo/src/pymcnp/inp/ssr/Tr_0.py:8-68 *)
Definition k_ssr_Tr_0 : cls :=
  {| c_name := "ssr_Tr_0"; c_kind := KOption; c_kw := L "tr";
     c_pat := L "\Atr( " ++ slice 2 2 pat_distribution ++ L ")\Z";
     c_attrs := [{| a_name := "number"; a_ty := One TDist;
          a_checks := [(BIsNone EX)] |}] |}.

(** /repo/src/pymcnp/inp/ssr/Tr_1.py:8-70 *)
Definition k_ssr_Tr_1 : cls :=
  {| c_name := "ssr_Tr_1"; c_kind := KOption; c_kw := L "tr";
     c_pat := L "\Atr( " ++ slice 2 2 pat_number ++ L ")\Z";
     c_attrs := [{| a_name := "number"; a_ty := One TInt;
          a_checks := [(BIsNone EX)] |}] |}.

(** /repo/src/pymcnp/inp/ssr/Psc.py:8-70 *)
Definition k_ssr_Psc : cls :=
  {| c_name := "ssr_Psc"; c_kind := KOption; c_kw := L "psc";
     c_pat := L "\Apsc( " ++ slice 2 2 pat_number ++ L ")\Z";
     c_attrs := [{| a_name := "constant"; a_ty := One TReal;
          a_checks := [(BOr (BIsNone EX) (BNot (BCmp OGe EX (EZ 0))))] |}] |}.

(** /repo/src/pymcnp/inp/ssr/Axs.py:8-73 *)
Definition k_ssr_Axs : cls :=
  {| c_name := "ssr_Axs"; c_kind := KOption; c_kw := L "axs";
     c_pat := L "\Aaxs((?: " ++ slice 2 2 pat_number ++ L ")+?)\Z";
     c_attrs := [{| a_name := "cosines"; a_ty := Tup TReal;
          a_checks := [(BIsNone EX)] |}] |}.

(** /repo/src/pymcnp/inp/ssr/Ext.py:8-68 *)
Definition k_ssr_Ext : cls :=
  {| c_name := "ssr_Ext"; c_kind := KOption; c_kw := L "ext";
     c_pat := L "\Aext( " ++ slice 2 2 pat_distribution ++ L ")\Z";
     c_attrs := [{| a_name := "number"; a_ty := One TDist;
          a_checks := [(BIsNone EX)] |}] |}.

(** /repo/src/pymcnp/inp/ssr/Poa.py:8-70 *)
Definition k_ssr_Poa : cls :=
  {| c_name := "ssr_Poa"; c_kind := KOption; c_kw := L "poa";
     c_pat := L "\Apoa( " ++ slice 2 2 pat_number ++ L ")\Z";
     c_attrs := [{| a_name := "angle"; a_ty := One TReal;
          a_checks := [(BIsNone EX)] |}] |}.

(** /repo/src/pymcnp/inp/ssr/Bcw.py:8-152 *)
Definition k_ssr_Bcw : cls :=
  {| c_name := "ssr_Bcw"; c_kind := KOption; c_kw := L "bcw";
     c_pat := L "\Abcw( " ++ slice 2 2 pat_number ++ L ")( " ++ slice 2 2 pat_number ++ L ")( " ++ slice 2 2 pat_number ++ L ")\Z";
     c_attrs := [{| a_name := "radius"; a_ty := One TReal;
          a_checks := [(BIsNone EX)] |};
       {| a_name := "zb"; a_ty := One TReal;
          a_checks := [(BOr (BIsNone EX) (BNot (BCmp OGt EX (EZ 0))))] |};
       {| a_name := "ze"; a_ty := One TReal;
          a_checks := [(BOr (BIsNone EX) (BNot (BAnd (BCmp OGt (ESelf "zb") (EZ 0)) (BCmp OLt (ESelf "zb") EX))))] |}] |}.

(** /repo/src/pymcnp/inp/ssr/_option.py:4-9: the subclasses in definition order, and the pattern
    that _symbol.py:40-44 makes of theirs, longest class name first. *)
Definition f_ssr_SsrOption : list cls := [k_ssr_Old; k_ssr_Cel; k_ssr_New; k_ssr_Pty; k_ssr_Col; k_ssr_Wgt; k_ssr_Tr_0; k_ssr_Tr_1; k_ssr_Psc; k_ssr_Axs; k_ssr_Ext; k_ssr_Poa; k_ssr_Bcw].
Definition pat_ssr_SsrOption : str := union_pat [c_pat k_ssr_Tr_0; c_pat k_ssr_Tr_1; c_pat k_ssr_Old; c_pat k_ssr_Cel; c_pat k_ssr_New; c_pat k_ssr_Pty; c_pat k_ssr_Col; c_pat k_ssr_Wgt; c_pat k_ssr_Psc; c_pat k_ssr_Axs; c_pat k_ssr_Ext; c_pat k_ssr_Poa; c_pat k_ssr_Bcw].

(** /repo/src/pymcnp/inp/Ssr.py:8-68 *)
Definition k_Ssr : cls :=
  {| c_name := "Ssr"; c_kind := KCard; c_kw := L "ssr";
     c_pat := L "\Assr((?: (?:" ++ slice 2 2 pat_ssr_SsrOption ++ L "))+?)?\Z";
     c_attrs := [{| a_name := "options"; a_ty := Tup (TExt "ssr_SsrOption" pat_ssr_SsrOption);
          a_checks := [] |}] |}.

(** /repo/src/pymcnp/inp/ssw/Sym.py:8-70 *)
Definition k_ssw_Sym : cls :=
  {| c_name := "ssw_Sym"; c_kind := KOption; c_kw := L "sym";
     c_pat := L "\Asym( " ++ slice 2 2 pat_number ++ L ")\Z";
     c_attrs := [{| a_name := "setting"; a_ty := One TInt;
          a_checks := [(BOr (BIsNone EX) (BNot (BIn EX [(EZ 0); (EZ 1); (EZ 2)])))] |}] |}.

(** /repo/src/pymcnp/inp/ssw/Pty.py:8-71 *)
Definition k_ssw_Pty : cls :=
  {| c_name := "ssw_Pty"; c_kind := KOption; c_kw := L "pty";
     c_pat := L "\Apty((?: " ++ slice 2 2 pat_designator ++ L ")+?)\Z";
     c_attrs := [{| a_name := "tracks"; a_ty := Tup TDesig;
          a_checks := [(BIsNone EX)] |}] |}.

(** /repo/src/pymcnp/inp/ssw/Cel.py:8-73 *)
Definition k_ssw_Cel : cls :=
  {| c_name := "ssw_Cel"; c_kind := KOption; c_kw := L "cel";
     c_pat := L "\Acel((?: " ++ slice 2 2 pat_number ++ L ")+?)\Z";
     c_attrs := [{| a_name := "cfs"; a_ty := Tup TInt;
          a_checks := [(BIsNone EX)] |}] |}.

(** /repo/src/pymcnp/inp/ssw/_option.py:4-9: the subclasses in definition order, and the pattern
    that _symbol.py:40-44 makes of theirs, longest class name first. *)
Definition f_ssw_SswOption : list cls := [k_ssw_Sym; k_ssw_Pty; k_ssw_Cel].
Definition pat_ssw_SswOption : str := union_pat [c_pat k_ssw_Sym; c_pat k_ssw_Pty; c_pat k_ssw_Cel].

(** /repo/src/pymcnp/inp/Ssw.py:9-154 *)
Definition k_Ssw : cls :=
  {| c_name := "Ssw"; c_kind := KCard; c_kw := L "ssw";
     c_pat := L "\Assw((?: " ++ slice 2 2 pat_number ++ L ")+?)((?: " ++ slice 2 2 pat_number ++ L ")+?)?((?: (?:" ++ slice 2 2 pat_ssw_SswOption ++ L "))+?)?\Z";
     c_attrs := [{| a_name := "surfaces"; a_ty := Tup TInt;
          a_checks := [(BIsNone EX)] |};
       {| a_name := "cells"; a_ty := Tup TInt;
          a_checks := [] |};
       {| a_name := "options"; a_ty := Tup (TExt "ssw_SswOption" pat_ssw_SswOption);
          a_checks := [] |}] |}.

(** /repo/src/pymcnp/inp/stop/Nps.py:8-108 *)
Definition k_stop_Nps : cls :=
  {| c_name := "stop_Nps"; c_kind := KOption; c_kw := L "nps";
     c_pat := L "\Anps( " ++ slice 2 2 pat_number ++ L ")( " ++ slice 2 2 pat_number ++ L ")?\Z";
     c_attrs := [{| a_name := "npp"; a_ty := One TInt;
          a_checks := [(BIsNone EX)] |};
       {| a_name := "npsmg"; a_ty := One TInt;
          a_checks := [] |}] |}.

(** /repo/src/pymcnp/inp/stop/Ctme.py:8-70 *)
Definition k_stop_Ctme : cls :=
  {| c_name := "stop_Ctme"; c_kind := KOption; c_kw := L "ctme";
     c_pat := L "\Actme( " ++ slice 2 2 pat_number ++ L ")\Z";
     c_attrs := [{| a_name := "tme"; a_ty := One TReal;
          a_checks := [(BIsNone EX)] |}] |}.

(** /repo/src/pymcnp/inp/stop/F.py:8-111 *)
Definition k_stop_F : cls :=
  {| c_name := "stop_F"; c_kind := KOption; c_kw := L "f";
     c_pat := L "\Af(\d+)( " ++ slice 2 2 pat_number ++ L ")\Z";
     c_attrs := [{| a_name := "suffix"; a_ty := One TInt;
          a_checks := [(BOr (BIsNone EX) (BNot (BCmp OLe EX (EZ 99999999))))] |};
       {| a_name := "e"; a_ty := One TInt;
          a_checks := [(BIsNone EX)] |}] |}.

(** /repo/src/pymcnp/inp/stop/_option.py:4-9: the subclasses in definition order, and the pattern
    that _symbol.py:40-44 makes of theirs, longest class name first. *)
Definition f_stop_StopOption : list cls := [k_stop_Nps; k_stop_Ctme; k_stop_F].
Definition pat_stop_StopOption : str := union_pat [c_pat k_stop_Ctme; c_pat k_stop_Nps; c_pat k_stop_F].

(** /repo/src/pymcnp/inp/Stop.py:8-68 *)
Definition k_Stop : cls :=
  {| c_name := "Stop"; c_kind := KCard; c_kw := L "stop";
     c_pat := L "\Astop((?: (?:" ++ slice 2 2 pat_stop_StopOption ++ L "))+?)?\Z";
     c_attrs := [{| a_name := "options"; a_ty := Tup (TExt "stop_StopOption" pat_stop_StopOption);
          a_checks := [] |}] |}.

(** /repo/src/pymcnp/inp/T_0.py:8-186 *)
Definition k_T_0 : cls :=
  {| c_name := "T_0"; c_kind := KCard; c_kw := L "t";
     c_pat := L "\At(\d+)((?: " ++ slice 2 2 pat_number ++ L ")+?)( " ++ slice 2 2 pat_string ++ L ")?( " ++ slice 2 2 pat_string ++ L ")?\Z";
     c_attrs := [{| a_name := "suffix"; a_ty := One TInt;
          a_checks := [(BIsNone EX)] |};
       {| a_name := "bounds"; a_ty := Tup TReal;
          a_checks := [(BIsNone EX)] |};
       {| a_name := "nt"; a_ty := One TStr;
          a_checks := [] |};
       {| a_name := "c"; a_ty := One TStr;
          a_checks := [] |}] |}.

(** /repo/src/pymcnp/inp/t_1/Cbeg.py:8-70 *)
Definition k_t_1_Cbeg : cls :=
  {| c_name := "t_1_Cbeg"; c_kind := KOption; c_kw := L "cbeg";
     c_pat := L "\Acbeg( " ++ slice 2 2 pat_number ++ L ")\Z";
     c_attrs := [{| a_name := "time"; a_ty := One TReal;
          a_checks := [(BIsNone EX)] |}] |}.

(** /repo/src/pymcnp/inp/t_1/Cfrq.py:8-70 *)
Definition k_t_1_Cfrq : cls :=
  {| c_name := "t_1_Cfrq"; c_kind := KOption; c_kw := L "cfrq";
     c_pat := L "\Acfrq( " ++ slice 2 2 pat_number ++ L ")\Z";
     c_attrs := [{| a_name := "frequency"; a_ty := One TReal;
          a_checks := [(BIsNone EX)] |}] |}.

(** /repo/src/pymcnp/inp/t_1/Cofi.py:8-70 *)
Definition k_t_1_Cofi : cls :=
  {| c_name := "t_1_Cofi"; c_kind := KOption; c_kw := L "cofi";
     c_pat := L "\Acofi( " ++ slice 2 2 pat_number ++ L ")\Z";
     c_attrs := [{| a_name := "time"; a_ty := One TReal;
          a_checks := [(BIsNone EX)] |}] |}.

(** /repo/src/pymcnp/inp/t_1/Coni.py:8-70 *)
Definition k_t_1_Coni : cls :=
  {| c_name := "t_1_Coni"; c_kind := KOption; c_kw := L "coni";
     c_pat := L "\Aconi( " ++ slice 2 2 pat_number ++ L ")\Z";
     c_attrs := [{| a_name := "time"; a_ty := One TReal;
          a_checks := [(BIsNone EX)] |}] |}.

(** /repo/src/pymcnp/inp/t_1/Csub.py:8-70 *)
Definition k_t_1_Csub : cls :=
  {| c_name := "t_1_Csub"; c_kind := KOption; c_kw := L "csub";
     c_pat := L "\Acsub( " ++ slice 2 2 pat_number ++ L ")\Z";
     c_attrs := [{| a_name := "count"; a_ty := One TInt;
          a_checks := [(BIsNone EX)] |}] |}.

(** /repo/src/pymcnp/inp/t_1/Cend.py:8-70 *)
Definition k_t_1_Cend : cls :=
  {| c_name := "t_1_Cend"; c_kind := KOption; c_kw := L "cend";
     c_pat := L "\Acend( " ++ slice 2 2 pat_number ++ L ")\Z";
     c_attrs := [{| a_name := "time"; a_ty := One TReal;
          a_checks := [(BIsNone EX)] |}] |}.

(** /repo/src/pymcnp/inp/t_1/_option.py:4-9: the subclasses in definition order, and the pattern
    that _symbol.py:40-44 makes of theirs, longest class name first. *)
Definition f_t_1_TOption_1 : list cls := [k_t_1_Cbeg; k_t_1_Cfrq; k_t_1_Cofi; k_t_1_Coni; k_t_1_Csub; k_t_1_Cend].
Definition pat_t_1_TOption_1 : str := union_pat [c_pat k_t_1_Cbeg; c_pat k_t_1_Cfrq; c_pat k_t_1_Cofi; c_pat k_t_1_Coni; c_pat k_t_1_Csub; c_pat k_t_1_Cend].

(** /repo/src/pymcnp/inp/T_1.py:9-113 *)
Definition k_T_1 : cls :=
  {| c_name := "T_1"; c_kind := KCard; c_kw := L "t";
     c_pat := L "\At(\d+)((?: (?:" ++ slice 2 2 pat_t_1_TOption_1 ++ L "))+?)\Z";
     c_attrs := [{| a_name := "suffix"; a_ty := One TInt;
          a_checks := [(BIsNone EX)] |};
       {| a_name := "options"; a_ty := Tup (TExt "t_1_TOption_1" pat_t_1_TOption_1);
          a_checks := [(BIsNone EX)] |}] |}.

(** /repo/src/pymcnp/inp/Talnp.py:7-69 *)
Definition k_Talnp : cls :=
  {| c_name := "Talnp"; c_kind := KCard; c_kw := L "talnp";
     c_pat := L "\Atalnp((?: " ++ slice 2 2 pat_number ++ L ")+?)?\Z";
     c_attrs := [{| a_name := "tallies"; a_ty := Tup TInt;
          a_checks := [] |}] |}.

(** /repo/src/pymcnp/inp/Tf_0.py:8-388 *)
Definition k_Tf_0 : cls :=
  {| c_name := "Tf_0"; c_kind := KCard; c_kw := L "tf";
     c_pat := L "\Atf(\d+)( " ++ slice 2 2 pat_number ++ L ")?( " ++ slice 2 2 pat_number ++ L ")?( " ++ slice 2 2 pat_number ++ L ")?( " ++ slice 2 2 pat_number ++ L ")?( " ++ slice 2 2 pat_number ++ L ")?( " ++ slice 2 2 pat_number ++ L ")?( " ++ slice 2 2 pat_number ++ L ")?( " ++ slice 2 2 pat_number ++ L ")?\Z";
     c_attrs := [{| a_name := "suffix"; a_ty := One TInt;
          a_checks := [(BOr (BIsNone EX) (BNot (BCmp OLe EX (EZ 99999999))))] |};
       {| a_name := "if1"; a_ty := One TInt;
          a_checks := [] |};
       {| a_name := "id1"; a_ty := One TInt;
          a_checks := [] |};
       {| a_name := "iu1"; a_ty := One TInt;
          a_checks := [] |};
       {| a_name := "is1"; a_ty := One TInt;
          a_checks := [] |};
       {| a_name := "im1"; a_ty := One TInt;
          a_checks := [] |};
       {| a_name := "ic1"; a_ty := One TInt;
          a_checks := [] |};
       {| a_name := "ie1"; a_ty := One TInt;
          a_checks := [] |};
       {| a_name := "it1"; a_ty := One TInt;
          a_checks := [] |}] |}.

(** /repo/src/pymcnp/inp/Tf_1.py:8-700 *)
Definition k_Tf_1 : cls :=
  {| c_name := "Tf_1"; c_kind := KCard; c_kw := L "tf";
     c_pat := L "\Atf(\d+)( " ++ slice 2 2 pat_number ++ L ")?( " ++ slice 2 2 pat_number ++ L ")?( " ++ slice 2 2 pat_number ++ L ")?( " ++ slice 2 2 pat_number ++ L ")?( " ++ slice 2 2 pat_number ++ L ")?( " ++ slice 2 2 pat_number ++ L ")?( " ++ slice 2 2 pat_number ++ L ")?( " ++ slice 2 2 pat_number ++ L ")?( " ++ slice 2 2 pat_number ++ L ")?( " ++ slice 2 2 pat_number ++ L ")?( " ++ slice 2 2 pat_number ++ L ")?( " ++ slice 2 2 pat_number ++ L ")?( " ++ slice 2 2 pat_number ++ L ")?( " ++ slice 2 2 pat_number ++ L ")?( " ++ slice 2 2 pat_number ++ L ")?( " ++ slice 2 2 pat_number ++ L ")?\Z";
     c_attrs := [{| a_name := "suffix"; a_ty := One TInt;
          a_checks := [(BOr (BIsNone EX) (BNot (BCmp OLe EX (EZ 99999999))))] |};
       {| a_name := "if1"; a_ty := One TInt;
          a_checks := [] |};
       {| a_name := "id1"; a_ty := One TInt;
          a_checks := [] |};
       {| a_name := "iu1"; a_ty := One TInt;
          a_checks := [] |};
       {| a_name := "is1"; a_ty := One TInt;
          a_checks := [] |};
       {| a_name := "im1"; a_ty := One TInt;
          a_checks := [] |};
       {| a_name := "ic1"; a_ty := One TInt;
          a_checks := [] |};
       {| a_name := "ie1"; a_ty := One TInt;
          a_checks := [] |};
       {| a_name := "it1"; a_ty := One TInt;
          a_checks := [] |};
       {| a_name := "if2"; a_ty := One TInt;
          a_checks := [] |};
       {| a_name := "id2"; a_ty := One TInt;
          a_checks := [] |};
       {| a_name := "iu2"; a_ty := One TInt;
          a_checks := [] |};
       {| a_name := "is2"; a_ty := One TInt;
          a_checks := [] |};
       {| a_name := "im2"; a_ty := One TInt;
          a_checks := [] |};
       {| a_name := "ic2"; a_ty := One TInt;
          a_checks := [] |};
       {| a_name := "ie2"; a_ty := One TInt;
          a_checks := [] |};
       {| a_name := "it2"; a_ty := One TInt;
          a_checks := [] |}] |}.

(** /repo/src/pymcnp/inp/Thtme.py:8-73 *)
Definition k_Thtme : cls :=
  {| c_name := "Thtme"; c_kind := KCard; c_kw := L "thtme";
     c_pat := L "\Athtme((?: " ++ slice 2 2 pat_number ++ L ")+?)\Z";
     c_attrs := [{| a_name := "times"; a_ty := Tup TReal;
          a_checks := [(BIsNone EX)] |}] |}.

(** /repo/src/pymcnp/inp/Tm.py:8-114 *)
Definition k_Tm : cls :=
  {| c_name := "Tm"; c_kind := KCard; c_kw := L "tm";
     c_pat := L "\Atm(\d+)((?: " ++ slice 2 2 pat_number ++ L ")+?)\Z";
     c_attrs := [{| a_name := "suffix"; a_ty := One TInt;
          a_checks := [(BOr (BIsNone EX) (BNot (BCmp OLe EX (EZ 99999999))))] |};
       {| a_name := "multipliers"; a_ty := Tup TReal;
          a_checks := [(BIsNone EX)] |}] |}.

(** /repo/src/pymcnp/inp/Tmp.py:8-111 *)
Definition k_Tmp : cls :=
  {| c_name := "Tmp"; c_kind := KCard; c_kw := L "tmp";
     c_pat := L "\Atmp(\d+)?((?: " ++ slice 2 2 pat_number ++ L ")+?)\Z";
     c_attrs := [{| a_name := "suffix"; a_ty := One TInt;
          a_checks := [] |};
       {| a_name := "temperatures"; a_ty := Tup TReal;
          a_checks := [(BIsNone EX)] |}] |}.

(** /repo/src/pymcnp/inp/Totnu.py:8-68 *)
Definition k_Totnu : cls :=
  {| c_name := "Totnu"; c_kind := KCard; c_kw := L "totnu";
     c_pat := L "\Atotnu( " ++ slice 2 2 pat_string ++ L ")?\Z";
     c_attrs := [{| a_name := "no"; a_ty := One TStr;
          a_checks := [(BAnd (BNot (BIsNone EX)) (BNot (BCmp OEq EX (ES (L "no")))))] |}] |}.

(** /repo/src/pymcnp/inp/Tr_0.py:8-662 *)
Definition k_Tr_0 : cls :=
  {| c_name := "Tr_0"; c_kind := KCard; c_kw := L "tr";
     c_pat := L "\A([*])?tr(\d+)( " ++ slice 2 2 pat_number ++ L ")( " ++ slice 2 2 pat_number ++ L ")( " ++ slice 2 2 pat_number ++ L ")( " ++ slice 2 2 pat_number ++ L ")( " ++ slice 2 2 pat_number ++ L ")( " ++ slice 2 2 pat_number ++ L ")( " ++ slice 2 2 pat_number ++ L ")( " ++ slice 2 2 pat_number ++ L ")( " ++ slice 2 2 pat_number ++ L ")( " ++ slice 2 2 pat_number ++ L ")( " ++ slice 2 2 pat_number ++ L ")( " ++ slice 2 2 pat_number ++ L ")( " ++ slice 2 2 pat_number ++ L ")?\Z";
     c_attrs := [{| a_name := "prefix"; a_ty := One TStr;
          a_checks := [(BAnd (BNot (BIsNone EX)) (BNot (BIn (ELower EX) [(ES (L "*"))])))] |};
       {| a_name := "suffix"; a_ty := One TInt;
          a_checks := [(BOr (BIsNone EX) (BNot (BAnd (BCmp OGe EX (EZ 1)) (BCmp OLe EX (EZ 999)))))] |};
       {| a_name := "x"; a_ty := One TReal;
          a_checks := [(BIsNone EX)] |};
       {| a_name := "y"; a_ty := One TReal;
          a_checks := [(BIsNone EX)] |};
       {| a_name := "z"; a_ty := One TReal;
          a_checks := [(BIsNone EX)] |};
       {| a_name := "xx"; a_ty := One TReal;
          a_checks := [(BIsNone EX)] |};
       {| a_name := "xy"; a_ty := One TReal;
          a_checks := [(BIsNone EX)] |};
       {| a_name := "xz"; a_ty := One TReal;
          a_checks := [(BIsNone EX)] |};
       {| a_name := "yx"; a_ty := One TReal;
          a_checks := [(BIsNone EX)] |};
       {| a_name := "yy"; a_ty := One TReal;
          a_checks := [(BIsNone EX)] |};
       {| a_name := "yz"; a_ty := One TReal;
          a_checks := [(BIsNone EX)] |};
       {| a_name := "zx"; a_ty := One TReal;
          a_checks := [(BIsNone EX)] |};
       {| a_name := "zy"; a_ty := One TReal;
          a_checks := [(BIsNone EX)] |};
       {| a_name := "zz"; a_ty := One TReal;
          a_checks := [(BIsNone EX)] |};
       {| a_name := "system"; a_ty := One TInt;
          a_checks := [(BAnd (BNot (BIsNone EX)) (BNot (BOr (BCmp OEq EX (EZ (-1))) (BCmp OEq EX (EZ 1)))))] |}] |}.

(** /repo/src/pymcnp/inp/Tr_1.py:8-536 *)
Definition k_Tr_1 : cls :=
  {| c_name := "Tr_1"; c_kind := KCard; c_kw := L "tr";
     c_pat := L "\A([*])?tr(\d+)( " ++ slice 2 2 pat_number ++ L ")( " ++ slice 2 2 pat_number ++ L ")( " ++ slice 2 2 pat_number ++ L ")( " ++ slice 2 2 pat_number ++ L ")( " ++ slice 2 2 pat_number ++ L ")( " ++ slice 2 2 pat_number ++ L ")( " ++ slice 2 2 pat_number ++ L ")( " ++ slice 2 2 pat_number ++ L ")( " ++ slice 2 2 pat_number ++ L ")( " ++ slice 2 2 pat_number ++ L ")?\Z";
     c_attrs := [{| a_name := "prefix"; a_ty := One TStr;
          a_checks := [(BAnd (BNot (BIsNone EX)) (BNot (BIn (ELower EX) [(ES (L "*"))])))] |};
       {| a_name := "suffix"; a_ty := One TInt;
          a_checks := [(BOr (BIsNone EX) (BNot (BAnd (BCmp OGe EX (EZ 1)) (BCmp OLe EX (EZ 999)))))] |};
       {| a_name := "x"; a_ty := One TReal;
          a_checks := [(BIsNone EX)] |};
       {| a_name := "y"; a_ty := One TReal;
          a_checks := [(BIsNone EX)] |};
       {| a_name := "z"; a_ty := One TReal;
          a_checks := [(BIsNone EX)] |};
       {| a_name := "xx"; a_ty := One TReal;
          a_checks := [(BIsNone EX)] |};
       {| a_name := "xy"; a_ty := One TReal;
          a_checks := [(BIsNone EX)] |};
       {| a_name := "xz"; a_ty := One TReal;
          a_checks := [(BIsNone EX)] |};
       {| a_name := "yx"; a_ty := One TReal;
          a_checks := [(BIsNone EX)] |};
       {| a_name := "yy"; a_ty := One TReal;
          a_checks := [(BIsNone EX)] |};
       {| a_name := "yz"; a_ty := One TReal;
          a_checks := [(BIsNone EX)] |};
       {| a_name := "system"; a_ty := One TInt;
          a_checks := [(BAnd (BNot (BIsNone EX)) (BNot (BOr (BCmp OEq EX (EZ (-1))) (BCmp OEq EX (EZ 1)))))] |}] |}.

(** /repo/src/pymcnp/inp/Tr_2.py:8-494 *)
Definition k_Tr_2 : cls :=
  {| c_name := "Tr_2"; c_kind := KCard; c_kw := L "tr";
     c_pat := L "\A([*])?tr(\d+)( " ++ slice 2 2 pat_number ++ L ")( " ++ slice 2 2 pat_number ++ L ")( " ++ slice 2 2 pat_number ++ L ")( " ++ slice 2 2 pat_number ++ L ")( " ++ slice 2 2 pat_number ++ L ")( " ++ slice 2 2 pat_number ++ L ")( " ++ slice 2 2 pat_number ++ L ")( " ++ slice 2 2 pat_number ++ L ")( " ++ slice 2 2 pat_number ++ L ")?\Z";
     c_attrs := [{| a_name := "prefix"; a_ty := One TStr;
          a_checks := [(BAnd (BNot (BIsNone EX)) (BNot (BIn (ELower EX) [(ES (L "*"))])))] |};
       {| a_name := "suffix"; a_ty := One TInt;
          a_checks := [(BOr (BIsNone EX) (BNot (BAnd (BCmp OGe EX (EZ 1)) (BCmp OLe EX (EZ 999)))))] |};
       {| a_name := "x"; a_ty := One TReal;
          a_checks := [(BIsNone EX)] |};
       {| a_name := "y"; a_ty := One TReal;
          a_checks := [(BIsNone EX)] |};
       {| a_name := "z"; a_ty := One TReal;
          a_checks := [(BIsNone EX)] |};
       {| a_name := "xx"; a_ty := One TReal;
          a_checks := [(BIsNone EX)] |};
       {| a_name := "xy"; a_ty := One TReal;
          a_checks := [(BIsNone EX)] |};
       {| a_name := "xz"; a_ty := One TReal;
          a_checks := [(BIsNone EX)] |};
       {| a_name := "yx"; a_ty := One TReal;
          a_checks := [(BIsNone EX)] |};
       {| a_name := "yy"; a_ty := One TReal;
          a_checks := [(BIsNone EX)] |};
       {| a_name := "system"; a_ty := One TInt;
          a_checks := [(BAnd (BNot (BIsNone EX)) (BNot (BOr (BCmp OEq EX (EZ (-1))) (BCmp OEq EX (EZ 1)))))] |}] |}.

(** /repo/src/pymcnp/inp/Tr_3.py:8-410 *)
Definition k_Tr_3 : cls :=
  {| c_name := "Tr_3"; c_kind := KCard; c_kw := L "tr";
     c_pat := L "\A([*])?tr(\d+)( " ++ slice 2 2 pat_number ++ L ")( " ++ slice 2 2 pat_number ++ L ")( " ++ slice 2 2 pat_number ++ L ")( " ++ slice 2 2 pat_number ++ L ")( " ++ slice 2 2 pat_number ++ L ")( " ++ slice 2 2 pat_number ++ L ")( " ++ slice 2 2 pat_number ++ L ")?\Z";
     c_attrs := [{| a_name := "prefix"; a_ty := One TStr;
          a_checks := [(BAnd (BNot (BIsNone EX)) (BNot (BIn (ELower EX) [(ES (L "*"))])))] |};
       {| a_name := "suffix"; a_ty := One TInt;
          a_checks := [(BOr (BIsNone EX) (BNot (BAnd (BCmp OGe EX (EZ 1)) (BCmp OLe EX (EZ 999)))))] |};
       {| a_name := "x"; a_ty := One TReal;
          a_checks := [(BIsNone EX)] |};
       {| a_name := "y"; a_ty := One TReal;
          a_checks := [(BIsNone EX)] |};
       {| a_name := "z"; a_ty := One TReal;
          a_checks := [(BIsNone EX)] |};
       {| a_name := "xx"; a_ty := One TReal;
          a_checks := [(BIsNone EX)] |};
       {| a_name := "xy"; a_ty := One TReal;
          a_checks := [(BIsNone EX)] |};
       {| a_name := "xz"; a_ty := One TReal;
          a_checks := [(BIsNone EX)] |};
       {| a_name := "system"; a_ty := One TInt;
          a_checks := [(BAnd (BNot (BIsNone EX)) (BNot (BOr (BCmp OEq EX (EZ (-1))) (BCmp OEq EX (EZ 1)))))] |}] |}.

(** /repo/src/pymcnp/inp/Tr_4.py:8-283 *)
Definition k_Tr_4 : cls :=
  {| c_name := "Tr_4"; c_kind := KCard; c_kw := L "tr";
     c_pat := L "\A([*])?tr(\d+)( " ++ slice 2 2 pat_number ++ L ")( " ++ slice 2 2 pat_number ++ L ")( " ++ slice 2 2 pat_number ++ L ")( " ++ slice 2 2 pat_number ++ L ")?\Z";
     c_attrs := [{| a_name := "prefix"; a_ty := One TStr;
          a_checks := [(BAnd (BNot (BIsNone EX)) (BNot (BIn (ELower EX) [(ES (L "*"))])))] |};
       {| a_name := "suffix"; a_ty := One TInt;
          a_checks := [(BOr (BIsNone EX) (BNot (BAnd (BCmp OGe EX (EZ 1)) (BCmp OLe EX (EZ 999)))))] |};
       {| a_name := "x"; a_ty := One TReal;
          a_checks := [(BIsNone EX)] |};
       {| a_name := "y"; a_ty := One TReal;
          a_checks := [(BIsNone EX)] |};
       {| a_name := "z"; a_ty := One TReal;
          a_checks := [(BIsNone EX)] |};
       {| a_name := "system"; a_ty := One TInt;
          a_checks := [(BAnd (BNot (BIsNone EX)) (BNot (BOr (BCmp OEq EX (EZ (-1))) (BCmp OEq EX (EZ 1)))))] |}] |}.

(** /repo/src/pymcnp/inp/tropt/Mcscat.py:8-68 *)
Definition k_tropt_Mcscat : cls :=
  {| c_name := "tropt_Mcscat"; c_kind := KOption; c_kw := L "mcscat";
     c_pat := L "\Amcscat( " ++ slice 2 2 pat_string ++ L ")\Z";
     c_attrs := [{| a_name := "setting"; a_ty := One TStr;
          a_checks := [(BOr (BIsNone EX) (BNot (BIn (ELower EX) [(ES (L "off")); (ES (L "fnal1")); (ES (L "gaussian")); (ES (L "fnal2"))])))] |}] |}.

(** /repo/src/pymcnp/inp/tropt/Eloss.py:8-68 *)
Definition k_tropt_Eloss : cls :=
  {| c_name := "tropt_Eloss"; c_kind := KOption; c_kw := L "eloss";
     c_pat := L "\Aeloss( " ++ slice 2 2 pat_string ++ L ")\Z";
     c_attrs := [{| a_name := "setting"; a_ty := One TStr;
          a_checks := [(BOr (BIsNone EX) (BNot (BIn (ELower EX) [(ES (L "off")); (ES (L "strag1")); (ES (L "csda"))])))] |}] |}.

(** /repo/src/pymcnp/inp/tropt/Nreact.py:8-68 *)
Definition k_tropt_Nreact : cls :=
  {| c_name := "tropt_Nreact"; c_kind := KOption; c_kw := L "nreact";
     c_pat := L "\Anreact( " ++ slice 2 2 pat_string ++ L ")\Z";
     c_attrs := [{| a_name := "setting"; a_ty := One TStr;
          a_checks := [(BOr (BIsNone EX) (BNot (BIn (ELower EX) [(ES (L "off")); (ES (L "on")); (ES (L "atten")); (ES (L "remove"))])))] |}] |}.

(** /repo/src/pymcnp/inp/tropt/Nescat.py:8-68 *)
Definition k_tropt_Nescat : cls :=
  {| c_name := "tropt_Nescat"; c_kind := KOption; c_kw := L "nescat";
     c_pat := L "\Anescat( " ++ slice 2 2 pat_string ++ L ")\Z";
     c_attrs := [{| a_name := "setting"; a_ty := One TStr;
          a_checks := [(BOr (BIsNone EX) (BNot (BIn (ELower EX) [(ES (L "off")); (ES (L "on"))])))] |}] |}.

(** /repo/src/pymcnp/inp/tropt/Genxs.py:7-64 *)
Definition k_tropt_Genxs : cls :=
  {| c_name := "tropt_Genxs"; c_kind := KOption; c_kw := L "genxs";
     c_pat := L "\Agenxs( " ++ slice 2 2 pat_string ++ L ")?\Z";
     c_attrs := [{| a_name := "filename"; a_ty := One TStr;
          a_checks := [] |}] |}.

(** /repo/src/pymcnp/inp/tropt/_option.py:4-9: the subclasses in definition order, and the pattern
    that _symbol.py:40-44 makes of theirs, longest class name first. *)
Definition f_tropt_TroptOption : list cls := [k_tropt_Mcscat; k_tropt_Eloss; k_tropt_Nreact; k_tropt_Nescat; k_tropt_Genxs].
Definition pat_tropt_TroptOption : str := union_pat [c_pat k_tropt_Mcscat; c_pat k_tropt_Nreact; c_pat k_tropt_Nescat; c_pat k_tropt_Eloss; c_pat k_tropt_Genxs].

(** /repo/src/pymcnp/inp/Tropt.py:8-68 *)
Definition k_Tropt : cls :=
  {| c_name := "Tropt"; c_kind := KCard; c_kw := L "tropt";
     c_pat := L "\Atropt((?: (?:" ++ slice 2 2 pat_tropt_TroptOption ++ L "))+?)?\Z";
     c_attrs := [{| a_name := "options"; a_ty := Tup (TExt "tropt_TroptOption" pat_tropt_TroptOption);
          a_checks := [] |}] |}.

(** /repo/src/pymcnp/inp/Tsplt.py:8-1634 *)
Definition k_Tsplt : cls :=
  {| c_name := "Tsplt"; c_kind := KCard; c_kw := L "tsplt";
     c_pat := L "\Atsplt:(\S+)( " ++ slice 2 2 pat_number ++ L ")?( " ++ slice 2 2 pat_number ++ L ")?( " ++ slice 2 2 pat_number ++ L ")?( " ++ slice 2 2 pat_number ++ L ")?( " ++ slice 2 2 pat_number ++ L ")?( " ++ slice 2 2 pat_number ++ L ")?( " ++ slice 2 2 pat_number ++ L ")?( " ++ slice 2 2 pat_number ++ L ")?( " ++ slice 2 2 pat_number ++ L ")?( " ++ slice 2 2 pat_number ++ L ")?( " ++ slice 2 2 pat_number ++ L ")?( " ++ slice 2 2 pat_number ++ L ")?( " ++ slice 2 2 pat_number ++ L ")?( " ++ slice 2 2 pat_number ++ L ")?( " ++ slice 2 2 pat_number ++ L ")?( " ++ slice 2 2 pat_number ++ L ")?( " ++ slice 2 2 pat_number ++ L ")?( " ++ slice 2 2 pat_number ++ L ")?( " ++ slice 2 2 pat_number ++ L ")?( " ++ slice 2 2 pat_number ++ L ")?( " ++ slice 2 2 pat_number ++ L ")?( " ++ slice 2 2 pat_number ++ L ")?( " ++ slice 2 2 pat_number ++ L ")?( " ++ slice 2 2 pat_number ++ L ")?( " ++ slice 2 2 pat_number ++ L ")?( " ++ slice 2 2 pat_number ++ L ")?( " ++ slice 2 2 pat_number ++ L ")?( " ++ slice 2 2 pat_number ++ L ")?( " ++ slice 2 2 pat_number ++ L ")?( " ++ slice 2 2 pat_number ++ L ")?( " ++ slice 2 2 pat_number ++ L ")?( " ++ slice 2 2 pat_number ++ L ")?( " ++ slice 2 2 pat_number ++ L ")?( " ++ slice 2 2 pat_number ++ L ")?( " ++ slice 2 2 pat_number ++ L ")?( " ++ slice 2 2 pat_number ++ L ")?( " ++ slice 2 2 pat_number ++ L ")?( " ++ slice 2 2 pat_number ++ L ")?( " ++ slice 2 2 pat_number ++ L ")?( " ++ slice 2 2 pat_number ++ L ")?\Z";
     c_attrs := [{| a_name := "designator"; a_ty := One TDesig;
          a_checks := [(BIsNone EX)] |};
       {| a_name := "ratio_1"; a_ty := One TReal;
          a_checks := [] |};
       {| a_name := "time_1"; a_ty := One TReal;
          a_checks := [] |};
       {| a_name := "ratio_2"; a_ty := One TReal;
          a_checks := [] |};
       {| a_name := "time_2"; a_ty := One TReal;
          a_checks := [] |};
       {| a_name := "ratio_3"; a_ty := One TReal;
          a_checks := [] |};
       {| a_name := "time_3"; a_ty := One TReal;
          a_checks := [] |};
       {| a_name := "ratio_4"; a_ty := One TReal;
          a_checks := [] |};
       {| a_name := "time_4"; a_ty := One TReal;
          a_checks := [] |};
       {| a_name := "ratio_5"; a_ty := One TReal;
          a_checks := [] |};
       {| a_name := "time_5"; a_ty := One TReal;
          a_checks := [] |};
       {| a_name := "ratio_6"; a_ty := One TReal;
          a_checks := [] |};
       {| a_name := "time_6"; a_ty := One TReal;
          a_checks := [] |};
       {| a_name := "ratio_7"; a_ty := One TReal;
          a_checks := [] |};
       {| a_name := "time_7"; a_ty := One TReal;
          a_checks := [] |};
       {| a_name := "ratio_8"; a_ty := One TReal;
          a_checks := [] |};
       {| a_name := "time_8"; a_ty := One TReal;
          a_checks := [] |};
       {| a_name := "ratio_9"; a_ty := One TReal;
          a_checks := [] |};
       {| a_name := "time_9"; a_ty := One TReal;
          a_checks := [] |};
       {| a_name := "ratio_10"; a_ty := One TReal;
          a_checks := [] |};
       {| a_name := "time_10"; a_ty := One TReal;
          a_checks := [] |};
       {| a_name := "ratio_11"; a_ty := One TReal;
          a_checks := [] |};
       {| a_name := "time_11"; a_ty := One TReal;
          a_checks := [] |};
       {| a_name := "ratio_12"; a_ty := One TReal;
          a_checks := [] |};
       {| a_name := "time_12"; a_ty := One TReal;
          a_checks := [] |};
       {| a_name := "ratio_13"; a_ty := One TReal;
          a_checks := [] |};
       {| a_name := "time_13"; a_ty := One TReal;
          a_checks := [] |};
       {| a_name := "ratio_14"; a_ty := One TReal;
          a_checks := [] |};
       {| a_name := "time_14"; a_ty := One TReal;
          a_checks := [] |};
       {| a_name := "ratio_15"; a_ty := One TReal;
          a_checks := [] |};
       {| a_name := "time_15"; a_ty := One TReal;
          a_checks := [] |};
       {| a_name := "ratio_16"; a_ty := One TReal;
          a_checks := [] |};
       {| a_name := "time_16"; a_ty := One TReal;
          a_checks := [] |};
       {| a_name := "ratio_17"; a_ty := One TReal;
          a_checks := [] |};
       {| a_name := "time_17"; a_ty := One TReal;
          a_checks := [] |};
       {| a_name := "ratio_18"; a_ty := One TReal;
          a_checks := [] |};
       {| a_name := "time_18"; a_ty := One TReal;
          a_checks := [] |};
       {| a_name := "ratio_19"; a_ty := One TReal;
          a_checks := [] |};
       {| a_name := "time_19"; a_ty := One TReal;
          a_checks := [] |};
       {| a_name := "ratio_20"; a_ty := One TReal;
          a_checks := [] |};
       {| a_name := "time_20"; a_ty := One TReal;
          a_checks := [] |}] |}.

(** /repo/src/pymcnp/inp/U.py:8-73 *)
Definition k_U : cls :=
  {| c_name := "U"; c_kind := KCard; c_kw := L "u";
     c_pat := L "\Au((?: " ++ slice 2 2 pat_number ++ L ")+?)\Z";
     c_attrs := [{| a_name := "numbers"; a_ty := Tup TInt;
          a_checks := [(BIsNone EX)] |}] |}.

(** /repo/src/pymcnp/inp/Unc.py:8-112 *)
Definition k_Unc : cls :=
  {| c_name := "Unc"; c_kind := KCard; c_kw := L "unc";
     c_pat := L "\Aunc:(\S+)((?: " ++ slice 2 2 pat_number ++ L ")+?)\Z";
     c_attrs := [{| a_name := "designator"; a_ty := One TDesig;
          a_checks := [(BIsNone EX)] |};
       {| a_name := "settings"; a_ty := Tup TInt;
          a_checks := [(BIsNone EX)] |}] |}.

(** /repo/src/pymcnp/inp/uran/Stochastic.py:8-193 *)
Definition k_uran_Stochastic : cls :=
  {| c_name := "uran_Stochastic"; c_kind := KEntry; c_kw := L "";
     c_pat := L "\A(" ++ slice 2 2 pat_number ++ L ") (" ++ slice 2 2 pat_number ++ L ") (" ++ slice 2 2 pat_number ++ L ") (" ++ slice 2 2 pat_number ++ L ")\Z";
     c_attrs := [{| a_name := "universe"; a_ty := One TInt;
          a_checks := [(BOr (BIsNone EX) (BNot (BAnd (BCmp OLe (EZ 0) (EVal EX)) (BCmp OLe (EVal EX) (EZ 99999999)))))] |};
       {| a_name := "maximum_x"; a_ty := One TReal;
          a_checks := [(BIsNone EX)] |};
       {| a_name := "maximum_y"; a_ty := One TReal;
          a_checks := [(BIsNone EX)] |};
       {| a_name := "maximum_z"; a_ty := One TReal;
          a_checks := [(BIsNone EX)] |}] |}.

(** /repo/src/pymcnp/inp/Uran.py:9-72 *)
Definition k_Uran : cls :=
  {| c_name := "Uran"; c_kind := KCard; c_kw := L "uran";
     c_pat := L "\Auran((?: \S+ \S+ \S+ \S+)+?)\Z";
     c_attrs := [{| a_name := "transformations"; a_ty := Tup (TExt "uran_Stochastic" (c_pat k_uran_Stochastic));
          a_checks := [(BIsNone EX)] |}] |}.

(** /repo/src/pymcnp/inp/var/Rr.py:8-68 *)
Definition k_var_Rr : cls :=
  {| c_name := "var_Rr"; c_kind := KOption; c_kw := L "rr";
     c_pat := L "\Arr( " ++ slice 2 2 pat_string ++ L ")\Z";
     c_attrs := [{| a_name := "setting"; a_ty := One TStr;
          a_checks := [(BOr (BIsNone EX) (BNot (BIn (ELower EX) [(ES (L "no")); (ES (L "off"))])))] |}] |}.

(** /repo/src/pymcnp/inp/var/_option.py:4-9: the subclasses in definition order, and the pattern
    that _symbol.py:40-44 makes of theirs, longest class name first. *)
Definition f_var_VarOption : list cls := [k_var_Rr].
Definition pat_var_VarOption : str := union_pat [c_pat k_var_Rr].

(** /repo/src/pymcnp/inp/Var.py:8-68 *)
Definition k_Var : cls :=
  {| c_name := "Var"; c_kind := KCard; c_kw := L "var";
     c_pat := L "\Avar((?: (?:" ++ slice 2 2 pat_var_VarOption ++ L "))+?)?\Z";
     c_attrs := [{| a_name := "options"; a_ty := Tup (TExt "var_VarOption" pat_var_VarOption);
          a_checks := [] |}] |}.

(** /repo/src/pymcnp/inp/Void.py:7-69 *)
Definition k_Void : cls :=
  {| c_name := "Void"; c_kind := KCard; c_kw := L "void";
     c_pat := L "\Avoid((?: " ++ slice 2 2 pat_number ++ L ")+?)?\Z";
     c_attrs := [{| a_name := "numbers"; a_ty := Tup TInt;
          a_checks := [] |}] |}.

(** /repo/src/pymcnp/inp/Vol.py:8-112 *)
Definition k_Vol : cls :=
  {| c_name := "Vol"; c_kind := KCard; c_kw := L "vol";
     c_pat := L "\Avol(?: (no))?((?: " ++ slice 2 2 pat_number ++ L ")+?)\Z";
     c_attrs := [{| a_name := "no"; a_ty := One TStr;
          a_checks := [(BAnd (BNot (BIsNone EX)) (BNot (BIn (ELower EX) [(ES (L "no"))])))] |};
       {| a_name := "volumes"; a_ty := Tup TReal;
          a_checks := [(BIsNone EX)] |}] |}.

(** /repo/src/pymcnp/inp/Wwe.py:8-112 *)
Definition k_Wwe : cls :=
  {| c_name := "Wwe"; c_kind := KCard; c_kw := L "wwe";
     c_pat := L "\Awwe:(\S+)((?: " ++ slice 2 2 pat_number ++ L ")+?)\Z";
     c_attrs := [{| a_name := "designator"; a_ty := One TDesig;
          a_checks := [(BIsNone EX)] |};
       {| a_name := "bounds"; a_ty := Tup TReal;
          a_checks := [(BIsNone EX)] |}] |}.

(** /repo/src/pymcnp/inp/Wwg.py:8-192 *)
Definition k_Wwg : cls :=
  {| c_name := "Wwg"; c_kind := KCard; c_kw := L "wwg";
     c_pat := L "\Awwg( " ++ slice 2 2 pat_number ++ L ")( " ++ slice 2 2 pat_number ++ L ")( " ++ slice 2 2 pat_number ++ L ")( " ++ slice 2 2 pat_number ++ L ")?\Z";
     c_attrs := [{| a_name := "tally"; a_ty := One TInt;
          a_checks := [(BOr (BIsNone EX) (BNot (BCmp OLe EX (EZ 99999999))))] |};
       {| a_name := "cell"; a_ty := One TInt;
          a_checks := [(BOr (BIsNone EX) (BNot (BCmp OLe EX (EZ 99999999))))] |};
       {| a_name := "lower"; a_ty := One TReal;
          a_checks := [(BIsNone EX)] |};
       {| a_name := "setting"; a_ty := One TInt;
          a_checks := [] |}] |}.

(** /repo/src/pymcnp/inp/Wwge.py:8-112 *)
Definition k_Wwge : cls :=
  {| c_name := "Wwge"; c_kind := KCard; c_kw := L "wwge";
     c_pat := L "\Awwge:(\S+)((?: " ++ slice 2 2 pat_number ++ L ")+?)\Z";
     c_attrs := [{| a_name := "designator"; a_ty := One TDesig;
          a_checks := [(BIsNone EX)] |};
       {| a_name := "bounds"; a_ty := Tup TReal;
          a_checks := [(BIsNone EX)] |}] |}.

(** /repo/src/pymcnp/inp/Wwgt.py:8-112 *)
Definition k_Wwgt : cls :=
  {| c_name := "Wwgt"; c_kind := KCard; c_kw := L "wwgt";
     c_pat := L "\Awwgt:(\S+)((?: " ++ slice 2 2 pat_number ++ L ")+?)\Z";
     c_attrs := [{| a_name := "designator"; a_ty := One TDesig;
          a_checks := [(BIsNone EX)] |};
       {| a_name := "bounds"; a_ty := Tup TReal;
          a_checks := [(BIsNone EX)] |}] |}.

(** /repo/src/pymcnp/inp/Wwn.py:8-153 *)
Definition k_Wwn : cls :=
  {| c_name := "Wwn"; c_kind := KCard; c_kw := L "wwn";
     c_pat := L "\Awwn(\d+):(\S+)((?: " ++ slice 2 2 pat_number ++ L ")+?)\Z";
     c_attrs := [{| a_name := "suffix"; a_ty := One TInt;
          a_checks := [(BOr (BIsNone EX) (BNot (BCmp OLe EX (EZ 99999999))))] |};
       {| a_name := "designator"; a_ty := One TDesig;
          a_checks := [(BIsNone EX)] |};
       {| a_name := "bounds"; a_ty := Tup TReal;
          a_checks := [(BIsNone EX)] |}] |}.

(** /repo/src/pymcnp/inp/Wwp.py:8-479 *)
Definition k_Wwp : cls :=
  {| c_name := "Wwp"; c_kind := KCard; c_kw := L "wwp";
     c_pat := L "\Awwp:(\S+)( " ++ slice 2 2 pat_number ++ L ")?( " ++ slice 2 2 pat_number ++ L ")?( " ++ slice 2 2 pat_number ++ L ")?( " ++ slice 2 2 pat_number ++ L ")?( " ++ slice 2 2 pat_number ++ L ")?( " ++ slice 2 2 pat_number ++ L ")?( " ++ slice 2 2 pat_number ++ L ")?( " ++ slice 2 2 pat_number ++ L ")?( " ++ slice 2 2 pat_number ++ L ")?( " ++ slice 2 2 pat_number ++ L ")?\Z";
     c_attrs := [{| a_name := "designator"; a_ty := One TDesig;
          a_checks := [(BIsNone EX)] |};
       {| a_name := "wupn"; a_ty := One TReal;
          a_checks := [(BAnd (BNot (BIsNone EX)) (BNot (BOr (BJump EX) (BCmp OGe EX (EZ 2)))))] |};
       {| a_name := "wsurvn"; a_ty := One TReal;
          a_checks := [(BAnd (BNot (BIsNone EX)) (BNot (BOr (BJump EX) (BCmp OLt (EZ 1) EX))))] |};
       {| a_name := "mxspln"; a_ty := One TReal;
          a_checks := [(BAnd (BNot (BIsNone EX)) (BNot (BOr (BJump EX) (BCmp OLt (EZ 1) EX))))] |};
       {| a_name := "mwhere"; a_ty := One TInt;
          a_checks := [(BAnd (BNot (BIsNone EX)) (BNot (BOr (BJump EX) (BIn EX [(EZ (-1)); (EZ 0); (EZ 1)]))))] |};
       {| a_name := "switchn"; a_ty := One TReal;
          a_checks := [] |};
       {| a_name := "mtime"; a_ty := One TInt;
          a_checks := [] |};
       {| a_name := "wnrom"; a_ty := One TReal;
          a_checks := [] |};
       {| a_name := "etsplt"; a_ty := One TInt;
          a_checks := [(BAnd (BNot (BIsNone EX)) (BNot (BOr (BJump EX) (BIn EX [(EZ 0); (EZ 1)]))))] |};
       {| a_name := "wu"; a_ty := One TReal;
          a_checks := [] |};
       {| a_name := "nmfp"; a_ty := One TReal;
          a_checks := [] |}] |}.

(** /repo/src/pymcnp/inp/Wwt.py:8-112 *)
Definition k_Wwt : cls :=
  {| c_name := "Wwt"; c_kind := KCard; c_kw := L "wwt";
     c_pat := L "\Awwt:(\S+)((?: " ++ slice 2 2 pat_number ++ L ")+?)\Z";
     c_attrs := [{| a_name := "designator"; a_ty := One TDesig;
          a_checks := [(BIsNone EX)] |};
       {| a_name := "bounds"; a_ty := Tup TReal;
          a_checks := [(BIsNone EX)] |}] |}.

(** /repo/src/pymcnp/inp/Xs.py:8-112 *)
Definition k_Xs : cls :=
  {| c_name := "Xs"; c_kind := KCard; c_kw := L "xs";
     c_pat := L "\Axs(\d+)((?: " ++ slice 2 2 pat_substance ++ L ")+?)\Z";
     c_attrs := [{| a_name := "suffix"; a_ty := One TInt;
          a_checks := [(BIsNone EX)] |};
       {| a_name := "weight_ratios"; a_ty := Tup TSub;
          a_checks := [(BIsNone EX)] |}] |}.

(** /repo/src/pymcnp/inp/Za.py:7-64 *)
Definition k_Za : cls :=
  {| c_name := "Za"; c_kind := KCard; c_kw := L "za";
     c_pat := L "\Aza( " ++ slice 2 2 pat_string ++ L ")?\Z";
     c_attrs := [{| a_name := "anything"; a_ty := One TStr;
          a_checks := [] |}] |}.

(** /repo/src/pymcnp/inp/Zb.py:7-64 *)
Definition k_Zb : cls :=
  {| c_name := "Zb"; c_kind := KCard; c_kw := L "zb";
     c_pat := L "\Azb( " ++ slice 2 2 pat_string ++ L ")?\Z";
     c_attrs := [{| a_name := "anything"; a_ty := One TStr;
          a_checks := [] |}] |}.

(** /repo/src/pymcnp/inp/Zc.py:7-64 *)
Definition k_Zc : cls :=
  {| c_name := "Zc"; c_kind := KCard; c_kw := L "zc";
     c_pat := L "\Azc( " ++ slice 2 2 pat_string ++ L ")?\Z";
     c_attrs := [{| a_name := "anything"; a_ty := One TStr;
          a_checks := [] |}] |}.

(** /repo/src/pymcnp/inp/Zd.py:7-64 *)
Definition k_Zd : cls :=
  {| c_name := "Zd"; c_kind := KCard; c_kw := L "zd";
     c_pat := L "\Azd( " ++ slice 2 2 pat_string ++ L ")?\Z";
     c_attrs := [{| a_name := "anything"; a_ty := One TStr;
          a_checks := [] |}] |}.

(** /repo/src/pymcnp/inp/act/dgeb/_entry.py:4-9: the subclasses in definition order, and the pattern
    that _symbol.py:40-44 makes of theirs, longest class name first. *)
Definition f_act_dgeb_DgebEntry : list cls := [k_act_dgeb_Bias].
Definition pat_act_dgeb_DgebEntry : str := union_pat [c_pat k_act_dgeb_Bias].

(** /repo/src/pymcnp/inp/act/dneb/_entry.py:4-9: the subclasses in definition order, and the pattern
    that _symbol.py:40-44 makes of theirs, longest class name first. *)
Definition f_act_dneb_DnebEntry : list cls := [k_act_dneb_Bias].
Definition pat_act_dneb_DnebEntry : str := union_pat [c_pat k_act_dneb_Bias].

(** /repo/src/pymcnp/inp/cell/Bflcl.py:8-70 *)
Definition k_cell_Bflcl : cls :=
  {| c_name := "cell_Bflcl"; c_kind := KOption; c_kw := L "bflcl";
     c_pat := L "\Abflcl( " ++ slice 2 2 pat_number ++ L ")\Z";
     c_attrs := [{| a_name := "number"; a_ty := One TInt;
          a_checks := [(BOr (BIsNone EX) (BNot (BCmp OGe EX (EZ 0))))] |}] |}.

(** /repo/src/pymcnp/inp/cell/Cosy.py:8-70 *)
Definition k_cell_Cosy : cls :=
  {| c_name := "cell_Cosy"; c_kind := KOption; c_kw := L "cosy";
     c_pat := L "\Acosy( " ++ slice 2 2 pat_number ++ L ")\Z";
     c_attrs := [{| a_name := "number"; a_ty := One TInt;
          a_checks := [(BOr (BIsNone EX) (BNot (BIn EX [(EZ 1); (EZ 2); (EZ 3); (EZ 4); (EZ 5); (EZ 6)])))] |}] |}.

(** /repo/src/pymcnp/inp/cell/Dxc.py:8-150 *)
Definition k_cell_Dxc : cls :=
  {| c_name := "cell_Dxc"; c_kind := KOption; c_kw := L "dxc";
     c_pat := L "\Adxc(\d+):(\S+)( " ++ slice 2 2 pat_number ++ L ")\Z";
     c_attrs := [{| a_name := "suffix"; a_ty := One TInt;
          a_checks := [(BIsNone EX)] |};
       {| a_name := "designator"; a_ty := One TDesig;
          a_checks := [(BIsNone EX)] |};
       {| a_name := "probability"; a_ty := One TReal;
          a_checks := [(BOr (BIsNone EX) (BNot (BAnd (BCmp OGe EX (EZ 0)) (BCmp OLe EX (EZ 1)))))] |}] |}.

(** /repo/src/pymcnp/inp/cell/Elpt.py:8-109 *)
Definition k_cell_Elpt : cls :=
  {| c_name := "cell_Elpt"; c_kind := KOption; c_kw := L "elpt";
     c_pat := L "\Aelpt:(\S+)( " ++ slice 2 2 pat_number ++ L ")\Z";
     c_attrs := [{| a_name := "designator"; a_ty := One TDesig;
          a_checks := [(BIsNone EX)] |};
       {| a_name := "cutoff"; a_ty := One TReal;
          a_checks := [(BIsNone EX)] |}] |}.

(** /repo/src/pymcnp/inp/cell/Ext.py:8-107 *)
Definition k_cell_Ext : cls :=
  {| c_name := "cell_Ext"; c_kind := KOption; c_kw := L "ext";
     c_pat := L "\Aext:(\S+)( " ++ slice 2 2 pat_string ++ L ")\Z";
     c_attrs := [{| a_name := "designator"; a_ty := One TDesig;
          a_checks := [(BIsNone EX)] |};
       {| a_name := "stretch"; a_ty := One TStr;
          a_checks := [(BIsNone EX)] |}] |}.

(** /repo/src/pymcnp/inp/cell/Fcl.py:8-109 *)
Definition k_cell_Fcl : cls :=
  {| c_name := "cell_Fcl"; c_kind := KOption; c_kw := L "fcl";
     c_pat := L "\Afcl:(\S+)( " ++ slice 2 2 pat_number ++ L ")\Z";
     c_attrs := [{| a_name := "designator"; a_ty := One TDesig;
          a_checks := [(BIsNone EX)] |};
       {| a_name := "control"; a_ty := One TReal;
          a_checks := [(BOr (BIsNone EX) (BNot (BAnd (BCmp OGe EX (EZ (-1))) (BCmp OLe EX (EZ 1)))))] |}] |}.

(** /repo/src/pymcnp/inp/cell/Fill_0.py:8-275 *)
Definition k_cell_Fill_0 : cls :=
  {| c_name := "cell_Fill_0"; c_kind := KOption; c_kw := L "fill";
     c_pat := L "\A([*])?fill (\S+:\S+) (\S+:\S+) (\S+:\S+)((?: " ++ slice 2 2 pat_number ++ L ")+?)(?: [(](" ++ slice 2 2 pat_number ++ L ")[)])?\Z";
     c_attrs := [{| a_name := "prefix"; a_ty := One TStr;
          a_checks := [(BAnd (BNot (BIsNone EX)) (BNot (BIn (ELower EX) [(ES (L "*"))])))] |};
       {| a_name := "i"; a_ty := One TIndex;
          a_checks := [(BIsNone EX)] |};
       {| a_name := "j"; a_ty := One TIndex;
          a_checks := [(BIsNone EX)] |};
       {| a_name := "k"; a_ty := One TIndex;
          a_checks := [(BIsNone EX)] |};
       {| a_name := "universes"; a_ty := Tup TInt;
          a_checks := [(BIsNone EX)] |};
       {| a_name := "m"; a_ty := One TInt;
          a_checks := [] |}] |}.

(** /repo/src/pymcnp/inp/cell/Fill_1.py:8-145 *)
Definition k_cell_Fill_1 : cls :=
  {| c_name := "cell_Fill_1"; c_kind := KOption; c_kw := L "fill";
     c_pat := L "\A([*])?fill( " ++ slice 2 2 pat_number ++ L ")( " ++ slice 2 2 (pat_transformation 12) ++ L "| [(]" ++ slice 2 2 (pat_transformation 12) ++ L "[)])?\Z";
     c_attrs := [{| a_name := "prefix"; a_ty := One TStr;
          a_checks := [(BAnd (BNot (BIsNone EX)) (BNot (BIn (ELower EX) [(ES (L "*"))])))] |};
       {| a_name := "universe"; a_ty := One TInt;
          a_checks := [(BOr (BIsNone EX) (BNot (BOr (BCmp OEq EX (EZ 10000000000)) (BAnd (BCmp OGe EX (EZ 0)) (BCmp OLe EX (EZ 99999999))))))] |};
       {| a_name := "transformation"; a_ty := One (TTr 0);
          a_checks := [] |}] |}.

(** /repo/src/pymcnp/inp/cell/Fill_2.py:8-145 *)
Definition k_cell_Fill_2 : cls :=
  {| c_name := "cell_Fill_2"; c_kind := KOption; c_kw := L "fill";
     c_pat := L "\A([*])?fill( " ++ slice 2 2 pat_number ++ L ")( " ++ slice 2 2 (pat_transformation 9) ++ L "| [(]" ++ slice 2 2 (pat_transformation 9) ++ L "[)])?\Z";
     c_attrs := [{| a_name := "prefix"; a_ty := One TStr;
          a_checks := [(BAnd (BNot (BIsNone EX)) (BNot (BIn (ELower EX) [(ES (L "*"))])))] |};
       {| a_name := "universe"; a_ty := One TInt;
          a_checks := [(BOr (BIsNone EX) (BNot (BOr (BCmp OEq EX (EZ 10000000000)) (BAnd (BCmp OGe EX (EZ 0)) (BCmp OLe EX (EZ 99999999))))))] |};
       {| a_name := "transformation"; a_ty := One (TTr 1);
          a_checks := [] |}] |}.

(** /repo/src/pymcnp/inp/cell/Fill_3.py:8-145 *)
Definition k_cell_Fill_3 : cls :=
  {| c_name := "cell_Fill_3"; c_kind := KOption; c_kw := L "fill";
     c_pat := L "\A([*])?fill( " ++ slice 2 2 pat_number ++ L ")( " ++ slice 2 2 (pat_transformation 8) ++ L "| [(]" ++ slice 2 2 (pat_transformation 8) ++ L "[)])?\Z";
     c_attrs := [{| a_name := "prefix"; a_ty := One TStr;
          a_checks := [(BAnd (BNot (BIsNone EX)) (BNot (BIn (ELower EX) [(ES (L "*"))])))] |};
       {| a_name := "universe"; a_ty := One TInt;
          a_checks := [(BOr (BIsNone EX) (BNot (BOr (BCmp OEq EX (EZ 10000000000)) (BAnd (BCmp OGe EX (EZ 0)) (BCmp OLe EX (EZ 99999999))))))] |};
       {| a_name := "transformation"; a_ty := One (TTr 2);
          a_checks := [] |}] |}.

(** /repo/src/pymcnp/inp/cell/Fill_4.py:8-145 *)
Definition k_cell_Fill_4 : cls :=
  {| c_name := "cell_Fill_4"; c_kind := KOption; c_kw := L "fill";
     c_pat := L "\A([*])?fill( " ++ slice 2 2 pat_number ++ L ")( " ++ slice 2 2 (pat_transformation 6) ++ L "| [(]" ++ slice 2 2 (pat_transformation 6) ++ L "[)])?\Z";
     c_attrs := [{| a_name := "prefix"; a_ty := One TStr;
          a_checks := [(BAnd (BNot (BIsNone EX)) (BNot (BIn (ELower EX) [(ES (L "*"))])))] |};
       {| a_name := "universe"; a_ty := One TInt;
          a_checks := [(BOr (BIsNone EX) (BNot (BOr (BCmp OEq EX (EZ 10000000000)) (BAnd (BCmp OGe EX (EZ 0)) (BCmp OLe EX (EZ 99999999))))))] |};
       {| a_name := "transformation"; a_ty := One (TTr 3);
          a_checks := [] |}] |}.

(** /repo/src/pymcnp/inp/cell/Fill_5.py:8-145 *)
Definition k_cell_Fill_5 : cls :=
  {| c_name := "cell_Fill_5"; c_kind := KOption; c_kw := L "fill";
     c_pat := L "\A([*])?fill( " ++ slice 2 2 pat_number ++ L ")( " ++ slice 2 2 (pat_transformation 3) ++ L "| [(]" ++ slice 2 2 (pat_transformation 3) ++ L "[)])?\Z";
     c_attrs := [{| a_name := "prefix"; a_ty := One TStr;
          a_checks := [(BAnd (BNot (BIsNone EX)) (BNot (BIn (ELower EX) [(ES (L "*"))])))] |};
       {| a_name := "universe"; a_ty := One TInt;
          a_checks := [(BOr (BIsNone EX) (BNot (BOr (BCmp OEq EX (EZ 10000000000)) (BAnd (BCmp OGe EX (EZ 0)) (BCmp OLe EX (EZ 99999999))))))] |};
       {| a_name := "transformation"; a_ty := One (TTr 4);
          a_checks := [] |}] |}.

(** /repo/src/pymcnp/inp/cell/Fill_6.py:8-150 *)
Definition k_cell_Fill_6 : cls :=
  {| c_name := "cell_Fill_6"; c_kind := KOption; c_kw := L "fill";
     c_pat := L "\A([*])?fill( " ++ slice 2 2 pat_number ++ L ")( " ++ slice 2 2 pat_number ++ L "| [(]" ++ slice 2 2 pat_number ++ L "[)])?\Z";
     c_attrs := [{| a_name := "prefix"; a_ty := One TStr;
          a_checks := [(BAnd (BNot (BIsNone EX)) (BNot (BIn (ELower EX) [(ES (L "*"))])))] |};
       {| a_name := "universe"; a_ty := One TInt;
          a_checks := [(BOr (BIsNone EX) (BNot (BOr (BCmp OEq EX (EZ 10000000000)) (BAnd (BCmp OGe EX (EZ 0)) (BCmp OLe EX (EZ 99999999))))))] |};
       {| a_name := "transformation"; a_ty := One TInt;
          a_checks := [(BAnd (BNot (BIsNone EX)) (BNot (BAnd (BCmp OGe EX (EZ 0)) (BCmp OLe EX (EZ 999)))))] |}] |}.

(** /repo/src/pymcnp/inp/cell/Imp.py:8-109 *)
Definition k_cell_Imp : cls :=
  {| c_name := "cell_Imp"; c_kind := KOption; c_kw := L "imp";
     c_pat := L "\Aimp:(\S+)( " ++ slice 2 2 pat_number ++ L ")\Z";
     c_attrs := [{| a_name := "designator"; a_ty := One TDesig;
          a_checks := [(BIsNone EX)] |};
       {| a_name := "importance"; a_ty := One TReal;
          a_checks := [(BIsNone EX)] |}] |}.

(** /repo/src/pymcnp/inp/cell/Lat.py:8-70 *)
Definition k_cell_Lat : cls :=
  {| c_name := "cell_Lat"; c_kind := KOption; c_kw := L "lat";
     c_pat := L "\Alat( " ++ slice 2 2 pat_number ++ L ")\Z";
     c_attrs := [{| a_name := "shape"; a_ty := One TInt;
          a_checks := [(BOr (BIsNone EX) (BNot (BIn EX [(EZ 1); (EZ 2)])))] |}] |}.

(** /repo/src/pymcnp/inp/cell/Nonu.py:8-70 *)
Definition k_cell_Nonu : cls :=
  {| c_name := "cell_Nonu"; c_kind := KOption; c_kw := L "nonu";
     c_pat := L "\Anonu( " ++ slice 2 2 pat_number ++ L ")\Z";
     c_attrs := [{| a_name := "setting"; a_ty := One TInt;
          a_checks := [(BOr (BIsNone EX) (BNot (BIn EX [(EZ 0); (EZ 1); (EZ 2)])))] |}] |}.

(** /repo/src/pymcnp/inp/cell/Pd.py:8-111 *)
Definition k_cell_Pd : cls :=
  {| c_name := "cell_Pd"; c_kind := KOption; c_kw := L "pd";
     c_pat := L "\Apd(\d+)( " ++ slice 2 2 pat_number ++ L ")\Z";
     c_attrs := [{| a_name := "suffix"; a_ty := One TInt;
          a_checks := [(BIsNone EX)] |};
       {| a_name := "probability"; a_ty := One TReal;
          a_checks := [(BOr (BIsNone EX) (BNot (BAnd (BCmp OGe EX (EZ 0)) (BCmp OLe EX (EZ 1)))))] |}] |}.

(** /repo/src/pymcnp/inp/cell/Pwt.py:8-70 *)
Definition k_cell_Pwt : cls :=
  {| c_name := "cell_Pwt"; c_kind := KOption; c_kw := L "pwt";
     c_pat := L "\Apwt( " ++ slice 2 2 pat_number ++ L ")\Z";
     c_attrs := [{| a_name := "weight"; a_ty := One TReal;
          a_checks := [(BIsNone EX)] |}] |}.

(** /repo/src/pymcnp/inp/cell/Tmp.py:8-111 *)
Definition k_cell_Tmp : cls :=
  {| c_name := "cell_Tmp"; c_kind := KOption; c_kw := L "tmp";
     c_pat := L "\Atmp(\d+)((?: " ++ slice 2 2 pat_number ++ L ")+?)\Z";
     c_attrs := [{| a_name := "suffix"; a_ty := One TInt;
          a_checks := [] |};
       {| a_name := "temperature"; a_ty := Tup TReal;
          a_checks := [(BOr (BIsNone EX) (BNot (BCmp OGt (EMin EX) (EZ 0))))] |}] |}.

(** /repo/src/pymcnp/inp/cell/Trcl_0.py:8-109 *)
Definition k_cell_Trcl_0 : cls :=
  {| c_name := "cell_Trcl_0"; c_kind := KOption; c_kw := L "trcl";
     c_pat := L "\A([*])?trcl( " ++ slice 2 2 pat_number ++ L ")\Z";
     c_attrs := [{| a_name := "prefix"; a_ty := One TStr;
          a_checks := [(BAnd (BNot (BIsNone EX)) (BNot (BIn (ELower EX) [(ES (L "*"))])))] |};
       {| a_name := "transformation"; a_ty := One TInt;
          a_checks := [(BOr (BIsNone EX) (BNot (BAnd (BCmp OGe EX (EZ 0)) (BCmp OLe EX (EZ 999)))))] |}] |}.

(** /repo/src/pymcnp/inp/cell/Trcl_1.py:8-107 *)
Definition k_cell_Trcl_1 : cls :=
  {| c_name := "cell_Trcl_1"; c_kind := KOption; c_kw := L "trcl";
     c_pat := L "\A([*])?trcl( " ++ slice 2 2 (pat_transformation 12) ++ L ")\Z";
     c_attrs := [{| a_name := "prefix"; a_ty := One TStr;
          a_checks := [(BAnd (BNot (BIsNone EX)) (BNot (BIn (ELower EX) [(ES (L "*"))])))] |};
       {| a_name := "transformation"; a_ty := One (TTr 0);
          a_checks := [(BIsNone EX)] |}] |}.

(** /repo/src/pymcnp/inp/cell/Trcl_2.py:8-107 *)
Definition k_cell_Trcl_2 : cls :=
  {| c_name := "cell_Trcl_2"; c_kind := KOption; c_kw := L "trcl";
     c_pat := L "\A([*])?trcl( " ++ slice 2 2 (pat_transformation 9) ++ L ")\Z";
     c_attrs := [{| a_name := "prefix"; a_ty := One TStr;
          a_checks := [(BAnd (BNot (BIsNone EX)) (BNot (BIn (ELower EX) [(ES (L "*"))])))] |};
       {| a_name := "transformation"; a_ty := One (TTr 1);
          a_checks := [(BIsNone EX)] |}] |}.

(** /repo/src/pymcnp/inp/cell/Trcl_3.py:8-107 *)
Definition k_cell_Trcl_3 : cls :=
  {| c_name := "cell_Trcl_3"; c_kind := KOption; c_kw := L "trcl";
     c_pat := L "\A([*])?trcl( " ++ slice 2 2 (pat_transformation 8) ++ L ")\Z";
     c_attrs := [{| a_name := "prefix"; a_ty := One TStr;
          a_checks := [(BAnd (BNot (BIsNone EX)) (BNot (BIn (ELower EX) [(ES (L "*"))])))] |};
       {| a_name := "transformation"; a_ty := One (TTr 2);
          a_checks := [(BIsNone EX)] |}] |}.

(** /repo/src/pymcnp/inp/cell/Trcl_4.py:8-107 *)
Definition k_cell_Trcl_4 : cls :=
  {| c_name := "cell_Trcl_4"; c_kind := KOption; c_kw := L "trcl";
     c_pat := L "\A([*])?trcl( " ++ slice 2 2 (pat_transformation 6) ++ L ")\Z";
     c_attrs := [{| a_name := "prefix"; a_ty := One TStr;
          a_checks := [(BAnd (BNot (BIsNone EX)) (BNot (BIn (ELower EX) [(ES (L "*"))])))] |};
       {| a_name := "transformation"; a_ty := One (TTr 3);
          a_checks := [(BIsNone EX)] |}] |}.

(** /repo/src/pymcnp/inp/cell/Trcl_5.py:8-107 *)
Definition k_cell_Trcl_5 : cls :=
  {| c_name := "cell_Trcl_5"; c_kind := KOption; c_kw := L "trcl";
     c_pat := L "\A([*])?trcl( " ++ slice 2 2 (pat_transformation 3) ++ L ")\Z";
     c_attrs := [{| a_name := "prefix"; a_ty := One TStr;
          a_checks := [(BAnd (BNot (BIsNone EX)) (BNot (BIn (ELower EX) [(ES (L "*"))])))] |};
       {| a_name := "transformation"; a_ty := One (TTr 4);
          a_checks := [(BIsNone EX)] |}] |}.

(** /repo/src/pymcnp/inp/cell/U.py:8-70 *)
Definition k_cell_U : cls :=
  {| c_name := "cell_U"; c_kind := KOption; c_kw := L "u";
     c_pat := L "\Au( " ++ slice 2 2 pat_number ++ L ")\Z";
     c_attrs := [{| a_name := "number"; a_ty := One TInt;
          a_checks := [(BOr (BIsNone EX) (BNot (BOr (BCmp OEq EX (EZ 10000000000)) (BAnd (BCmp OGe EX (EZ (-9))) (BCmp OLe EX (EZ 99999999))))))] |}] |}.

(** /repo/src/pymcnp/inp/cell/Unc.py:8-109 *)
Definition k_cell_Unc : cls :=
  {| c_name := "cell_Unc"; c_kind := KOption; c_kw := L "unc";
     c_pat := L "\Aunc:(\S+)( " ++ slice 2 2 pat_number ++ L ")\Z";
     c_attrs := [{| a_name := "designator"; a_ty := One TDesig;
          a_checks := [(BIsNone EX)] |};
       {| a_name := "setting"; a_ty := One TInt;
          a_checks := [(BOr (BIsNone EX) (BNot (BIn EX [(EZ 0); (EZ 1)])))] |}] |}.

(** /repo/src/pymcnp/inp/cell/Vol.py:8-70 *)
Definition k_cell_Vol : cls :=
  {| c_name := "cell_Vol"; c_kind := KOption; c_kw := L "vol";
     c_pat := L "\Avol( " ++ slice 2 2 pat_number ++ L ")\Z";
     c_attrs := [{| a_name := "volume"; a_ty := One TReal;
          a_checks := [(BOr (BIsNone EX) (BNot (BCmp OGe EX (EZ 0))))] |}] |}.

(** /repo/src/pymcnp/inp/cell/Wwn.py:8-150 *)
Definition k_cell_Wwn : cls :=
  {| c_name := "cell_Wwn"; c_kind := KOption; c_kw := L "wwn";
     c_pat := L "\Awwn(\d+):(\S+)( " ++ slice 2 2 pat_number ++ L ")\Z";
     c_attrs := [{| a_name := "suffix"; a_ty := One TInt;
          a_checks := [(BIsNone EX)] |};
       {| a_name := "designator"; a_ty := One TDesig;
          a_checks := [(BIsNone EX)] |};
       {| a_name := "bound"; a_ty := One TReal;
          a_checks := [(BOr (BIsNone EX) (BNot (BOr (BCmp OEq EX (EZ (-1))) (BCmp OGe EX (EZ 0)))))] |}] |}.

(** /repo/src/pymcnp/inp/cell/_option.py:4-9: the subclasses in definition order, and the pattern
    that _symbol.py:40-44 makes of theirs, longest class name first. *)
Definition f_cell_CellOption : list cls := [k_cell_Imp; k_cell_Vol; k_cell_Pwt; k_cell_Ext; k_cell_Fcl; k_cell_Wwn; k_cell_Dxc; k_cell_Nonu; k_cell_Pd; k_cell_U; k_cell_Trcl_1; k_cell_Trcl_2; k_cell_Trcl_3; k_cell_Trcl_4; k_cell_Trcl_5; k_cell_Trcl_0; k_cell_Lat; k_cell_Fill_0; k_cell_Fill_1; k_cell_Fill_2; k_cell_Fill_3; k_cell_Fill_4; k_cell_Fill_5; k_cell_Fill_6; k_cell_Elpt; k_cell_Tmp; k_cell_Cosy; k_cell_Bflcl; k_cell_Unc].
Definition pat_cell_CellOption : str := union_pat [c_pat k_cell_Trcl_1; c_pat k_cell_Trcl_2; c_pat k_cell_Trcl_3; c_pat k_cell_Trcl_4; c_pat k_cell_Trcl_5; c_pat k_cell_Trcl_0; c_pat k_cell_Fill_0; c_pat k_cell_Fill_1; c_pat k_cell_Fill_2; c_pat k_cell_Fill_3; c_pat k_cell_Fill_4; c_pat k_cell_Fill_5; c_pat k_cell_Fill_6; c_pat k_cell_Bflcl; c_pat k_cell_Nonu; c_pat k_cell_Elpt; c_pat k_cell_Cosy; c_pat k_cell_Imp; c_pat k_cell_Vol; c_pat k_cell_Pwt; c_pat k_cell_Ext; c_pat k_cell_Fcl; c_pat k_cell_Wwn; c_pat k_cell_Dxc; c_pat k_cell_Lat; c_pat k_cell_Tmp; c_pat k_cell_Unc; c_pat k_cell_Pd; c_pat k_cell_U].

(** /repo/src/pymcnp/inp/dd/_entry.py:4-9: the subclasses in definition order, and the pattern
    that _symbol.py:40-44 makes of theirs, longest class name first. *)
Definition f_dd_DdEntry : list cls := [k_dd_Diagnostic].
Definition pat_dd_DdEntry : str := union_pat [c_pat k_dd_Diagnostic].

(** /repo/src/pymcnp/inp/ds_1/_entry.py:4-9: the subclasses in definition order, and the pattern
    that _symbol.py:40-44 makes of theirs, longest class name first. *)
Definition f_ds_1_DsEntry_1 : list cls := [k_ds_1_Variables].
Definition pat_ds_1_DsEntry_1 : str := union_pat [c_pat k_ds_1_Variables].

(** /repo/src/pymcnp/inp/ds_2/_entry.py:4-9: the subclasses in definition order, and the pattern
    that _symbol.py:40-44 makes of theirs, longest class name first. *)
Definition f_ds_2_DsEntry_2 : list cls := [k_ds_2_Variables].
Definition pat_ds_2_DsEntry_2 : str := union_pat [c_pat k_ds_2_Variables].

(** /repo/src/pymcnp/inp/dxt/_entry.py:4-9: the subclasses in definition order, and the pattern
    that _symbol.py:40-44 makes of theirs, longest class name first. *)
Definition f_dxt_DxtEntry : list cls := [k_dxt_Shell].
Definition pat_dxt_DxtEntry : str := union_pat [c_pat k_dxt_Shell].

(** /repo/src/pymcnp/inp/embed/matcell/_entry.py:4-9: the subclasses in definition order, and the pattern
    that _symbol.py:40-44 makes of theirs, longest class name first. *)
Definition f_embed_matcell_MatcellEntry : list cls := [k_embed_matcell_Entry].
Definition pat_embed_matcell_MatcellEntry : str := union_pat [c_pat k_embed_matcell_Entry].

(** /repo/src/pymcnp/inp/f_1/_entry.py:4-9: the subclasses in definition order, and the pattern
    that _symbol.py:40-44 makes of theirs, longest class name first. *)
Definition f_f_1_FEntry_1 : list cls := [k_f_1_Sphere].
Definition pat_f_1_FEntry_1 : str := union_pat [c_pat k_f_1_Sphere].

(** /repo/src/pymcnp/inp/f_2/_entry.py:4-9: the subclasses in definition order, and the pattern
    that _symbol.py:40-44 makes of theirs, longest class name first. *)
Definition f_f_2_FEntry_2 : list cls := [k_f_2_Ring].
Definition pat_f_2_FEntry_2 : str := union_pat [c_pat k_f_2_Ring].

(** /repo/src/pymcnp/inp/files/_entry.py:4-9: the subclasses in definition order, and the pattern
    that _symbol.py:40-44 makes of theirs, longest class name first. *)
Definition f_files_FilesEntry : list cls := [k_files_File].
Definition pat_files_FilesEntry : str := union_pat [c_pat k_files_File].

(** /repo/src/pymcnp/inp/ksrc/_entry.py:4-9: the subclasses in definition order, and the pattern
    that _symbol.py:40-44 makes of theirs, longest class name first. *)
Definition f_ksrc_KsrcEntry : list cls := [k_ksrc_Location].
Definition pat_ksrc_KsrcEntry : str := union_pat [c_pat k_ksrc_Location].

(** /repo/src/pymcnp/inp/like/Bflcl.py:8-69 *)
Definition k_like_Bflcl : cls :=
  {| c_name := "like_Bflcl"; c_kind := KOption; c_kw := L "bflcl";
     c_pat := L "\Abflcl( " ++ slice 2 2 pat_number ++ L ")\Z";
     c_attrs := [{| a_name := "number"; a_ty := One TInt;
          a_checks := [(BOr (BIsNone EX) (BNot (BCmp OGe EX (EZ 0))))] |}] |}.

(** /repo/src/pymcnp/inp/like/Cosy.py:8-69 *)
Definition k_like_Cosy : cls :=
  {| c_name := "like_Cosy"; c_kind := KOption; c_kw := L "cosy";
     c_pat := L "\Acosy( " ++ slice 2 2 pat_number ++ L ")\Z";
     c_attrs := [{| a_name := "number"; a_ty := One TInt;
          a_checks := [(BOr (BIsNone EX) (BNot (BIn EX [(EZ 1); (EZ 2); (EZ 3); (EZ 4); (EZ 5); (EZ 6)])))] |}] |}.

(** /repo/src/pymcnp/inp/like/Dxc.py:8-147 *)
Definition k_like_Dxc : cls :=
  {| c_name := "like_Dxc"; c_kind := KOption; c_kw := L "dxc";
     c_pat := L "\Adxc(\d+):(\S+)( " ++ slice 2 2 pat_number ++ L ")\Z";
     c_attrs := [{| a_name := "suffix"; a_ty := One TInt;
          a_checks := [(BIsNone EX)] |};
       {| a_name := "designator"; a_ty := One TDesig;
          a_checks := [(BIsNone EX)] |};
       {| a_name := "probability"; a_ty := One TReal;
          a_checks := [(BOr (BIsNone EX) (BNot (BAnd (BCmp OGe EX (EZ 0)) (BCmp OLe EX (EZ 1)))))] |}] |}.

(** /repo/src/pymcnp/inp/like/Elpt.py:8-107 *)
Definition k_like_Elpt : cls :=
  {| c_name := "like_Elpt"; c_kind := KOption; c_kw := L "elpt";
     c_pat := L "\Aelpt:(\S+)( " ++ slice 2 2 pat_number ++ L ")\Z";
     c_attrs := [{| a_name := "designator"; a_ty := One TDesig;
          a_checks := [(BIsNone EX)] |};
       {| a_name := "cutoff"; a_ty := One TReal;
          a_checks := [(BIsNone EX)] |}] |}.

(** /repo/src/pymcnp/inp/like/Ext.py:8-105 *)
Definition k_like_Ext : cls :=
  {| c_name := "like_Ext"; c_kind := KOption; c_kw := L "ext";
     c_pat := L "\Aext:(\S+)( " ++ slice 2 2 pat_string ++ L ")\Z";
     c_attrs := [{| a_name := "designator"; a_ty := One TDesig;
          a_checks := [(BIsNone EX)] |};
       {| a_name := "stretch"; a_ty := One TStr;
          a_checks := [(BIsNone EX)] |}] |}.

(** /repo/src/pymcnp/inp/like/Fcl.py:8-107 *)
Definition k_like_Fcl : cls :=
  {| c_name := "like_Fcl"; c_kind := KOption; c_kw := L "fcl";
     c_pat := L "\Afcl:(\S+)( " ++ slice 2 2 pat_number ++ L ")\Z";
     c_attrs := [{| a_name := "designator"; a_ty := One TDesig;
          a_checks := [(BIsNone EX)] |};
       {| a_name := "control"; a_ty := One TReal;
          a_checks := [(BOr (BIsNone EX) (BNot (BAnd (BCmp OGe EX (EZ (-1))) (BCmp OLe EX (EZ 1)))))] |}] |}.

(** /repo/src/pymcnp/inp/like/Fill_0.py:8-270 *)
Definition k_like_Fill_0 : cls :=
  {| c_name := "like_Fill_0"; c_kind := KOption; c_kw := L "fill";
     c_pat := L "\A([*])?fill (\S+:\S+) (\S+:\S+) (\S+:\S+)((?: " ++ slice 2 2 pat_number ++ L ")+?)(?: [(](" ++ slice 2 2 pat_number ++ L ")[)])?\Z";
     c_attrs := [{| a_name := "prefix"; a_ty := One TStr;
          a_checks := [(BAnd (BNot (BIsNone EX)) (BNot (BIn (ELower EX) [(ES (L "*"))])))] |};
       {| a_name := "i"; a_ty := One TIndex;
          a_checks := [(BIsNone EX)] |};
       {| a_name := "j"; a_ty := One TIndex;
          a_checks := [(BIsNone EX)] |};
       {| a_name := "k"; a_ty := One TIndex;
          a_checks := [(BIsNone EX)] |};
       {| a_name := "universes"; a_ty := Tup TInt;
          a_checks := [(BIsNone EX)] |};
       {| a_name := "m"; a_ty := One TInt;
          a_checks := [] |}] |}.

(** /repo/src/pymcnp/inp/like/Fill_1.py:8-142 *)
Definition k_like_Fill_1 : cls :=
  {| c_name := "like_Fill_1"; c_kind := KOption; c_kw := L "fill";
     c_pat := L "\A([*])?fill( " ++ slice 2 2 pat_number ++ L ")( " ++ slice 2 2 (pat_transformation 12) ++ L "| [(]" ++ slice 2 2 (pat_transformation 12) ++ L "[)])?\Z";
     c_attrs := [{| a_name := "prefix"; a_ty := One TStr;
          a_checks := [(BAnd (BNot (BIsNone EX)) (BNot (BIn (ELower EX) [(ES (L "*"))])))] |};
       {| a_name := "universe"; a_ty := One TInt;
          a_checks := [(BOr (BIsNone EX) (BNot (BOr (BCmp OEq EX (EZ 10000000000)) (BAnd (BCmp OGe EX (EZ 0)) (BCmp OLe EX (EZ 99999999))))))] |};
       {| a_name := "transformation"; a_ty := One (TTr 0);
          a_checks := [] |}] |}.

(** /repo/src/pymcnp/inp/like/Fill_2.py:8-142 *)
Definition k_like_Fill_2 : cls :=
  {| c_name := "like_Fill_2"; c_kind := KOption; c_kw := L "fill";
     c_pat := L "\A([*])?fill( " ++ slice 2 2 pat_number ++ L ")( " ++ slice 2 2 (pat_transformation 9) ++ L "| [(]" ++ slice 2 2 (pat_transformation 9) ++ L "[)])?\Z";
     c_attrs := [{| a_name := "prefix"; a_ty := One TStr;
          a_checks := [(BAnd (BNot (BIsNone EX)) (BNot (BIn (ELower EX) [(ES (L "*"))])))] |};
       {| a_name := "universe"; a_ty := One TInt;
          a_checks := [(BOr (BIsNone EX) (BNot (BOr (BCmp OEq EX (EZ 10000000000)) (BAnd (BCmp OGe EX (EZ 0)) (BCmp OLe EX (EZ 99999999))))))] |};
       {| a_name := "transformation"; a_ty := One (TTr 1);
          a_checks := [] |}] |}.

(** /repo/src/pymcnp/inp/like/Fill_3.py:8-142 *)
Definition k_like_Fill_3 : cls :=
  {| c_name := "like_Fill_3"; c_kind := KOption; c_kw := L "fill";
     c_pat := L "\A([*])?fill( " ++ slice 2 2 pat_number ++ L ")( " ++ slice 2 2 (pat_transformation 8) ++ L "| [(]" ++ slice 2 2 (pat_transformation 8) ++ L "[)])?\Z";
     c_attrs := [{| a_name := "prefix"; a_ty := One TStr;
          a_checks := [(BAnd (BNot (BIsNone EX)) (BNot (BIn (ELower EX) [(ES (L "*"))])))] |};
       {| a_name := "universe"; a_ty := One TInt;
          a_checks := [(BOr (BIsNone EX) (BNot (BOr (BCmp OEq EX (EZ 10000000000)) (BAnd (BCmp OGe EX (EZ 0)) (BCmp OLe EX (EZ 99999999))))))] |};
       {| a_name := "transformation"; a_ty := One (TTr 2);
          a_checks := [] |}] |}.

(** /repo/src/pymcnp/inp/like/Fill_4.py:8-142 *)
Definition k_like_Fill_4 : cls :=
  {| c_name := "like_Fill_4"; c_kind := KOption; c_kw := L "fill";
     c_pat := L "\A([*])?fill( " ++ slice 2 2 pat_number ++ L ")( " ++ slice 2 2 (pat_transformation 6) ++ L "| [(]" ++ slice 2 2 (pat_transformation 6) ++ L "[)])?\Z";
     c_attrs := [{| a_name := "prefix"; a_ty := One TStr;
          a_checks := [(BAnd (BNot (BIsNone EX)) (BNot (BIn (ELower EX) [(ES (L "*"))])))] |};
       {| a_name := "universe"; a_ty := One TInt;
          a_checks := [(BOr (BIsNone EX) (BNot (BOr (BCmp OEq EX (EZ 10000000000)) (BAnd (BCmp OGe EX (EZ 0)) (BCmp OLe EX (EZ 99999999))))))] |};
       {| a_name := "transformation"; a_ty := One (TTr 3);
          a_checks := [] |}] |}.

(** /repo/src/pymcnp/inp/like/Fill_5.py:8-142 *)
Definition k_like_Fill_5 : cls :=
  {| c_name := "like_Fill_5"; c_kind := KOption; c_kw := L "fill";
     c_pat := L "\A([*])?fill( " ++ slice 2 2 pat_number ++ L ")( " ++ slice 2 2 (pat_transformation 3) ++ L "| [(]" ++ slice 2 2 (pat_transformation 3) ++ L "[)])?\Z";
     c_attrs := [{| a_name := "prefix"; a_ty := One TStr;
          a_checks := [(BAnd (BNot (BIsNone EX)) (BNot (BIn (ELower EX) [(ES (L "*"))])))] |};
       {| a_name := "universe"; a_ty := One TInt;
          a_checks := [(BOr (BIsNone EX) (BNot (BOr (BCmp OEq EX (EZ 10000000000)) (BAnd (BCmp OGe EX (EZ 0)) (BCmp OLe EX (EZ 99999999))))))] |};
       {| a_name := "transformation"; a_ty := One (TTr 4);
          a_checks := [] |}] |}.

(** /repo/src/pymcnp/inp/like/Fill_6.py:8-147 *)
Definition k_like_Fill_6 : cls :=
  {| c_name := "like_Fill_6"; c_kind := KOption; c_kw := L "fill";
     c_pat := L "\A([*])?fill( " ++ slice 2 2 pat_number ++ L ")( " ++ slice 2 2 pat_number ++ L "| [(]" ++ slice 2 2 pat_number ++ L "[)])?\Z";
     c_attrs := [{| a_name := "prefix"; a_ty := One TStr;
          a_checks := [(BAnd (BNot (BIsNone EX)) (BNot (BIn (ELower EX) [(ES (L "*"))])))] |};
       {| a_name := "universe"; a_ty := One TInt;
          a_checks := [(BOr (BIsNone EX) (BNot (BOr (BCmp OEq EX (EZ 10000000000)) (BAnd (BCmp OGe EX (EZ 0)) (BCmp OLe EX (EZ 99999999))))))] |};
       {| a_name := "transformation"; a_ty := One TInt;
          a_checks := [(BAnd (BNot (BIsNone EX)) (BNot (BAnd (BCmp OGe EX (EZ 0)) (BCmp OLe EX (EZ 999)))))] |}] |}.

(** /repo/src/pymcnp/inp/like/Imp.py:8-107 *)
Definition k_like_Imp : cls :=
  {| c_name := "like_Imp"; c_kind := KOption; c_kw := L "imp";
     c_pat := L "\Aimp:(\S+)( " ++ slice 2 2 pat_number ++ L ")\Z";
     c_attrs := [{| a_name := "designator"; a_ty := One TDesig;
          a_checks := [(BIsNone EX)] |};
       {| a_name := "importance"; a_ty := One TReal;
          a_checks := [(BIsNone EX)] |}] |}.

(** /repo/src/pymcnp/inp/like/Lat.py:8-69 *)
Definition k_like_Lat : cls :=
  {| c_name := "like_Lat"; c_kind := KOption; c_kw := L "lat";
     c_pat := L "\Alat( " ++ slice 2 2 pat_number ++ L ")\Z";
     c_attrs := [{| a_name := "shape"; a_ty := One TInt;
          a_checks := [(BOr (BIsNone EX) (BNot (BIn EX [(EZ 1); (EZ 2)])))] |}] |}.

(** /repo/src/pymcnp/inp/like/Mat.py:8-69 *)
Definition k_like_Mat : cls :=
  {| c_name := "like_Mat"; c_kind := KOption; c_kw := L "mat";
     c_pat := L "\Amat( " ++ slice 2 2 pat_number ++ L ")\Z";
     c_attrs := [{| a_name := "material"; a_ty := One TInt;
          a_checks := [(BOr (BIsNone EX) (BNot (BAnd (BCmp OLe (EZ 0) EX) (BCmp OLe EX (EZ 99999999)))))] |}] |}.

(** /repo/src/pymcnp/inp/like/Nonu.py:8-69 *)
Definition k_like_Nonu : cls :=
  {| c_name := "like_Nonu"; c_kind := KOption; c_kw := L "nonu";
     c_pat := L "\Anonu( " ++ slice 2 2 pat_number ++ L ")\Z";
     c_attrs := [{| a_name := "setting"; a_ty := One TInt;
          a_checks := [(BOr (BIsNone EX) (BNot (BIn EX [(EZ 0); (EZ 1); (EZ 2)])))] |}] |}.

(** /repo/src/pymcnp/inp/like/Pd.py:8-109 *)
Definition k_like_Pd : cls :=
  {| c_name := "like_Pd"; c_kind := KOption; c_kw := L "pd";
     c_pat := L "\Apd(\d+)( " ++ slice 2 2 pat_number ++ L ")\Z";
     c_attrs := [{| a_name := "suffix"; a_ty := One TInt;
          a_checks := [(BIsNone EX)] |};
       {| a_name := "probability"; a_ty := One TReal;
          a_checks := [(BOr (BIsNone EX) (BNot (BAnd (BCmp OGe EX (EZ 0)) (BCmp OLe EX (EZ 1)))))] |}] |}.

(** /repo/src/pymcnp/inp/like/Pwt.py:8-69 *)
Definition k_like_Pwt : cls :=
  {| c_name := "like_Pwt"; c_kind := KOption; c_kw := L "pwt";
     c_pat := L "\Apwt( " ++ slice 2 2 pat_number ++ L ")\Z";
     c_attrs := [{| a_name := "weight"; a_ty := One TReal;
          a_checks := [(BIsNone EX)] |}] |}.

(** /repo/src/pymcnp/inp/like/Rho.py:8-69 *)
Definition k_like_Rho : cls :=
  {| c_name := "like_Rho"; c_kind := KOption; c_kw := L "rho";
     c_pat := L "\Arho( " ++ slice 2 2 pat_number ++ L ")\Z";
     c_attrs := [{| a_name := "density"; a_ty := One TReal;
          a_checks := [(BIsNone EX)] |}] |}.

(** /repo/src/pymcnp/inp/like/Tmp.py:8-110 *)
Definition k_like_Tmp : cls :=
  {| c_name := "like_Tmp"; c_kind := KOption; c_kw := L "tmp";
     c_pat := L "\Atmp(\d+)((?: " ++ slice 2 2 pat_number ++ L ")+?)\Z";
     c_attrs := [{| a_name := "suffix"; a_ty := One TInt;
          a_checks := [] |};
       {| a_name := "temperature"; a_ty := Tup TReal;
          a_checks := [(BOr (BIsNone EX) (BNot (BCmp OGt (EMin EX) (EZ 0))))] |}] |}.

(** /repo/src/pymcnp/inp/like/Trcl_0.py:8-107 *)
Definition k_like_Trcl_0 : cls :=
  {| c_name := "like_Trcl_0"; c_kind := KOption; c_kw := L "trcl";
     c_pat := L "\A([*])?trcl( " ++ slice 2 2 pat_number ++ L ")\Z";
     c_attrs := [{| a_name := "prefix"; a_ty := One TStr;
          a_checks := [(BAnd (BNot (BIsNone EX)) (BNot (BIn (ELower EX) [(ES (L "*"))])))] |};
       {| a_name := "transformation"; a_ty := One TInt;
          a_checks := [(BOr (BIsNone EX) (BNot (BAnd (BCmp OGe EX (EZ 0)) (BCmp OLe EX (EZ 999)))))] |}] |}.

(** /repo/src/pymcnp/inp/like/Trcl_1.py:8-105 *)
Definition k_like_Trcl_1 : cls :=
  {| c_name := "like_Trcl_1"; c_kind := KOption; c_kw := L "trcl";
     c_pat := L "\A([*])?trcl( " ++ slice 2 2 (pat_transformation 12) ++ L ")\Z";
     c_attrs := [{| a_name := "prefix"; a_ty := One TStr;
          a_checks := [(BAnd (BNot (BIsNone EX)) (BNot (BIn (ELower EX) [(ES (L "*"))])))] |};
       {| a_name := "transformation"; a_ty := One (TTr 0);
          a_checks := [(BIsNone EX)] |}] |}.

(** /repo/src/pymcnp/inp/like/Trcl_2.py:8-105 *)
Definition k_like_Trcl_2 : cls :=
  {| c_name := "like_Trcl_2"; c_kind := KOption; c_kw := L "trcl";
     c_pat := L "\A([*])?trcl( " ++ slice 2 2 (pat_transformation 9) ++ L ")\Z";
     c_attrs := [{| a_name := "prefix"; a_ty := One TStr;
          a_checks := [(BAnd (BNot (BIsNone EX)) (BNot (BIn (ELower EX) [(ES (L "*"))])))] |};
       {| a_name := "transformation"; a_ty := One (TTr 1);
          a_checks := [(BIsNone EX)] |}] |}.

(** /repo/src/pymcnp/inp/like/Trcl_3.py:8-105 *)
Definition k_like_Trcl_3 : cls :=
  {| c_name := "like_Trcl_3"; c_kind := KOption; c_kw := L "trcl";
     c_pat := L "\A([*])?trcl( " ++ slice 2 2 (pat_transformation 8) ++ L ")\Z";
     c_attrs := [{| a_name := "prefix"; a_ty := One TStr;
          a_checks := [(BAnd (BNot (BIsNone EX)) (BNot (BIn (ELower EX) [(ES (L "*"))])))] |};
       {| a_name := "transformation"; a_ty := One (TTr 2);
          a_checks := [(BIsNone EX)] |}] |}.

(** /repo/src/pymcnp/inp/like/Trcl_4.py:8-105 *)
Definition k_like_Trcl_4 : cls :=
  {| c_name := "like_Trcl_4"; c_kind := KOption; c_kw := L "trcl";
     c_pat := L "\A([*])?trcl( " ++ slice 2 2 (pat_transformation 6) ++ L ")\Z";
     c_attrs := [{| a_name := "prefix"; a_ty := One TStr;
          a_checks := [(BAnd (BNot (BIsNone EX)) (BNot (BIn (ELower EX) [(ES (L "*"))])))] |};
       {| a_name := "transformation"; a_ty := One (TTr 3);
          a_checks := [(BIsNone EX)] |}] |}.

(** /repo/src/pymcnp/inp/like/Trcl_5.py:8-105 *)
Definition k_like_Trcl_5 : cls :=
  {| c_name := "like_Trcl_5"; c_kind := KOption; c_kw := L "trcl";
     c_pat := L "\A([*])?trcl( " ++ slice 2 2 (pat_transformation 3) ++ L ")\Z";
     c_attrs := [{| a_name := "prefix"; a_ty := One TStr;
          a_checks := [(BAnd (BNot (BIsNone EX)) (BNot (BIn (ELower EX) [(ES (L "*"))])))] |};
       {| a_name := "transformation"; a_ty := One (TTr 4);
          a_checks := [(BIsNone EX)] |}] |}.

(** /repo/src/pymcnp/inp/like/U.py:8-69 *)
Definition k_like_U : cls :=
  {| c_name := "like_U"; c_kind := KOption; c_kw := L "u";
     c_pat := L "\Au( " ++ slice 2 2 pat_number ++ L ")\Z";
     c_attrs := [{| a_name := "number"; a_ty := One TInt;
          a_checks := [(BOr (BIsNone EX) (BNot (BOr (BCmp OEq EX (EZ 10000000000)) (BAnd (BCmp OGe EX (EZ (-9))) (BCmp OLe EX (EZ 99999999))))))] |}] |}.

(** /repo/src/pymcnp/inp/like/Unc.py:8-107 *)
Definition k_like_Unc : cls :=
  {| c_name := "like_Unc"; c_kind := KOption; c_kw := L "unc";
     c_pat := L "\Aunc:(\S+)( " ++ slice 2 2 pat_number ++ L ")\Z";
     c_attrs := [{| a_name := "designator"; a_ty := One TDesig;
          a_checks := [(BIsNone EX)] |};
       {| a_name := "setting"; a_ty := One TInt;
          a_checks := [(BOr (BIsNone EX) (BNot (BIn EX [(EZ 0); (EZ 1)])))] |}] |}.

(** /repo/src/pymcnp/inp/like/Vol.py:8-69 *)
Definition k_like_Vol : cls :=
  {| c_name := "like_Vol"; c_kind := KOption; c_kw := L "vol";
     c_pat := L "\Avol( " ++ slice 2 2 pat_number ++ L ")\Z";
     c_attrs := [{| a_name := "volume"; a_ty := One TReal;
          a_checks := [(BOr (BIsNone EX) (BNot (BCmp OGe EX (EZ 0))))] |}] |}.

(** /repo/src/pymcnp/inp/like/Wwn.py:8-147 *)
Definition k_like_Wwn : cls :=
  {| c_name := "like_Wwn"; c_kind := KOption; c_kw := L "wwn";
     c_pat := L "\Awwn(\d+):(\S+)( " ++ slice 2 2 pat_number ++ L ")\Z";
     c_attrs := [{| a_name := "suffix"; a_ty := One TInt;
          a_checks := [(BIsNone EX)] |};
       {| a_name := "designator"; a_ty := One TDesig;
          a_checks := [(BIsNone EX)] |};
       {| a_name := "bound"; a_ty := One TReal;
          a_checks := [(BOr (BIsNone EX) (BNot (BOr (BCmp OEq EX (EZ (-1))) (BCmp OGe EX (EZ 0)))))] |}] |}.

(** /repo/src/pymcnp/inp/like/_option.py:4-9: the subclasses in definition order, and the pattern
    that _symbol.py:40-44 makes of theirs, longest class name first. *)
Definition f_like_LikeOption : list cls := [k_like_Imp; k_like_Vol; k_like_Pwt; k_like_Ext; k_like_Fcl; k_like_Wwn; k_like_Dxc; k_like_Nonu; k_like_Pd; k_like_U; k_like_Trcl_1; k_like_Trcl_2; k_like_Trcl_3; k_like_Trcl_4; k_like_Trcl_5; k_like_Trcl_0; k_like_Lat; k_like_Mat; k_like_Fill_0; k_like_Fill_1; k_like_Fill_2; k_like_Fill_3; k_like_Fill_4; k_like_Fill_5; k_like_Fill_6; k_like_Elpt; k_like_Rho; k_like_Tmp; k_like_Cosy; k_like_Bflcl; k_like_Unc].
Definition pat_like_LikeOption : str := union_pat [c_pat k_like_Trcl_1; c_pat k_like_Trcl_2; c_pat k_like_Trcl_3; c_pat k_like_Trcl_4; c_pat k_like_Trcl_5; c_pat k_like_Trcl_0; c_pat k_like_Fill_0; c_pat k_like_Fill_1; c_pat k_like_Fill_2; c_pat k_like_Fill_3; c_pat k_like_Fill_4; c_pat k_like_Fill_5; c_pat k_like_Fill_6; c_pat k_like_Bflcl; c_pat k_like_Nonu; c_pat k_like_Elpt; c_pat k_like_Cosy; c_pat k_like_Imp; c_pat k_like_Vol; c_pat k_like_Pwt; c_pat k_like_Ext; c_pat k_like_Fcl; c_pat k_like_Wwn; c_pat k_like_Dxc; c_pat k_like_Lat; c_pat k_like_Mat; c_pat k_like_Rho; c_pat k_like_Tmp; c_pat k_like_Unc; c_pat k_like_Pd; c_pat k_like_U].

(** /repo/src/pymcnp/inp/m_0/Alib.py:8-68 *)
Definition k_m_0_Alib : cls :=
  {| c_name := "m_0_Alib"; c_kind := KOption; c_kw := L "alib";
     c_pat := L "\Aalib( " ++ slice 2 2 pat_string ++ L ")\Z";
     c_attrs := [{| a_name := "abx"; a_ty := One TStr;
          a_checks := [(BIsNone EX)] |}] |}.

(** /repo/src/pymcnp/inp/m_0/Cond.py:8-70 *)
Definition k_m_0_Cond : cls :=
  {| c_name := "m_0_Cond"; c_kind := KOption; c_kw := L "cond";
     c_pat := L "\Acond( " ++ slice 2 2 pat_number ++ L ")\Z";
     c_attrs := [{| a_name := "setting"; a_ty := One TReal;
          a_checks := [(BIsNone EX)] |}] |}.

(** /repo/src/pymcnp/inp/m_0/Dlib.py:8-68 *)
Definition k_m_0_Dlib : cls :=
  {| c_name := "m_0_Dlib"; c_kind := KOption; c_kw := L "dlib";
     c_pat := L "\Adlib( " ++ slice 2 2 pat_string ++ L ")\Z";
     c_attrs := [{| a_name := "abx"; a_ty := One TStr;
          a_checks := [(BIsNone EX)] |}] |}.

(** /repo/src/pymcnp/inp/m_0/Elib.py:8-68 *)
Definition k_m_0_Elib : cls :=
  {| c_name := "m_0_Elib"; c_kind := KOption; c_kw := L "elib";
     c_pat := L "\Aelib( " ++ slice 2 2 pat_string ++ L ")\Z";
     c_attrs := [{| a_name := "abx"; a_ty := One TStr;
          a_checks := [(BIsNone EX)] |}] |}.

(** /repo/src/pymcnp/inp/m_0/Estep.py:8-70 *)
Definition k_m_0_Estep : cls :=
  {| c_name := "m_0_Estep"; c_kind := KOption; c_kw := L "estep";
     c_pat := L "\Aestep( " ++ slice 2 2 pat_number ++ L ")\Z";
     c_attrs := [{| a_name := "step"; a_ty := One TInt;
          a_checks := [(BOr (BIsNone EX) (BNot (BCmp OGe EX (EZ 0))))] |}] |}.

(** /repo/src/pymcnp/inp/m_0/Gas.py:8-68 *)
Definition k_m_0_Gas : cls :=
  {| c_name := "m_0_Gas"; c_kind := KOption; c_kw := L "gas";
     c_pat := L "\Agas( " ++ slice 2 2 pat_string ++ L ")\Z";
     c_attrs := [{| a_name := "setting"; a_ty := One TStr;
          a_checks := [(BOr (BIsNone EX) (BNot (BIn (ELower EX) [(ES (L "yes")); (ES (L "no"))])))] |}] |}.

(** /repo/src/pymcnp/inp/m_0/Hlib.py:8-68 *)
Definition k_m_0_Hlib : cls :=
  {| c_name := "m_0_Hlib"; c_kind := KOption; c_kw := L "hlib";
     c_pat := L "\Ahlib( " ++ slice 2 2 pat_string ++ L ")\Z";
     c_attrs := [{| a_name := "abx"; a_ty := One TStr;
          a_checks := [(BIsNone EX)] |}] |}.

(** /repo/src/pymcnp/inp/m_0/Hstep.py:8-70 *)
Definition k_m_0_Hstep : cls :=
  {| c_name := "m_0_Hstep"; c_kind := KOption; c_kw := L "hstep";
     c_pat := L "\Ahstep( " ++ slice 2 2 pat_number ++ L ")\Z";
     c_attrs := [{| a_name := "step"; a_ty := One TInt;
          a_checks := [(BOr (BIsNone EX) (BNot (BCmp OGe EX (EZ 0))))] |}] |}.

(** /repo/src/pymcnp/inp/m_0/Nlib.py:8-68 *)
Definition k_m_0_Nlib : cls :=
  {| c_name := "m_0_Nlib"; c_kind := KOption; c_kw := L "nlib";
     c_pat := L "\Anlib( " ++ slice 2 2 pat_string ++ L ")\Z";
     c_attrs := [{| a_name := "abx"; a_ty := One TStr;
          a_checks := [(BIsNone EX)] |}] |}.

(** /repo/src/pymcnp/inp/m_0/Plib.py:8-68 *)
Definition k_m_0_Plib : cls :=
  {| c_name := "m_0_Plib"; c_kind := KOption; c_kw := L "plib";
     c_pat := L "\Aplib( " ++ slice 2 2 pat_string ++ L ")\Z";
     c_attrs := [{| a_name := "abx"; a_ty := One TStr;
          a_checks := [(BIsNone EX)] |}] |}.

(** /repo/src/pymcnp/inp/m_0/Pnlib.py:8-68 *)
Definition k_m_0_Pnlib : cls :=
  {| c_name := "m_0_Pnlib"; c_kind := KOption; c_kw := L "pnlib";
     c_pat := L "\Apnlib( " ++ slice 2 2 pat_string ++ L ")\Z";
     c_attrs := [{| a_name := "abx"; a_ty := One TStr;
          a_checks := [(BIsNone EX)] |}] |}.

(** /repo/src/pymcnp/inp/m_0/Refc.py:8-73 *)
Definition k_m_0_Refc : cls :=
  {| c_name := "m_0_Refc"; c_kind := KOption; c_kw := L "refc";
     c_pat := L "\Arefc((?: " ++ slice 2 2 pat_number ++ L ")+?)\Z";
     c_attrs := [{| a_name := "coefficents"; a_ty := Tup TReal;
          a_checks := [(BIsNone EX)] |}] |}.

(** /repo/src/pymcnp/inp/m_0/Refi.py:8-70 *)
Definition k_m_0_Refi : cls :=
  {| c_name := "m_0_Refi"; c_kind := KOption; c_kw := L "refi";
     c_pat := L "\Arefi( " ++ slice 2 2 pat_number ++ L ")\Z";
     c_attrs := [{| a_name := "refractive_index"; a_ty := One TReal;
          a_checks := [(BIsNone EX)] |}] |}.

(** /repo/src/pymcnp/inp/m_0/Refs.py:8-73 *)
Definition k_m_0_Refs : cls :=
  {| c_name := "m_0_Refs"; c_kind := KOption; c_kw := L "refs";
     c_pat := L "\Arefs((?: " ++ slice 2 2 pat_number ++ L ")+?)\Z";
     c_attrs := [{| a_name := "coefficents"; a_ty := Tup TReal;
          a_checks := [(BIsNone EX)] |}] |}.

(** /repo/src/pymcnp/inp/m_0/Slib.py:8-68 *)
Definition k_m_0_Slib : cls :=
  {| c_name := "m_0_Slib"; c_kind := KOption; c_kw := L "slib";
     c_pat := L "\Aslib( " ++ slice 2 2 pat_string ++ L ")\Z";
     c_attrs := [{| a_name := "abx"; a_ty := One TStr;
          a_checks := [(BIsNone EX)] |}] |}.

(** /repo/src/pymcnp/inp/m_0/Tlib.py:8-68 *)
Definition k_m_0_Tlib : cls :=
  {| c_name := "m_0_Tlib"; c_kind := KOption; c_kw := L "tlib";
     c_pat := L "\Atlib( " ++ slice 2 2 pat_string ++ L ")\Z";
     c_attrs := [{| a_name := "abx"; a_ty := One TStr;
          a_checks := [(BIsNone EX)] |}] |}.

(** /repo/src/pymcnp/inp/m_0/_option.py:4-9: the subclasses in definition order, and the pattern
    that _symbol.py:40-44 makes of theirs, longest class name first. *)
Definition f_m_0_MOption_0 : list cls := [k_m_0_Gas; k_m_0_Estep; k_m_0_Hstep; k_m_0_Nlib; k_m_0_Plib; k_m_0_Pnlib; k_m_0_Elib; k_m_0_Hlib; k_m_0_Alib; k_m_0_Slib; k_m_0_Tlib; k_m_0_Dlib; k_m_0_Cond; k_m_0_Refi; k_m_0_Refc; k_m_0_Refs].
Definition pat_m_0_MOption_0 : str := union_pat [c_pat k_m_0_Estep; c_pat k_m_0_Hstep; c_pat k_m_0_Pnlib; c_pat k_m_0_Nlib; c_pat k_m_0_Plib; c_pat k_m_0_Elib; c_pat k_m_0_Hlib; c_pat k_m_0_Alib; c_pat k_m_0_Slib; c_pat k_m_0_Tlib; c_pat k_m_0_Dlib; c_pat k_m_0_Cond; c_pat k_m_0_Refi; c_pat k_m_0_Refc; c_pat k_m_0_Refs; c_pat k_m_0_Gas].

(** /repo/src/pymcnp/inp/pikmt/_entry.py:4-9: the subclasses in definition order, and the pattern
    that _symbol.py:40-44 makes of theirs, longest class name first. *)
Definition f_pikmt_PikmtEntry : list cls := [k_pikmt_Photonbias].
Definition pat_pikmt_PikmtEntry : str := union_pat [c_pat k_pikmt_Photonbias].

(** /repo/src/pymcnp/inp/ptrac/filter/_entry.py:4-9: the subclasses in definition order, and the pattern
    that _symbol.py:40-44 makes of theirs, longest class name first. *)
Definition f_ptrac_filter_FilterEntry : list cls := [k_ptrac_filter_Entry].
Definition pat_ptrac_filter_FilterEntry : str := union_pat [c_pat k_ptrac_filter_Entry].

(** /repo/src/pymcnp/inp/sdef/tme_1/_entry.py:4-9: the subclasses in definition order, and the pattern
    that _symbol.py:40-44 makes of theirs, longest class name first. *)
Definition f_sdef_tme_1_TmeEntry_1 : list cls := [k_sdef_tme_1_Embedded].
Definition pat_sdef_tme_1_TmeEntry_1 : str := union_pat [c_pat k_sdef_tme_1_Embedded].

(** /repo/src/pymcnp/inp/surface/Arb.py:8-1294 *)
Definition k_surface_Arb : cls :=
  {| c_name := "surface_Arb"; c_kind := KOption; c_kw := L "arb";
     c_pat := L "\Aarb( " ++ slice 2 2 pat_number ++ L ")( " ++ slice 2 2 pat_number ++ L ")( " ++ slice 2 2 pat_number ++ L ")( " ++ slice 2 2 pat_number ++ L ")( " ++ slice 2 2 pat_number ++ L ")( " ++ slice 2 2 pat_number ++ L ")( " ++ slice 2 2 pat_number ++ L ")( " ++ slice 2 2 pat_number ++ L ")( " ++ slice 2 2 pat_number ++ L ")( " ++ slice 2 2 pat_number ++ L ")( " ++ slice 2 2 pat_number ++ L ")( " ++ slice 2 2 pat_number ++ L ")( " ++ slice 2 2 pat_number ++ L ")( " ++ slice 2 2 pat_number ++ L ")( " ++ slice 2 2 pat_number ++ L ")( " ++ slice 2 2 pat_number ++ L ")( " ++ slice 2 2 pat_number ++ L ")( " ++ slice 2 2 pat_number ++ L ")( " ++ slice 2 2 pat_number ++ L ")( " ++ slice 2 2 pat_number ++ L ")( " ++ slice 2 2 pat_number ++ L ")( " ++ slice 2 2 pat_number ++ L ")( " ++ slice 2 2 pat_number ++ L ")( " ++ slice 2 2 pat_number ++ L ")( " ++ slice 2 2 pat_number ++ L ")( " ++ slice 2 2 pat_number ++ L ")( " ++ slice 2 2 pat_number ++ L ")( " ++ slice 2 2 pat_number ++ L ")( " ++ slice 2 2 pat_number ++ L ")( " ++ slice 2 2 pat_number ++ L ")\Z";
     c_attrs := [{| a_name := "ax"; a_ty := One TReal;
          a_checks := [(BIsNone EX)] |};
       {| a_name := "ay"; a_ty := One TReal;
          a_checks := [(BIsNone EX)] |};
       {| a_name := "az"; a_ty := One TReal;
          a_checks := [(BIsNone EX)] |};
       {| a_name := "bx"; a_ty := One TReal;
          a_checks := [(BIsNone EX)] |};
       {| a_name := "by"; a_ty := One TReal;
          a_checks := [(BIsNone EX)] |};
       {| a_name := "bz"; a_ty := One TReal;
          a_checks := [(BIsNone EX)] |};
       {| a_name := "cx"; a_ty := One TReal;
          a_checks := [(BIsNone EX)] |};
       {| a_name := "cy"; a_ty := One TReal;
          a_checks := [(BIsNone EX)] |};
       {| a_name := "cz"; a_ty := One TReal;
          a_checks := [(BIsNone EX)] |};
       {| a_name := "dx"; a_ty := One TReal;
          a_checks := [(BIsNone EX)] |};
       {| a_name := "dy"; a_ty := One TReal;
          a_checks := [(BIsNone EX)] |};
       {| a_name := "dz"; a_ty := One TReal;
          a_checks := [(BIsNone EX)] |};
       {| a_name := "ex"; a_ty := One TReal;
          a_checks := [(BIsNone EX)] |};
       {| a_name := "ey"; a_ty := One TReal;
          a_checks := [(BIsNone EX)] |};
       {| a_name := "ez"; a_ty := One TReal;
          a_checks := [(BIsNone EX)] |};
       {| a_name := "fx"; a_ty := One TReal;
          a_checks := [(BIsNone EX)] |};
       {| a_name := "fy"; a_ty := One TReal;
          a_checks := [(BIsNone EX)] |};
       {| a_name := "fz"; a_ty := One TReal;
          a_checks := [(BIsNone EX)] |};
       {| a_name := "gx"; a_ty := One TReal;
          a_checks := [(BIsNone EX)] |};
       {| a_name := "gy"; a_ty := One TReal;
          a_checks := [(BIsNone EX)] |};
       {| a_name := "gz"; a_ty := One TReal;
          a_checks := [(BIsNone EX)] |};
       {| a_name := "hx"; a_ty := One TReal;
          a_checks := [(BIsNone EX)] |};
       {| a_name := "hy"; a_ty := One TReal;
          a_checks := [(BIsNone EX)] |};
       {| a_name := "hz"; a_ty := One TReal;
          a_checks := [(BIsNone EX)] |};
       {| a_name := "n1"; a_ty := One TReal;
          a_checks := [(BIsNone EX)] |};
       {| a_name := "n2"; a_ty := One TReal;
          a_checks := [(BIsNone EX)] |};
       {| a_name := "n3"; a_ty := One TReal;
          a_checks := [(BIsNone EX)] |};
       {| a_name := "n4"; a_ty := One TReal;
          a_checks := [(BIsNone EX)] |};
       {| a_name := "n5"; a_ty := One TReal;
          a_checks := [(BIsNone EX)] |};
       {| a_name := "n6"; a_ty := One TReal;
          a_checks := [(BIsNone EX)] |}] |}.

(** /repo/src/pymcnp/inp/surface/Box.py:11-566 *)
Definition k_surface_Box : cls :=
  {| c_name := "surface_Box"; c_kind := KOption; c_kw := L "box";
     c_pat := L "\Abox( " ++ slice 2 2 pat_number ++ L ")( " ++ slice 2 2 pat_number ++ L ")( " ++ slice 2 2 pat_number ++ L ")( " ++ slice 2 2 pat_number ++ L ")( " ++ slice 2 2 pat_number ++ L ")( " ++ slice 2 2 pat_number ++ L ")( " ++ slice 2 2 pat_number ++ L ")( " ++ slice 2 2 pat_number ++ L ")( " ++ slice 2 2 pat_number ++ L ")( " ++ slice 2 2 pat_number ++ L ")( " ++ slice 2 2 pat_number ++ L ")( " ++ slice 2 2 pat_number ++ L ")\Z";
     c_attrs := [{| a_name := "vx"; a_ty := One TReal;
          a_checks := [(BIsNone EX)] |};
       {| a_name := "vy"; a_ty := One TReal;
          a_checks := [(BIsNone EX)] |};
       {| a_name := "vz"; a_ty := One TReal;
          a_checks := [(BIsNone EX)] |};
       {| a_name := "a1x"; a_ty := One TReal;
          a_checks := [(BIsNone EX)] |};
       {| a_name := "a1y"; a_ty := One TReal;
          a_checks := [(BIsNone EX)] |};
       {| a_name := "a1z"; a_ty := One TReal;
          a_checks := [(BIsNone EX)] |};
       {| a_name := "a2x"; a_ty := One TReal;
          a_checks := [(BIsNone EX)] |};
       {| a_name := "a2y"; a_ty := One TReal;
          a_checks := [(BIsNone EX)] |};
       {| a_name := "a2z"; a_ty := One TReal;
          a_checks := [(BIsNone EX)] |};
       {| a_name := "a3x"; a_ty := One TReal;
          a_checks := [(BIsNone EX)] |};
       {| a_name := "a3y"; a_ty := One TReal;
          a_checks := [(BIsNone EX)] |};
       {| a_name := "a3z"; a_ty := One TReal;
          a_checks := [(BIsNone EX)] |}] |}.

(** /repo/src/pymcnp/inp/surface/C_x.py:11-172 *)
Definition k_surface_C_x : cls :=
  {| c_name := "surface_C_x"; c_kind := KOption; c_kw := L "c/x";
     c_pat := L "\Ac/x( " ++ slice 2 2 pat_number ++ L ")( " ++ slice 2 2 pat_number ++ L ")( " ++ slice 2 2 pat_number ++ L ")\Z";
     c_attrs := [{| a_name := "y"; a_ty := One TReal;
          a_checks := [(BIsNone EX)] |};
       {| a_name := "z"; a_ty := One TReal;
          a_checks := [(BIsNone EX)] |};
       {| a_name := "r"; a_ty := One TReal;
          a_checks := [(BIsNone EX)] |}] |}.

(** /repo/src/pymcnp/inp/surface/C_y.py:11-172 *)
Definition k_surface_C_y : cls :=
  {| c_name := "surface_C_y"; c_kind := KOption; c_kw := L "c/y";
     c_pat := L "\Ac/y( " ++ slice 2 2 pat_number ++ L ")( " ++ slice 2 2 pat_number ++ L ")( " ++ slice 2 2 pat_number ++ L ")\Z";
     c_attrs := [{| a_name := "x"; a_ty := One TReal;
          a_checks := [(BIsNone EX)] |};
       {| a_name := "z"; a_ty := One TReal;
          a_checks := [(BIsNone EX)] |};
       {| a_name := "r"; a_ty := One TReal;
          a_checks := [(BIsNone EX)] |}] |}.

(** /repo/src/pymcnp/inp/surface/C_z.py:11-172 *)
Definition k_surface_C_z : cls :=
  {| c_name := "surface_C_z"; c_kind := KOption; c_kw := L "c/z";
     c_pat := L "\Ac/z( " ++ slice 2 2 pat_number ++ L ")( " ++ slice 2 2 pat_number ++ L ")( " ++ slice 2 2 pat_number ++ L ")\Z";
     c_attrs := [{| a_name := "x"; a_ty := One TReal;
          a_checks := [(BIsNone EX)] |};
       {| a_name := "y"; a_ty := One TReal;
          a_checks := [(BIsNone EX)] |};
       {| a_name := "r"; a_ty := One TReal;
          a_checks := [(BIsNone EX)] |}] |}.

(** /repo/src/pymcnp/inp/surface/Cx.py:11-89 *)
Definition k_surface_Cx : cls :=
  {| c_name := "surface_Cx"; c_kind := KOption; c_kw := L "cx";
     c_pat := L "\Acx( " ++ slice 2 2 pat_number ++ L ")\Z";
     c_attrs := [{| a_name := "r"; a_ty := One TReal;
          a_checks := [(BIsNone EX)] |}] |}.

(** /repo/src/pymcnp/inp/surface/Cy.py:11-89 *)
Definition k_surface_Cy : cls :=
  {| c_name := "surface_Cy"; c_kind := KOption; c_kw := L "cy";
     c_pat := L "\Acy( " ++ slice 2 2 pat_number ++ L ")\Z";
     c_attrs := [{| a_name := "r"; a_ty := One TReal;
          a_checks := [(BIsNone EX)] |}] |}.

(** /repo/src/pymcnp/inp/surface/Cz.py:9-86 *)
Definition k_surface_Cz : cls :=
  {| c_name := "surface_Cz"; c_kind := KOption; c_kw := L "cz";
     c_pat := L "\Acz( " ++ slice 2 2 pat_number ++ L ")\Z";
     c_attrs := [{| a_name := "r"; a_ty := One TReal;
          a_checks := [(BIsNone EX)] |}] |}.

(** /repo/src/pymcnp/inp/surface/Ell.py:11-370 *)
Definition k_surface_Ell : cls :=
  {| c_name := "surface_Ell"; c_kind := KOption; c_kw := L "ell";
     c_pat := L "\Aell( " ++ slice 2 2 pat_number ++ L ")( " ++ slice 2 2 pat_number ++ L ")( " ++ slice 2 2 pat_number ++ L ")( " ++ slice 2 2 pat_number ++ L ")( " ++ slice 2 2 pat_number ++ L ")( " ++ slice 2 2 pat_number ++ L ")( " ++ slice 2 2 pat_number ++ L ")\Z";
     c_attrs := [{| a_name := "v1x"; a_ty := One TReal;
          a_checks := [(BIsNone EX)] |};
       {| a_name := "v1y"; a_ty := One TReal;
          a_checks := [(BIsNone EX)] |};
       {| a_name := "v1z"; a_ty := One TReal;
          a_checks := [(BIsNone EX)] |};
       {| a_name := "v2x"; a_ty := One TReal;
          a_checks := [(BIsNone EX)] |};
       {| a_name := "v2y"; a_ty := One TReal;
          a_checks := [(BIsNone EX)] |};
       {| a_name := "v2z"; a_ty := One TReal;
          a_checks := [(BIsNone EX)] |};
       {| a_name := "rm"; a_ty := One TReal;
          a_checks := [(BIsNone EX)] |}] |}.

(** /repo/src/pymcnp/inp/surface/Gq.py:8-454 *)
Definition k_surface_Gq : cls :=
  {| c_name := "surface_Gq"; c_kind := KOption; c_kw := L "gq";
     c_pat := L "\Agq( " ++ slice 2 2 pat_number ++ L ")( " ++ slice 2 2 pat_number ++ L ")( " ++ slice 2 2 pat_number ++ L ")( " ++ slice 2 2 pat_number ++ L ")( " ++ slice 2 2 pat_number ++ L ")( " ++ slice 2 2 pat_number ++ L ")( " ++ slice 2 2 pat_number ++ L ")( " ++ slice 2 2 pat_number ++ L ")( " ++ slice 2 2 pat_number ++ L ")( " ++ slice 2 2 pat_number ++ L ")\Z";
     c_attrs := [{| a_name := "a"; a_ty := One TReal;
          a_checks := [(BIsNone EX)] |};
       {| a_name := "b"; a_ty := One TReal;
          a_checks := [(BIsNone EX)] |};
       {| a_name := "c"; a_ty := One TReal;
          a_checks := [(BIsNone EX)] |};
       {| a_name := "d"; a_ty := One TReal;
          a_checks := [(BIsNone EX)] |};
       {| a_name := "e"; a_ty := One TReal;
          a_checks := [(BIsNone EX)] |};
       {| a_name := "f"; a_ty := One TReal;
          a_checks := [(BIsNone EX)] |};
       {| a_name := "g"; a_ty := One TReal;
          a_checks := [(BIsNone EX)] |};
       {| a_name := "h"; a_ty := One TReal;
          a_checks := [(BIsNone EX)] |};
       {| a_name := "j"; a_ty := One TReal;
          a_checks := [(BIsNone EX)] |};
       {| a_name := "k"; a_ty := One TReal;
          a_checks := [(BIsNone EX)] |}] |}.

(** /repo/src/pymcnp/inp/surface/K_x.py:11-264 *)
Definition k_surface_K_x : cls :=
  {| c_name := "surface_K_x"; c_kind := KOption; c_kw := L "k/x";
     c_pat := L "\Ak/x( " ++ slice 2 2 pat_number ++ L ")( " ++ slice 2 2 pat_number ++ L ")( " ++ slice 2 2 pat_number ++ L ")( " ++ slice 2 2 pat_number ++ L ")( " ++ slice 2 2 pat_number ++ L ")\Z";
     c_attrs := [{| a_name := "x"; a_ty := One TReal;
          a_checks := [(BIsNone EX)] |};
       {| a_name := "y"; a_ty := One TReal;
          a_checks := [(BIsNone EX)] |};
       {| a_name := "z"; a_ty := One TReal;
          a_checks := [(BIsNone EX)] |};
       {| a_name := "t_squared"; a_ty := One TReal;
          a_checks := [(BIsNone EX)] |};
       {| a_name := "plusminus_1"; a_ty := One TReal;
          a_checks := [(BIsNone EX)] |}] |}.

(** /repo/src/pymcnp/inp/surface/K_y.py:11-264 *)
Definition k_surface_K_y : cls :=
  {| c_name := "surface_K_y"; c_kind := KOption; c_kw := L "k/y";
     c_pat := L "\Ak/y( " ++ slice 2 2 pat_number ++ L ")( " ++ slice 2 2 pat_number ++ L ")( " ++ slice 2 2 pat_number ++ L ")( " ++ slice 2 2 pat_number ++ L ")( " ++ slice 2 2 pat_number ++ L ")\Z";
     c_attrs := [{| a_name := "x"; a_ty := One TReal;
          a_checks := [(BIsNone EX)] |};
       {| a_name := "y"; a_ty := One TReal;
          a_checks := [(BIsNone EX)] |};
       {| a_name := "z"; a_ty := One TReal;
          a_checks := [(BIsNone EX)] |};
       {| a_name := "t_squared"; a_ty := One TReal;
          a_checks := [(BIsNone EX)] |};
       {| a_name := "plusminus_1"; a_ty := One TReal;
          a_checks := [(BIsNone EX)] |}] |}.

(** /repo/src/pymcnp/inp/surface/K_z.py:11-263 *)
Definition k_surface_K_z : cls :=
  {| c_name := "surface_K_z"; c_kind := KOption; c_kw := L "k/z";
     c_pat := L "\Ak/z( " ++ slice 2 2 pat_number ++ L ")( " ++ slice 2 2 pat_number ++ L ")( " ++ slice 2 2 pat_number ++ L ")( " ++ slice 2 2 pat_number ++ L ")( " ++ slice 2 2 pat_number ++ L ")\Z";
     c_attrs := [{| a_name := "x"; a_ty := One TReal;
          a_checks := [(BIsNone EX)] |};
       {| a_name := "y"; a_ty := One TReal;
          a_checks := [(BIsNone EX)] |};
       {| a_name := "z"; a_ty := One TReal;
          a_checks := [(BIsNone EX)] |};
       {| a_name := "t_squared"; a_ty := One TReal;
          a_checks := [(BIsNone EX)] |};
       {| a_name := "plusminus_1"; a_ty := One TReal;
          a_checks := [(BIsNone EX)] |}] |}.

(** /repo/src/pymcnp/inp/surface/Kx.py:11-172 *)
Definition k_surface_Kx : cls :=
  {| c_name := "surface_Kx"; c_kind := KOption; c_kw := L "kx";
     c_pat := L "\Akx( " ++ slice 2 2 pat_number ++ L ")( " ++ slice 2 2 pat_number ++ L ")( " ++ slice 2 2 pat_number ++ L ")\Z";
     c_attrs := [{| a_name := "x"; a_ty := One TReal;
          a_checks := [(BIsNone EX)] |};
       {| a_name := "t_squared"; a_ty := One TReal;
          a_checks := [(BIsNone EX)] |};
       {| a_name := "plusminus_1"; a_ty := One TReal;
          a_checks := [(BIsNone EX)] |}] |}.

(** /repo/src/pymcnp/inp/surface/Ky.py:11-172 *)
Definition k_surface_Ky : cls :=
  {| c_name := "surface_Ky"; c_kind := KOption; c_kw := L "ky";
     c_pat := L "\Aky( " ++ slice 2 2 pat_number ++ L ")( " ++ slice 2 2 pat_number ++ L ")( " ++ slice 2 2 pat_number ++ L ")\Z";
     c_attrs := [{| a_name := "y"; a_ty := One TReal;
          a_checks := [(BIsNone EX)] |};
       {| a_name := "t_squared"; a_ty := One TReal;
          a_checks := [(BIsNone EX)] |};
       {| a_name := "plusminus_1"; a_ty := One TReal;
          a_checks := [(BIsNone EX)] |}] |}.

(** /repo/src/pymcnp/inp/surface/Kz.py:11-171 *)
Definition k_surface_Kz : cls :=
  {| c_name := "surface_Kz"; c_kind := KOption; c_kw := L "kz";
     c_pat := L "\Akz( " ++ slice 2 2 pat_number ++ L ")( " ++ slice 2 2 pat_number ++ L ")( " ++ slice 2 2 pat_number ++ L ")\Z";
     c_attrs := [{| a_name := "z"; a_ty := One TReal;
          a_checks := [(BIsNone EX)] |};
       {| a_name := "t_squared"; a_ty := One TReal;
          a_checks := [(BIsNone EX)] |};
       {| a_name := "plusminus_1"; a_ty := One TReal;
          a_checks := [(BIsNone EX)] |}] |}.

(** /repo/src/pymcnp/inp/surface/P_0.py:9-209 *)
Definition k_surface_P_0 : cls :=
  {| c_name := "surface_P_0"; c_kind := KOption; c_kw := L "p";
     c_pat := L "\Ap( " ++ slice 2 2 pat_number ++ L ")( " ++ slice 2 2 pat_number ++ L ")( " ++ slice 2 2 pat_number ++ L ")( " ++ slice 2 2 pat_number ++ L ")\Z";
     c_attrs := [{| a_name := "a"; a_ty := One TReal;
          a_checks := [(BIsNone EX)] |};
       {| a_name := "b"; a_ty := One TReal;
          a_checks := [(BIsNone EX)] |};
       {| a_name := "c"; a_ty := One TReal;
          a_checks := [(BIsNone EX)] |};
       {| a_name := "d"; a_ty := One TReal;
          a_checks := [(BIsNone EX)] |}] |}.

(** /repo/src/pymcnp/inp/surface/P_1.py:11-587 *)
Definition k_surface_P_1 : cls :=
  {| c_name := "surface_P_1"; c_kind := KOption; c_kw := L "p";
     c_pat := L "\Ap( " ++ slice 2 2 pat_number ++ L ")( " ++ slice 2 2 pat_number ++ L ")( " ++ slice 2 2 pat_number ++ L ")( " ++ slice 2 2 pat_number ++ L ")( " ++ slice 2 2 pat_number ++ L ")( " ++ slice 2 2 pat_number ++ L ")( " ++ slice 2 2 pat_number ++ L ")( " ++ slice 2 2 pat_number ++ L ")( " ++ slice 2 2 pat_number ++ L ")\Z";
     c_attrs := [{| a_name := "x1"; a_ty := One TReal;
          a_checks := [(BIsNone EX); (BExt "P_1.x1")] |};
       {| a_name := "y1"; a_ty := One TReal;
          a_checks := [(BIsNone EX); (BExt "P_1.y1")] |};
       {| a_name := "z1"; a_ty := One TReal;
          a_checks := [(BIsNone EX); (BExt "P_1.z1")] |};
       {| a_name := "x2"; a_ty := One TReal;
          a_checks := [(BIsNone EX); (BExt "P_1.x2")] |};
       {| a_name := "y2"; a_ty := One TReal;
          a_checks := [(BIsNone EX); (BExt "P_1.y2")] |};
       {| a_name := "z2"; a_ty := One TReal;
          a_checks := [(BIsNone EX); (BExt "P_1.z2")] |};
       {| a_name := "x3"; a_ty := One TReal;
          a_checks := [(BIsNone EX); (BExt "P_1.x3")] |};
       {| a_name := "y3"; a_ty := One TReal;
          a_checks := [(BIsNone EX); (BExt "P_1.y3")] |};
       {| a_name := "z3"; a_ty := One TReal;
          a_checks := [(BIsNone EX); (BExt "P_1.z3")] |}] |}.

(** /repo/src/pymcnp/inp/surface/Px.py:9-86 *)
Definition k_surface_Px : cls :=
  {| c_name := "surface_Px"; c_kind := KOption; c_kw := L "px";
     c_pat := L "\Apx( " ++ slice 2 2 pat_number ++ L ")\Z";
     c_attrs := [{| a_name := "d"; a_ty := One TReal;
          a_checks := [(BIsNone EX)] |}] |}.

(** /repo/src/pymcnp/inp/surface/Py.py:9-86 *)
Definition k_surface_Py : cls :=
  {| c_name := "surface_Py"; c_kind := KOption; c_kw := L "py";
     c_pat := L "\Apy( " ++ slice 2 2 pat_number ++ L ")\Z";
     c_attrs := [{| a_name := "d"; a_ty := One TReal;
          a_checks := [(BIsNone EX)] |}] |}.

(** /repo/src/pymcnp/inp/surface/Pz.py:9-86 *)
Definition k_surface_Pz : cls :=
  {| c_name := "surface_Pz"; c_kind := KOption; c_kw := L "pz";
     c_pat := L "\Apz( " ++ slice 2 2 pat_number ++ L ")\Z";
     c_attrs := [{| a_name := "d"; a_ty := One TReal;
          a_checks := [(BIsNone EX)] |}] |}.

(** /repo/src/pymcnp/inp/surface/Rcc.py:11-360 *)
Definition k_surface_Rcc : cls :=
  {| c_name := "surface_Rcc"; c_kind := KOption; c_kw := L "rcc";
     c_pat := L "\Arcc( " ++ slice 2 2 pat_number ++ L ")( " ++ slice 2 2 pat_number ++ L ")( " ++ slice 2 2 pat_number ++ L ")( " ++ slice 2 2 pat_number ++ L ")( " ++ slice 2 2 pat_number ++ L ")( " ++ slice 2 2 pat_number ++ L ")( " ++ slice 2 2 pat_number ++ L ")\Z";
     c_attrs := [{| a_name := "vx"; a_ty := One TReal;
          a_checks := [(BIsNone EX)] |};
       {| a_name := "vy"; a_ty := One TReal;
          a_checks := [(BIsNone EX)] |};
       {| a_name := "vz"; a_ty := One TReal;
          a_checks := [(BIsNone EX)] |};
       {| a_name := "hx"; a_ty := One TReal;
          a_checks := [(BIsNone EX)] |};
       {| a_name := "hy"; a_ty := One TReal;
          a_checks := [(BIsNone EX)] |};
       {| a_name := "hz"; a_ty := One TReal;
          a_checks := [(BIsNone EX)] |};
       {| a_name := "r"; a_ty := One TReal;
          a_checks := [(BIsNone EX)] |}] |}.

(** /repo/src/pymcnp/inp/surface/Rec.py:11-560 *)
Definition k_surface_Rec : cls :=
  {| c_name := "surface_Rec"; c_kind := KOption; c_kw := L "rec";
     c_pat := L "\Arec( " ++ slice 2 2 pat_number ++ L ")( " ++ slice 2 2 pat_number ++ L ")( " ++ slice 2 2 pat_number ++ L ")( " ++ slice 2 2 pat_number ++ L ")( " ++ slice 2 2 pat_number ++ L ")( " ++ slice 2 2 pat_number ++ L ")( " ++ slice 2 2 pat_number ++ L ")( " ++ slice 2 2 pat_number ++ L ")( " ++ slice 2 2 pat_number ++ L ")( " ++ slice 2 2 pat_number ++ L ")( " ++ slice 2 2 pat_number ++ L ")?( " ++ slice 2 2 pat_number ++ L ")?\Z";
     c_attrs := [{| a_name := "vx"; a_ty := One TReal;
          a_checks := [(BIsNone EX)] |};
       {| a_name := "vy"; a_ty := One TReal;
          a_checks := [(BIsNone EX)] |};
       {| a_name := "vz"; a_ty := One TReal;
          a_checks := [(BIsNone EX)] |};
       {| a_name := "hx"; a_ty := One TReal;
          a_checks := [(BIsNone EX)] |};
       {| a_name := "hy"; a_ty := One TReal;
          a_checks := [(BIsNone EX)] |};
       {| a_name := "hz"; a_ty := One TReal;
          a_checks := [(BIsNone EX)] |};
       {| a_name := "v1x"; a_ty := One TReal;
          a_checks := [(BIsNone EX)] |};
       {| a_name := "v1y"; a_ty := One TReal;
          a_checks := [(BIsNone EX)] |};
       {| a_name := "v1z"; a_ty := One TReal;
          a_checks := [(BIsNone EX)] |};
       {| a_name := "v2x"; a_ty := One TReal;
          a_checks := [(BIsNone EX)] |};
       {| a_name := "v2y"; a_ty := One TReal;
          a_checks := [] |};
       {| a_name := "v2z"; a_ty := One TReal;
          a_checks := [] |}] |}.

(** /repo/src/pymcnp/inp/surface/Rhp.py:12-679 *)
Definition k_surface_Rhp : cls :=
  {| c_name := "surface_Rhp"; c_kind := KOption; c_kw := L "rhp";
     c_pat := L "\Arhp( " ++ slice 2 2 pat_number ++ L ")( " ++ slice 2 2 pat_number ++ L ")( " ++ slice 2 2 pat_number ++ L ")( " ++ slice 2 2 pat_number ++ L ")( " ++ slice 2 2 pat_number ++ L ")( " ++ slice 2 2 pat_number ++ L ")( " ++ slice 2 2 pat_number ++ L ")( " ++ slice 2 2 pat_number ++ L ")( " ++ slice 2 2 pat_number ++ L ")( " ++ slice 2 2 pat_number ++ L ")?( " ++ slice 2 2 pat_number ++ L ")?( " ++ slice 2 2 pat_number ++ L ")?( " ++ slice 2 2 pat_number ++ L ")?( " ++ slice 2 2 pat_number ++ L ")?( " ++ slice 2 2 pat_number ++ L ")?\Z";
     c_attrs := [{| a_name := "vx"; a_ty := One TReal;
          a_checks := [(BIsNone EX)] |};
       {| a_name := "vy"; a_ty := One TReal;
          a_checks := [(BIsNone EX)] |};
       {| a_name := "vz"; a_ty := One TReal;
          a_checks := [(BIsNone EX)] |};
       {| a_name := "hx"; a_ty := One TReal;
          a_checks := [(BIsNone EX)] |};
       {| a_name := "hy"; a_ty := One TReal;
          a_checks := [(BIsNone EX)] |};
       {| a_name := "hz"; a_ty := One TReal;
          a_checks := [(BIsNone EX)] |};
       {| a_name := "r1"; a_ty := One TReal;
          a_checks := [(BIsNone EX)] |};
       {| a_name := "r2"; a_ty := One TReal;
          a_checks := [(BIsNone EX)] |};
       {| a_name := "r3"; a_ty := One TReal;
          a_checks := [(BIsNone EX)] |};
       {| a_name := "s1"; a_ty := One TReal;
          a_checks := [] |};
       {| a_name := "s2"; a_ty := One TReal;
          a_checks := [] |};
       {| a_name := "s3"; a_ty := One TReal;
          a_checks := [] |};
       {| a_name := "t1"; a_ty := One TReal;
          a_checks := [] |};
       {| a_name := "t2"; a_ty := One TReal;
          a_checks := [] |};
       {| a_name := "t3"; a_ty := One TReal;
          a_checks := [] |}] |}.

(** /repo/src/pymcnp/inp/surface/Rpp.py:9-303 *)
Definition k_surface_Rpp : cls :=
  {| c_name := "surface_Rpp"; c_kind := KOption; c_kw := L "rpp";
     c_pat := L "\Arpp( " ++ slice 2 2 pat_number ++ L ")( " ++ slice 2 2 pat_number ++ L ")( " ++ slice 2 2 pat_number ++ L ")( " ++ slice 2 2 pat_number ++ L ")( " ++ slice 2 2 pat_number ++ L ")?( " ++ slice 2 2 pat_number ++ L ")?\Z";
     c_attrs := [{| a_name := "xmin"; a_ty := One TReal;
          a_checks := [(BIsNone EX)] |};
       {| a_name := "xmax"; a_ty := One TReal;
          a_checks := [(BIsNone EX)] |};
       {| a_name := "ymin"; a_ty := One TReal;
          a_checks := [(BIsNone EX)] |};
       {| a_name := "ymax"; a_ty := One TReal;
          a_checks := [(BIsNone EX)] |};
       {| a_name := "zmin"; a_ty := One TReal;
          a_checks := [] |};
       {| a_name := "zmax"; a_ty := One TReal;
          a_checks := [] |}] |}.

(** /repo/src/pymcnp/inp/surface/S.py:11-212 *)
Definition k_surface_S : cls :=
  {| c_name := "surface_S"; c_kind := KOption; c_kw := L "s";
     c_pat := L "\As( " ++ slice 2 2 pat_number ++ L ")( " ++ slice 2 2 pat_number ++ L ")( " ++ slice 2 2 pat_number ++ L ")( " ++ slice 2 2 pat_number ++ L ")\Z";
     c_attrs := [{| a_name := "x"; a_ty := One TReal;
          a_checks := [(BIsNone EX)] |};
       {| a_name := "y"; a_ty := One TReal;
          a_checks := [(BIsNone EX)] |};
       {| a_name := "z"; a_ty := One TReal;
          a_checks := [(BIsNone EX)] |};
       {| a_name := "r"; a_ty := One TReal;
          a_checks := [(BIsNone EX)] |}] |}.

(** /repo/src/pymcnp/inp/surface/So.py:9-86 *)
Definition k_surface_So : cls :=
  {| c_name := "surface_So"; c_kind := KOption; c_kw := L "so";
     c_pat := L "\Aso( " ++ slice 2 2 pat_number ++ L ")\Z";
     c_attrs := [{| a_name := "r"; a_ty := One TReal;
          a_checks := [(BIsNone EX)] |}] |}.

(** /repo/src/pymcnp/inp/surface/Sph.py:11-212 *)
Definition k_surface_Sph : cls :=
  {| c_name := "surface_Sph"; c_kind := KOption; c_kw := L "sph";
     c_pat := L "\Asph( " ++ slice 2 2 pat_number ++ L ")( " ++ slice 2 2 pat_number ++ L ")( " ++ slice 2 2 pat_number ++ L ")( " ++ slice 2 2 pat_number ++ L ")\Z";
     c_attrs := [{| a_name := "vx"; a_ty := One TReal;
          a_checks := [(BIsNone EX)] |};
       {| a_name := "vy"; a_ty := One TReal;
          a_checks := [(BIsNone EX)] |};
       {| a_name := "vz"; a_ty := One TReal;
          a_checks := [(BIsNone EX)] |};
       {| a_name := "r"; a_ty := One TReal;
          a_checks := [(BIsNone EX)] |}] |}.

(** /repo/src/pymcnp/inp/surface/Sq.py:8-454 *)
Definition k_surface_Sq : cls :=
  {| c_name := "surface_Sq"; c_kind := KOption; c_kw := L "sq";
     c_pat := L "\Asq( " ++ slice 2 2 pat_number ++ L ")( " ++ slice 2 2 pat_number ++ L ")( " ++ slice 2 2 pat_number ++ L ")( " ++ slice 2 2 pat_number ++ L ")( " ++ slice 2 2 pat_number ++ L ")( " ++ slice 2 2 pat_number ++ L ")( " ++ slice 2 2 pat_number ++ L ")( " ++ slice 2 2 pat_number ++ L ")( " ++ slice 2 2 pat_number ++ L ")( " ++ slice 2 2 pat_number ++ L ")\Z";
     c_attrs := [{| a_name := "a"; a_ty := One TReal;
          a_checks := [(BIsNone EX)] |};
       {| a_name := "b"; a_ty := One TReal;
          a_checks := [(BIsNone EX)] |};
       {| a_name := "c"; a_ty := One TReal;
          a_checks := [(BIsNone EX)] |};
       {| a_name := "d"; a_ty := One TReal;
          a_checks := [(BIsNone EX)] |};
       {| a_name := "e"; a_ty := One TReal;
          a_checks := [(BIsNone EX)] |};
       {| a_name := "f"; a_ty := One TReal;
          a_checks := [(BIsNone EX)] |};
       {| a_name := "g"; a_ty := One TReal;
          a_checks := [(BIsNone EX)] |};
       {| a_name := "x"; a_ty := One TReal;
          a_checks := [(BIsNone EX)] |};
       {| a_name := "y"; a_ty := One TReal;
          a_checks := [(BIsNone EX)] |};
       {| a_name := "z"; a_ty := One TReal;
          a_checks := [(BIsNone EX)] |}] |}.

(** /repo/src/pymcnp/inp/surface/Sx.py:11-130 *)
Definition k_surface_Sx : cls :=
  {| c_name := "surface_Sx"; c_kind := KOption; c_kw := L "sx";
     c_pat := L "\Asx( " ++ slice 2 2 pat_number ++ L ")( " ++ slice 2 2 pat_number ++ L ")\Z";
     c_attrs := [{| a_name := "x"; a_ty := One TReal;
          a_checks := [(BIsNone EX)] |};
       {| a_name := "r"; a_ty := One TReal;
          a_checks := [(BIsNone EX)] |}] |}.

(** /repo/src/pymcnp/inp/surface/Sy.py:11-131 *)
Definition k_surface_Sy : cls :=
  {| c_name := "surface_Sy"; c_kind := KOption; c_kw := L "sy";
     c_pat := L "\Asy( " ++ slice 2 2 pat_number ++ L ")( " ++ slice 2 2 pat_number ++ L ")\Z";
     c_attrs := [{| a_name := "y"; a_ty := One TReal;
          a_checks := [(BIsNone EX)] |};
       {| a_name := "r"; a_ty := One TReal;
          a_checks := [(BIsNone EX)] |}] |}.

(** /repo/src/pymcnp/inp/surface/Sz.py:11-130 *)
Definition k_surface_Sz : cls :=
  {| c_name := "surface_Sz"; c_kind := KOption; c_kw := L "sz";
     c_pat := L "\Asz( " ++ slice 2 2 pat_number ++ L ")( " ++ slice 2 2 pat_number ++ L ")\Z";
     c_attrs := [{| a_name := "z"; a_ty := One TReal;
          a_checks := [(BIsNone EX)] |};
       {| a_name := "r"; a_ty := One TReal;
          a_checks := [(BIsNone EX)] |}] |}.

(** /repo/src/pymcnp/inp/surface/Trc.py:11-395 *)
Definition k_surface_Trc : cls :=
  {| c_name := "surface_Trc"; c_kind := KOption; c_kw := L "trc";
     c_pat := L "\Atrc( " ++ slice 2 2 pat_number ++ L ")( " ++ slice 2 2 pat_number ++ L ")( " ++ slice 2 2 pat_number ++ L ")( " ++ slice 2 2 pat_number ++ L ")( " ++ slice 2 2 pat_number ++ L ")( " ++ slice 2 2 pat_number ++ L ")( " ++ slice 2 2 pat_number ++ L ")( " ++ slice 2 2 pat_number ++ L ")\Z";
     c_attrs := [{| a_name := "vx"; a_ty := One TReal;
          a_checks := [(BIsNone EX)] |};
       {| a_name := "vy"; a_ty := One TReal;
          a_checks := [(BIsNone EX)] |};
       {| a_name := "vz"; a_ty := One TReal;
          a_checks := [(BIsNone EX)] |};
       {| a_name := "hx"; a_ty := One TReal;
          a_checks := [(BIsNone EX)] |};
       {| a_name := "hy"; a_ty := One TReal;
          a_checks := [(BIsNone EX)] |};
       {| a_name := "hz"; a_ty := One TReal;
          a_checks := [(BIsNone EX)] |};
       {| a_name := "r1"; a_ty := One TReal;
          a_checks := [(BIsNone EX)] |};
       {| a_name := "r2"; a_ty := One TReal;
          a_checks := [(BIsNone EX)] |}] |}.

(** /repo/src/pymcnp/inp/surface/Tx.py:11-306 *)
Definition k_surface_Tx : cls :=
  {| c_name := "surface_Tx"; c_kind := KOption; c_kw := L "tx";
     c_pat := L "\Atx( " ++ slice 2 2 pat_number ++ L ")( " ++ slice 2 2 pat_number ++ L ")( " ++ slice 2 2 pat_number ++ L ")( " ++ slice 2 2 pat_number ++ L ")( " ++ slice 2 2 pat_number ++ L ")( " ++ slice 2 2 pat_number ++ L ")\Z";
     c_attrs := [{| a_name := "x"; a_ty := One TReal;
          a_checks := [(BIsNone EX)] |};
       {| a_name := "y"; a_ty := One TReal;
          a_checks := [(BIsNone EX)] |};
       {| a_name := "z"; a_ty := One TReal;
          a_checks := [(BIsNone EX)] |};
       {| a_name := "a"; a_ty := One TReal;
          a_checks := [(BIsNone EX)] |};
       {| a_name := "b"; a_ty := One TReal;
          a_checks := [(BIsNone EX)] |};
       {| a_name := "c"; a_ty := One TReal;
          a_checks := [(BIsNone EX)] |}] |}.

(** /repo/src/pymcnp/inp/surface/Ty.py:11-306 *)
Definition k_surface_Ty : cls :=
  {| c_name := "surface_Ty"; c_kind := KOption; c_kw := L "ty";
     c_pat := L "\Aty( " ++ slice 2 2 pat_number ++ L ")( " ++ slice 2 2 pat_number ++ L ")( " ++ slice 2 2 pat_number ++ L ")( " ++ slice 2 2 pat_number ++ L ")( " ++ slice 2 2 pat_number ++ L ")( " ++ slice 2 2 pat_number ++ L ")\Z";
     c_attrs := [{| a_name := "x"; a_ty := One TReal;
          a_checks := [(BIsNone EX)] |};
       {| a_name := "y"; a_ty := One TReal;
          a_checks := [(BIsNone EX)] |};
       {| a_name := "z"; a_ty := One TReal;
          a_checks := [(BIsNone EX)] |};
       {| a_name := "a"; a_ty := One TReal;
          a_checks := [(BIsNone EX)] |};
       {| a_name := "b"; a_ty := One TReal;
          a_checks := [(BIsNone EX)] |};
       {| a_name := "c"; a_ty := One TReal;
          a_checks := [(BIsNone EX)] |}] |}.

(** /repo/src/pymcnp/inp/surface/Tz.py:11-305 *)
Definition k_surface_Tz : cls :=
  {| c_name := "surface_Tz"; c_kind := KOption; c_kw := L "tz";
     c_pat := L "\Atz( " ++ slice 2 2 pat_number ++ L ")( " ++ slice 2 2 pat_number ++ L ")( " ++ slice 2 2 pat_number ++ L ")( " ++ slice 2 2 pat_number ++ L ")( " ++ slice 2 2 pat_number ++ L ")( " ++ slice 2 2 pat_number ++ L ")\Z";
     c_attrs := [{| a_name := "x"; a_ty := One TReal;
          a_checks := [(BIsNone EX)] |};
       {| a_name := "y"; a_ty := One TReal;
          a_checks := [(BIsNone EX)] |};
       {| a_name := "z"; a_ty := One TReal;
          a_checks := [(BIsNone EX)] |};
       {| a_name := "a"; a_ty := One TReal;
          a_checks := [(BIsNone EX)] |};
       {| a_name := "b"; a_ty := One TReal;
          a_checks := [(BIsNone EX)] |};
       {| a_name := "c"; a_ty := One TReal;
          a_checks := [(BIsNone EX)] |}] |}.

(** /repo/src/pymcnp/inp/surface/Wed.py:11-566 *)
Definition k_surface_Wed : cls :=
  {| c_name := "surface_Wed"; c_kind := KOption; c_kw := L "wed";
     c_pat := L "\Awed( " ++ slice 2 2 pat_number ++ L ")( " ++ slice 2 2 pat_number ++ L ")( " ++ slice 2 2 pat_number ++ L ")( " ++ slice 2 2 pat_number ++ L ")( " ++ slice 2 2 pat_number ++ L ")( " ++ slice 2 2 pat_number ++ L ")( " ++ slice 2 2 pat_number ++ L ")( " ++ slice 2 2 pat_number ++ L ")( " ++ slice 2 2 pat_number ++ L ")( " ++ slice 2 2 pat_number ++ L ")( " ++ slice 2 2 pat_number ++ L ")( " ++ slice 2 2 pat_number ++ L ")\Z";
     c_attrs := [{| a_name := "vx"; a_ty := One TReal;
          a_checks := [(BIsNone EX)] |};
       {| a_name := "vy"; a_ty := One TReal;
          a_checks := [(BIsNone EX)] |};
       {| a_name := "vz"; a_ty := One TReal;
          a_checks := [(BIsNone EX)] |};
       {| a_name := "v1x"; a_ty := One TReal;
          a_checks := [(BIsNone EX)] |};
       {| a_name := "v1y"; a_ty := One TReal;
          a_checks := [(BIsNone EX)] |};
       {| a_name := "v1z"; a_ty := One TReal;
          a_checks := [(BIsNone EX)] |};
       {| a_name := "v2x"; a_ty := One TReal;
          a_checks := [(BIsNone EX)] |};
       {| a_name := "v2y"; a_ty := One TReal;
          a_checks := [(BIsNone EX)] |};
       {| a_name := "v2z"; a_ty := One TReal;
          a_checks := [(BIsNone EX)] |};
       {| a_name := "v3x"; a_ty := One TReal;
          a_checks := [(BIsNone EX)] |};
       {| a_name := "v3y"; a_ty := One TReal;
          a_checks := [(BIsNone EX)] |};
       {| a_name := "v3z"; a_ty := One TReal;
          a_checks := [(BIsNone EX)] |}] |}.

(** /repo/src/pymcnp/inp/surface/X.py:8-274 *)
Definition k_surface_X : cls :=
  {| c_name := "surface_X"; c_kind := KOption; c_kw := L "x";
     c_pat := L "\Ax( " ++ slice 2 2 pat_number ++ L ")( " ++ slice 2 2 pat_number ++ L ")( " ++ slice 2 2 pat_number ++ L ")?( " ++ slice 2 2 pat_number ++ L ")?( " ++ slice 2 2 pat_number ++ L ")?( " ++ slice 2 2 pat_number ++ L ")?\Z";
     c_attrs := [{| a_name := "x1"; a_ty := One TReal;
          a_checks := [(BIsNone EX)] |};
       {| a_name := "r1"; a_ty := One TReal;
          a_checks := [(BIsNone EX)] |};
       {| a_name := "x2"; a_ty := One TReal;
          a_checks := [] |};
       {| a_name := "r2"; a_ty := One TReal;
          a_checks := [] |};
       {| a_name := "x3"; a_ty := One TReal;
          a_checks := [] |};
       {| a_name := "r3"; a_ty := One TReal;
          a_checks := [] |}] |}.

(** /repo/src/pymcnp/inp/surface/Y.py:8-274 *)
Definition k_surface_Y : cls :=
  {| c_name := "surface_Y"; c_kind := KOption; c_kw := L "y";
     c_pat := L "\Ay( " ++ slice 2 2 pat_number ++ L ")( " ++ slice 2 2 pat_number ++ L ")( " ++ slice 2 2 pat_number ++ L ")?( " ++ slice 2 2 pat_number ++ L ")?( " ++ slice 2 2 pat_number ++ L ")?( " ++ slice 2 2 pat_number ++ L ")?\Z";
     c_attrs := [{| a_name := "y1"; a_ty := One TReal;
          a_checks := [(BIsNone EX)] |};
       {| a_name := "r1"; a_ty := One TReal;
          a_checks := [(BIsNone EX)] |};
       {| a_name := "y2"; a_ty := One TReal;
          a_checks := [] |};
       {| a_name := "r2"; a_ty := One TReal;
          a_checks := [] |};
       {| a_name := "y3"; a_ty := One TReal;
          a_checks := [] |};
       {| a_name := "r3"; a_ty := One TReal;
          a_checks := [] |}] |}.

(** /repo/src/pymcnp/inp/surface/Z.py:8-274 *)
Definition k_surface_Z : cls :=
  {| c_name := "surface_Z"; c_kind := KOption; c_kw := L "z";
     c_pat := L "\Az( " ++ slice 2 2 pat_number ++ L ")( " ++ slice 2 2 pat_number ++ L ")( " ++ slice 2 2 pat_number ++ L ")?( " ++ slice 2 2 pat_number ++ L ")?( " ++ slice 2 2 pat_number ++ L ")?( " ++ slice 2 2 pat_number ++ L ")?\Z";
     c_attrs := [{| a_name := "z1"; a_ty := One TReal;
          a_checks := [(BIsNone EX)] |};
       {| a_name := "r1"; a_ty := One TReal;
          a_checks := [(BIsNone EX)] |};
       {| a_name := "z2"; a_ty := One TReal;
          a_checks := [] |};
       {| a_name := "r2"; a_ty := One TReal;
          a_checks := [] |};
       {| a_name := "z3"; a_ty := One TReal;
          a_checks := [] |};
       {| a_name := "r3"; a_ty := One TReal;
          a_checks := [] |}] |}.

(** /repo/src/pymcnp/inp/surface/_option.py:4-9: the subclasses in definition order, and the pattern
    that _symbol.py:40-44 makes of theirs, longest class name first. *)
Definition f_surface_SurfaceOption : list cls := [k_surface_P_0; k_surface_P_1; k_surface_Px; k_surface_Py; k_surface_Pz; k_surface_So; k_surface_S; k_surface_Sx; k_surface_Sy; k_surface_Sz; k_surface_C_x; k_surface_C_y; k_surface_C_z; k_surface_Cx; k_surface_Cy; k_surface_Cz; k_surface_K_x; k_surface_K_y; k_surface_K_z; k_surface_Kx; k_surface_Ky; k_surface_Kz; k_surface_Sq; k_surface_Gq; k_surface_Tx; k_surface_Ty; k_surface_Tz; k_surface_X; k_surface_Y; k_surface_Z; k_surface_Box; k_surface_Rpp; k_surface_Sph; k_surface_Rcc; k_surface_Rhp; k_surface_Rec; k_surface_Trc; k_surface_Ell; k_surface_Wed; k_surface_Arb].
Definition pat_surface_SurfaceOption : str := union_pat [c_pat k_surface_P_0; c_pat k_surface_P_1; c_pat k_surface_C_x; c_pat k_surface_C_y; c_pat k_surface_C_z; c_pat k_surface_K_x; c_pat k_surface_K_y; c_pat k_surface_K_z; c_pat k_surface_Box; c_pat k_surface_Rpp; c_pat k_surface_Sph; c_pat k_surface_Rcc; c_pat k_surface_Rhp; c_pat k_surface_Rec; c_pat k_surface_Trc; c_pat k_surface_Ell; c_pat k_surface_Wed; c_pat k_surface_Arb; c_pat k_surface_Px; c_pat k_surface_Py; c_pat k_surface_Pz; c_pat k_surface_So; c_pat k_surface_Sx; c_pat k_surface_Sy; c_pat k_surface_Sz; c_pat k_surface_Cx; c_pat k_surface_Cy; c_pat k_surface_Cz; c_pat k_surface_Kx; c_pat k_surface_Ky; c_pat k_surface_Kz; c_pat k_surface_Sq; c_pat k_surface_Gq; c_pat k_surface_Tx; c_pat k_surface_Ty; c_pat k_surface_Tz; c_pat k_surface_S; c_pat k_surface_X; c_pat k_surface_Y; c_pat k_surface_Z].

(** /repo/src/pymcnp/inp/uran/_entry.py:4-9: the subclasses in definition order, and the pattern
    that _symbol.py:40-44 makes of theirs, longest class name first. *)
Definition f_uran_UranEntry : list cls := [k_uran_Stochastic].
Definition pat_uran_UranEntry : str := union_pat [c_pat k_uran_Stochastic].

(** Every class above. *)
Definition all_classes : list cls :=
  [k_act_Fission;
   k_act_Nonfiss;
   k_act_Dn;
   k_act_Dg;
   k_act_Thresh;
   k_act_Dnbais;
   k_act_Nap;
   k_act_dneb_Bias;
   k_act_Dneb;
   k_act_dgeb_Bias;
   k_act_Dgeb;
   k_act_Pecut;
   k_act_Hlcut;
   k_act_Sample;
   k_Act;
   k_Area;
   k_Awtab;
   k_Bbrem;
   k_Bflcl;
   k_bfld_Field;
   k_bfld_Vec;
   k_bfld_Maxdeflc;
   k_bfld_Maxstep;
   k_bfld_Axs;
   k_bfld_Ffedges;
   k_bfld_Refpnt;
   k_Bfld;
   k_C;
   k_Cf;
   k_Cm;
   k_Cosy;
   k_Cosyp;
   k_Ctme;
   k_Cut;
   k_dawwg_Points;
   k_dawwg_Xsec;
   k_dawwg_block_Ngroup;
   k_dawwg_block_Isn;
   k_dawwg_block_Niso;
   k_dawwg_block_Mt;
   k_dawwg_block_Iquad;
   k_dawwg_block_Fmmix;
   k_dawwg_block_Nosolv;
   k_dawwg_block_Noedit;
   k_dawwg_block_Nogeod;
   k_dawwg_block_Nomix;
   k_dawwg_block_Noasg;
   k_dawwg_block_Nomacr;
   k_dawwg_block_Noslnp;
   k_dawwg_block_Noedtt;
   k_dawwg_block_Noadjm;
   k_dawwg_block_Lib;
   k_dawwg_block_Libname;
   k_dawwg_block_Fissneut;
   k_dawwg_block_Lng;
   k_dawwg_block_Balxs;
   k_dawwg_block_Ntichi;
   k_dawwg_block_Ievt;
   k_dawwg_block_Isct;
   k_dawwg_block_Ith;
   k_dawwg_block_Trcor;
   k_dawwg_block_Ibl;
   k_dawwg_block_Ibr;
   k_dawwg_block_Ibt;
   k_dawwg_block_Ibb;
   k_dawwg_block_Ibfrnt;
   k_dawwg_block_Ibback;
   k_dawwg_block_Epsi;
   k_dawwg_block_Oitm;
   k_dawwg_block_Nosigf;
   k_dawwg_block_Srcacc;
   k_dawwg_block_Diffsol;
   k_dawwg_block_Tsasn;
   k_dawwg_block_Tsaepsi;
   k_dawwg_block_Tsaits;
   k_dawwg_block_Tsabeta;
   k_dawwg_block_Ptconv;
   k_dawwg_block_Norm;
   k_dawwg_block_Xsectp;
   k_dawwg_block_Fissrp;
   k_dawwg_block_Sourcp;
   k_dawwg_block_Angp;
   k_dawwg_block_Balp;
   k_dawwg_block_Raflux;
   k_dawwg_block_Rmflux;
   k_dawwg_block_Avatar;
   k_dawwg_block_Asleft;
   k_dawwg_block_Asrite;
   k_dawwg_block_Asbott;
   k_dawwg_block_Astop;
   k_dawwg_block_Asfrnt;
   k_dawwg_block_Asback;
   k_dawwg_block_Massed;
   k_dawwg_block_Pted;
   k_dawwg_block_Zned;
   k_dawwg_block_Rzflux;
   k_dawwg_block_Rzmflux;
   k_dawwg_block_Edoutf;
   k_dawwg_block_Byvolp;
   k_dawwg_block_Ajed;
   k_dawwg_block_Fluxone;
   k_dawwg_Block;
   k_Dawwg;
   k_Dbcn;
   k_dd_Diagnostic;
   k_Dd;
   k_De;
   k_Df_0;
   k_df_1_Iu;
   k_df_1_Fac;
   k_df_1_Ic;
   k_df_1_Log;
   k_df_1_Lin;
   k_Df_1;
   k_Dm;
   k_Drxs;
   k_Ds_0;
   k_ds_1_Variables;
   k_Ds_1;
   k_ds_2_Variables;
   k_Ds_2;
   k_Ds_3;
   k_Dxc;
   k_dxt_Shell;
   k_Dxt;
   k_E;
   k_Elpt;
   k_Em;
   k_Embdb;
   k_Embdf;
   k_Embeb;
   k_embed_Background;
   k_embed_matcell_Entry;
   k_embed_Matcell;
   k_embed_Meshgeo;
   k_embed_Mgeoin;
   k_embed_Meeout;
   k_embed_Meein;
   k_embed_Calcvols;
   k_embed_Debug;
   k_embed_Filetype;
   k_embed_Gmvfile;
   k_embed_Length;
   k_embed_Mcnpumfile;
   k_Embed;
   k_embee_Embed;
   k_embee_Energy;
   k_embee_Time;
   k_embee_Atom;
   k_embee_Factor;
   k_embee_List;
   k_embee_Mat;
   k_embee_Mtype;
   k_Embee;
   k_Embem;
   k_Embtb;
   k_Embtm;
   k_Esplt;
   k_Ext;
   k_F_0;
   k_f_1_Sphere;
   k_F_1;
   k_f_2_Ring;
   k_F_2;
   k_F_3;
   k_F_4;
   k_Fc;
   k_Fcl;
   k_Fic;
   k_files_File;
   k_Files;
   k_Fill;
   k_Fip;
   k_Fir;
   k_Fm;
   k_fmesh_Geom;
   k_fmesh_Origin;
   k_fmesh_Axs;
   k_fmesh_Vec;
   k_fmesh_Imesh;
   k_fmesh_Iints;
   k_fmesh_Jmesh;
   k_fmesh_Jints;
   k_fmesh_Kmesh;
   k_fmesh_Kints;
   k_fmesh_Emesh;
   k_fmesh_Eints;
   k_fmesh_Enorm;
   k_fmesh_Tmesh;
   k_fmesh_Tints;
   k_fmesh_Tnorm;
   k_fmesh_Factor;
   k_fmesh_Out;
   k_fmesh_Tr;
   k_fmesh_Inc;
   k_fmesh_Type;
   k_fmesh_Kclear;
   k_Fmesh;
   k_fmult_Sfnu;
   k_fmult_Width;
   k_fmult_Sfyield;
   k_fmult_Watt;
   k_fmult_Method;
   k_fmult_Data;
   k_fmult_Shift;
   k_Fmult;
   k_Fq;
   k_Fs;
   k_Ft;
   k_Fu;
   k_Histp;
   k_Hsrc;
   k_Idum;
   k_Imp;
   k_Kcode;
   k_kopts_Blocksize;
   k_kopts_Kinetics;
   k_kopts_Precursor;
   k_kopts_Ksental;
   k_kopts_Fmat;
   k_kopts_Fmatskpt;
   k_kopts_Fmatncyc;
   k_kopts_Fmatspace;
   k_kopts_Fmataccel;
   k_kopts_Fmatreduce;
   k_kopts_Fmatnx;
   k_kopts_Fmatny;
   k_kopts_Fmatnz;
   k_Kopts;
   k_kpert_Cell;
   k_kpert_Mat;
   k_kpert_Rho;
   k_kpert_Iso;
   k_kpert_Rxn;
   k_kpert_Erg;
   k_kpert_Linear;
   k_Kpert;
   k_ksen_Iso;
   k_ksen_Rxn;
   k_ksen_Mt;
   k_ksen_Erg;
   k_ksen_Ein;
   k_ksen_Legendre;
   k_ksen_Cos;
   k_ksen_Constrain;
   k_Ksen;
   k_ksrc_Location;
   k_Ksrc;
   k_Lat;
   k_Lca;
   k_Lcb;
   k_Lcc;
   k_Lea;
   k_Leb;
   k_Lost;
   k_M_1;
   k_mesh_Geom;
   k_mesh_Ref;
   k_mesh_Origin;
   k_mesh_Axs;
   k_mesh_Vec;
   k_mesh_Imesh;
   k_mesh_Iints;
   k_mesh_Jmesh;
   k_mesh_Jints;
   k_mesh_Kmesh;
   k_mesh_Kints;
   k_Mesh;
   k_Mgopt;
   k_Mode;
   k_Mphys;
   k_mplot_Term;
   k_mplot_File;
   k_mplot_Coplot;
   k_mplot_Freq;
   k_mplot_Return;
   k_mplot_Plot;
   k_mplot_Pause;
   k_mplot_End;
   k_mplot_Options;
   k_mplot_Help;
   k_mplot_Status;
   k_mplot_Printal;
   k_mplot_Iptal;
   k_mplot_Printpts;
   k_mplot_Runtpe;
   k_mplot_Dump;
   k_mplot_Wmctal;
   k_mplot_Rmctal;
   k_mplot_Tally;
   k_mplot_Pert;
   k_mplot_Lethargy;
   k_mplot_Nonorm;
   k_mplot_Factor;
   k_mplot_Reset;
   k_mplot_Title;
   k_mplot_Below;
   k_mplot_Subtitle;
   k_mplot_Xtitle;
   k_mplot_Ytitle;
   k_mplot_Ztitle;
   k_mplot_Label;
   k_mplot_free_All;
   k_mplot_free_Noall;
   k_mplot_Free;
   k_mplot_Fixed;
   k_mplot_Set;
   k_mplot_Tfc;
   k_mplot_Kcode;
   k_mplot_Xs_0;
   k_mplot_Xs_1;
   k_mplot_Xs_2;
   k_mplot_Mt;
   k_mplot_Par;
   k_mplot_Linlin;
   k_mplot_Linlog;
   k_mplot_Loglin;
   k_mplot_Loglog;
   k_mplot_Xlims;
   k_mplot_Ylims;
   k_mplot_Scales;
   k_mplot_Hist;
   k_mplot_Plinear;
   k_mplot_Spline;
   k_mplot_Bar;
   k_mplot_Noerrbar;
   k_mplot_Thick;
   k_mplot_Thin;
   k_mplot_Legend;
   k_mplot_contour_Pct;
   k_mplot_contour_Lin;
   k_mplot_contour_Log;
   k_mplot_contour_All;
   k_mplot_contour_Noall;
   k_mplot_contour_Line;
   k_mplot_contour_Noline;
   k_mplot_contour_Color;
   k_mplot_contour_Nocolor;
   k_mplot_Contour;
   k_mplot_Wash;
   k_mplot_Fmesh;
   k_mplot_Fmrelerr;
   k_mplot_Zlev;
   k_mplot_Ebin;
   k_mplot_Tbin;
   k_mplot_Cop;
   k_mplot_Tal;
   k_Mplot;
   k_Mt;
   k_Mx;
   k_Nonu;
   k_Notrn;
   k_Nps;
   k_Otfdb;
   k_Pd;
   k_pert_Cell;
   k_pert_Mat;
   k_pert_Rho;
   k_pert_Method;
   k_pert_Erg;
   k_pert_Rxn;
   k_Pert;
   k_Phys_0;
   k_Phys_1;
   k_Phys_2;
   k_Phys_3;
   k_Phys_4;
   k_pikmt_Photonbias;
   k_Pikmt;
   k_Prdmp;
   k_Print;
   k_ptrac_Buffer;
   k_ptrac_File;
   k_ptrac_Max;
   k_ptrac_Meph;
   k_ptrac_Write;
   k_ptrac_Conic;
   k_ptrac_Event;
   k_ptrac_filter_Entry;
   k_ptrac_Filter;
   k_ptrac_Type;
   k_ptrac_Nps;
   k_ptrac_Cell;
   k_ptrac_Surface;
   k_ptrac_Tally;
   k_ptrac_Value;
   k_Ptrac;
   k_Pwt;
   k_rand_Gen;
   k_rand_Seed;
   k_rand_Stride;
   k_rand_Hist;
   k_Rand;
   k_Rdum;
   k_Sb_0;
   k_Sb_1;
   k_Sc;
   k_Sd;
   k_sdef_Ara_0;
   k_sdef_f_Fcel;
   k_sdef_f_Fsur;
   k_sdef_f_Ferg;
   k_sdef_f_Ftme;
   k_sdef_f_Fdir;
   k_sdef_f_Fvec;
   k_sdef_f_Fnrm;
   k_sdef_f_Fpos;
   k_sdef_f_Frad;
   k_sdef_f_Fext;
   k_sdef_f_Faxs;
   k_sdef_f_Fx;
   k_sdef_f_Fy;
   k_sdef_f_Fz;
   k_sdef_f_Fccc;
   k_sdef_f_Fara;
   k_sdef_f_Fwgt;
   k_sdef_f_Ftr;
   k_sdef_f_Feff;
   k_sdef_f_Fpar;
   k_sdef_f_Fdat;
   k_sdef_f_Floc;
   k_sdef_f_Fbem;
   k_sdef_f_Fbap;
   k_sdef_Ara_1;
   k_sdef_Axs_0;
   k_sdef_Axs_1;
   k_sdef_Bap_0;
   k_sdef_Bap_1;
   k_sdef_Bem_0;
   k_sdef_Bem_1;
   k_sdef_Ccc_0;
   k_sdef_Ccc_1;
   k_sdef_Cel_0;
   k_sdef_Cel_1;
   k_sdef_Cel_2;
   k_sdef_Dat_0;
   k_sdef_Dat_1;
   k_sdef_Dir_1;
   k_sdef_Dir_2;
   k_sdef_Dir_0;
   k_sdef_Eff_0;
   k_sdef_Eff_1;
   k_sdef_Erg_0;
   k_sdef_Erg_1;
   k_sdef_Erg_2;
   k_sdef_Ext_0;
   k_sdef_Ext_1;
   k_sdef_Ext_2;
   k_sdef_Loc_0;
   k_sdef_Loc_1;
   k_sdef_Nrm_0;
   k_sdef_Nrm_1;
   k_sdef_Par_0;
   k_sdef_Par_1;
   k_sdef_Pos_0;
   k_sdef_Pos_1;
   k_sdef_Pos_2;
   k_sdef_Rad_0;
   k_sdef_Rad_1;
   k_sdef_Rad_2;
   k_sdef_Sur_0;
   k_sdef_Sur_1;
   k_sdef_Tme_0;
   k_sdef_tme_1_Embedded;
   k_sdef_Tme_1;
   k_sdef_Tme_2;
   k_sdef_Tr_0;
   k_sdef_Tr_1;
   k_sdef_Tr_2;
   k_sdef_Vec_0;
   k_sdef_Vec_1;
   k_sdef_Wgt_0;
   k_sdef_Wgt_1;
   k_sdef_X_0;
   k_sdef_X_1;
   k_sdef_X_2;
   k_sdef_Y_0;
   k_sdef_Y_1;
   k_sdef_Y_2;
   k_sdef_Z_0;
   k_sdef_Z_1;
   k_sdef_Z_2;
   k_Sdef;
   k_Sf;
   k_Si_0;
   k_Si_1;
   k_Si_2;
   k_Sp_0;
   k_Sp_1;
   k_Spdtl;
   k_ssr_Old;
   k_ssr_Cel;
   k_ssr_New;
   k_ssr_Pty;
   k_ssr_Col;
   k_ssr_Wgt;
   k_ssr_Tr_0;
   k_ssr_Tr_1;
   k_ssr_Psc;
   k_ssr_Axs;
   k_ssr_Ext;
   k_ssr_Poa;
   k_ssr_Bcw;
   k_Ssr;
   k_ssw_Sym;
   k_ssw_Pty;
   k_ssw_Cel;
   k_Ssw;
   k_stop_Nps;
   k_stop_Ctme;
   k_stop_F;
   k_Stop;
   k_T_0;
   k_t_1_Cbeg;
   k_t_1_Cfrq;
   k_t_1_Cofi;
   k_t_1_Coni;
   k_t_1_Csub;
   k_t_1_Cend;
   k_T_1;
   k_Talnp;
   k_Tf_0;
   k_Tf_1;
   k_Thtme;
   k_Tm;
   k_Tmp;
   k_Totnu;
   k_Tr_0;
   k_Tr_1;
   k_Tr_2;
   k_Tr_3;
   k_Tr_4;
   k_tropt_Mcscat;
   k_tropt_Eloss;
   k_tropt_Nreact;
   k_tropt_Nescat;
   k_tropt_Genxs;
   k_Tropt;
   k_Tsplt;
   k_U;
   k_Unc;
   k_uran_Stochastic;
   k_Uran;
   k_var_Rr;
   k_Var;
   k_Void;
   k_Vol;
   k_Wwe;
   k_Wwg;
   k_Wwge;
   k_Wwgt;
   k_Wwn;
   k_Wwp;
   k_Wwt;
   k_Xs;
   k_Za;
   k_Zb;
   k_Zc;
   k_Zd;
   k_cell_Bflcl;
   k_cell_Cosy;
   k_cell_Dxc;
   k_cell_Elpt;
   k_cell_Ext;
   k_cell_Fcl;
   k_cell_Fill_0;
   k_cell_Fill_1;
   k_cell_Fill_2;
   k_cell_Fill_3;
   k_cell_Fill_4;
   k_cell_Fill_5;
   k_cell_Fill_6;
   k_cell_Imp;
   k_cell_Lat;
   k_cell_Nonu;
   k_cell_Pd;
   k_cell_Pwt;
   k_cell_Tmp;
   k_cell_Trcl_0;
   k_cell_Trcl_1;
   k_cell_Trcl_2;
   k_cell_Trcl_3;
   k_cell_Trcl_4;
   k_cell_Trcl_5;
   k_cell_U;
   k_cell_Unc;
   k_cell_Vol;
   k_cell_Wwn;
   k_like_Bflcl;
   k_like_Cosy;
   k_like_Dxc;
   k_like_Elpt;
   k_like_Ext;
   k_like_Fcl;
   k_like_Fill_0;
   k_like_Fill_1;
   k_like_Fill_2;
   k_like_Fill_3;
   k_like_Fill_4;
   k_like_Fill_5;
   k_like_Fill_6;
   k_like_Imp;
   k_like_Lat;
   k_like_Mat;
   k_like_Nonu;
   k_like_Pd;
   k_like_Pwt;
   k_like_Rho;
   k_like_Tmp;
   k_like_Trcl_0;
   k_like_Trcl_1;
   k_like_Trcl_2;
   k_like_Trcl_3;
   k_like_Trcl_4;
   k_like_Trcl_5;
   k_like_U;
   k_like_Unc;
   k_like_Vol;
   k_like_Wwn;
   k_m_0_Alib;
   k_m_0_Cond;
   k_m_0_Dlib;
   k_m_0_Elib;
   k_m_0_Estep;
   k_m_0_Gas;
   k_m_0_Hlib;
   k_m_0_Hstep;
   k_m_0_Nlib;
   k_m_0_Plib;
   k_m_0_Pnlib;
   k_m_0_Refc;
   k_m_0_Refi;
   k_m_0_Refs;
   k_m_0_Slib;
   k_m_0_Tlib;
   k_surface_Arb;
   k_surface_Box;
   k_surface_C_x;
   k_surface_C_y;
   k_surface_C_z;
   k_surface_Cx;
   k_surface_Cy;
   k_surface_Cz;
   k_surface_Ell;
   k_surface_Gq;
   k_surface_K_x;
   k_surface_K_y;
   k_surface_K_z;
   k_surface_Kx;
   k_surface_Ky;
   k_surface_Kz;
   k_surface_P_0;
   k_surface_P_1;
   k_surface_Px;
   k_surface_Py;
   k_surface_Pz;
   k_surface_Rcc;
   k_surface_Rec;
   k_surface_Rhp;
   k_surface_Rpp;
   k_surface_S;
   k_surface_So;
   k_surface_Sph;
   k_surface_Sq;
   k_surface_Sx;
   k_surface_Sy;
   k_surface_Sz;
   k_surface_Trc;
   k_surface_Tx;
   k_surface_Ty;
   k_surface_Tz;
   k_surface_Wed;
   k_surface_X;
   k_surface_Y;
   k_surface_Z].

(** The classes a nested attribute type stands for: [cls.__subclasses__() or [cls]]. *)
Definition families : list (string * list cls) :=
  [("act_dneb_Bias", [k_act_dneb_Bias]);
   ("act_dgeb_Bias", [k_act_dgeb_Bias]);
   ("act_ActOption", f_act_ActOption);
   ("bfld_BfldOption", f_bfld_BfldOption);
   ("dawwg_block_BlockOption", f_dawwg_block_BlockOption);
   ("dawwg_DawwgOption", f_dawwg_DawwgOption);
   ("dd_Diagnostic", [k_dd_Diagnostic]);
   ("df_1_DfOption_1", f_df_1_DfOption_1);
   ("ds_1_Variables", [k_ds_1_Variables]);
   ("ds_2_Variables", [k_ds_2_Variables]);
   ("dxt_Shell", [k_dxt_Shell]);
   ("embed_matcell_Entry", [k_embed_matcell_Entry]);
   ("embed_EmbedOption", f_embed_EmbedOption);
   ("embee_EmbeeOption", f_embee_EmbeeOption);
   ("f_1_Sphere", [k_f_1_Sphere]);
   ("f_2_Ring", [k_f_2_Ring]);
   ("files_File", [k_files_File]);
   ("fmesh_FmeshOption", f_fmesh_FmeshOption);
   ("fmult_FmultOption", f_fmult_FmultOption);
   ("kopts_KoptsOption", f_kopts_KoptsOption);
   ("kpert_KpertOption", f_kpert_KpertOption);
   ("ksen_KsenOption", f_ksen_KsenOption);
   ("ksrc_Location", [k_ksrc_Location]);
   ("mesh_MeshOption", f_mesh_MeshOption);
   ("mplot_free_FreeOption", f_mplot_free_FreeOption);
   ("mplot_contour_ContourOption", f_mplot_contour_ContourOption);
   ("mplot_MplotOption", f_mplot_MplotOption);
   ("pert_PertOption", f_pert_PertOption);
   ("pikmt_Photonbias", [k_pikmt_Photonbias]);
   ("ptrac_filter_Entry", [k_ptrac_filter_Entry]);
   ("ptrac_PtracOption", f_ptrac_PtracOption);
   ("rand_RandOption", f_rand_RandOption);
   ("sdef_f_FOption", f_sdef_f_FOption);
   ("sdef_tme_1_Embedded", [k_sdef_tme_1_Embedded]);
   ("sdef_SdefOption", f_sdef_SdefOption);
   ("ssr_SsrOption", f_ssr_SsrOption);
   ("ssw_SswOption", f_ssw_SswOption);
   ("stop_StopOption", f_stop_StopOption);
   ("t_1_TOption_1", f_t_1_TOption_1);
   ("tropt_TroptOption", f_tropt_TroptOption);
   ("uran_Stochastic", [k_uran_Stochastic]);
   ("var_VarOption", f_var_VarOption);
   ("act_dgeb_DgebEntry", f_act_dgeb_DgebEntry);
   ("act_dneb_DnebEntry", f_act_dneb_DnebEntry);
   ("cell_CellOption", f_cell_CellOption);
   ("dd_DdEntry", f_dd_DdEntry);
   ("ds_1_DsEntry_1", f_ds_1_DsEntry_1);
   ("ds_2_DsEntry_2", f_ds_2_DsEntry_2);
   ("dxt_DxtEntry", f_dxt_DxtEntry);
   ("embed_matcell_MatcellEntry", f_embed_matcell_MatcellEntry);
   ("f_1_FEntry_1", f_f_1_FEntry_1);
   ("f_2_FEntry_2", f_f_2_FEntry_2);
   ("files_FilesEntry", f_files_FilesEntry);
   ("ksrc_KsrcEntry", f_ksrc_KsrcEntry);
   ("like_LikeOption", f_like_LikeOption);
   ("m_0_MOption_0", f_m_0_MOption_0);
   ("pikmt_PikmtEntry", f_pikmt_PikmtEntry);
   ("ptrac_filter_FilterEntry", f_ptrac_filter_FilterEntry);
   ("sdef_tme_1_TmeEntry_1", f_sdef_tme_1_TmeEntry_1);
   ("surface_SurfaceOption", f_surface_SurfaceOption);
   ("uran_UranEntry", f_uran_UranEntry)].
Definition fam (n : string) : list cls := match assoc n families with Some l => l | None => [] end.
(** Three levels of nesting occur (card, option, entry); four are allowed. *)
Definition ext : string -> str -> result val := ext_of fam 4.
