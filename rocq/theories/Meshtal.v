(** Model of the MESHTAL reader and writer: /repo/src/pymcnp/Meshtal.py,
    /repo/src/pymcnp/meshtal/Header.py and /repo/src/pymcnp/meshtal/Tally.py. *)

From Coq Require Import Ascii String NArith ZArith Bool Arith List.
From Verif Require Import PyStr Regex RegexParse PyNum Types.
Import ListNotations.
Open Scope char_scope.

(** ** Lines: meshtal/Tally.py *)

(** Attributes of a Tally, Tally.py:25-60.  A String is its text (String.from_mcnp
    accepts any text, types/String.py:36-52). *)
Record tally := {
  t_result : str; t_error : str; t_x : option str; t_y : option str; t_z : option str;
  t_energy : option str; t_time : option str }.

(** Tally.py:23 *)
Definition pat_tally : str :=
  L "\A  ([^\n]{9})?([^\n]{11})?([^\n]{9})?([^\n]{10})?([^\n]{10})?([^\n]{12})([^\n]{12})\n?\Z".
Definition re_tally : re := compile true pat_tally.

(** Tally.from_mcnp, Tally.py:62-93: energy, time, x, y, z, result, error. *)
Definition tally_from_mcnp (s : str) : result tally :=
  match re_match re_tally s with
  | None => Lib MeshtalError
  | Some o =>
      Ok {| t_energy := truthy (group 1 o); t_time := truthy (group 2 o); t_x := truthy (group 3 o);
            t_y := truthy (group 4 o); t_z := truthy (group 5 o);
            t_result := grp 6 o; t_error := grp 7 o |}
  end.

Definition opt_text (o : option str) : str := match o with Some s => s | None => [] end.

(** Tally.to_mcnp, Tally.py:95-103 *)
Definition tally_to_mcnp (t : tally) : str :=
  L "  " ++ opt_text (t_energy t) ++ opt_text (t_time t) ++ opt_text (t_x t) ++ opt_text (t_y t) ++
  opt_text (t_z t) ++ t_result t ++ t_error t.

(** ** Header: meshtal/Header.py *)

(** Header.py:36-116.  The bins are plain Python strings. *)
Record header := {
  m_code : str; m_version : str; m_ld : str; m_probid : str; m_title : str; m_histories : intv;
  m_number : intv; m_particle : str; m_columns : str;
  m_bins_x : option str; m_bins_y : option str; m_bins_z : option str;
  m_bins_energy : option str; m_bins_time : option str }.

(** Header.py:31-34 *)
Definition re_mheader : re := compile true
  (L "\A(.{7})version (.{6})ld=(.{10})probid =(.{20})\n\s([^\n]+)\n\sNumber of histories used for normalizing tallies =(.{17})\n\n\sMesh Tally Number(.{10})\n\s(.{8}) mesh tally[.]\n\n Tally bin boundaries:\n((?:    .+\n)+)\n(.+)\n\Z").

(** Header.py:152 *)
Definition re_bins : re := compile false (L "\s+([^\n:]+):([^\n]+)(?:\n|\Z)").

Record bins := { b_x : option str; b_y : option str; b_z : option str; b_energy : option str; b_time : option str }.
Definition no_bins : bins := {| b_x := None; b_y := None; b_z := None; b_energy := None; b_time := None |}.
(** The loop of Header.py:147-164. *)
Fixpoint bins_of (l : list (str * str)) (b : bins) : result bins :=
  match l with
  | [] => Ok b
  | (name, v) :: l' =>
      if seqb name (L "X direction") then
        bins_of l' {| b_x := Some v; b_y := b_y b; b_z := b_z b; b_energy := b_energy b; b_time := b_time b |}
      else if seqb name (L "Y direction") then
        bins_of l' {| b_x := b_x b; b_y := Some v; b_z := b_z b; b_energy := b_energy b; b_time := b_time b |}
      else if seqb name (L "Z direction") then
        bins_of l' {| b_x := b_x b; b_y := b_y b; b_z := Some v; b_energy := b_energy b; b_time := b_time b |}
      else if seqb name (L "Energy bin boundaries") then
        bins_of l' {| b_x := b_x b; b_y := b_y b; b_z := b_z b; b_energy := Some v; b_time := b_time b |}
      else if seqb name (L "Time bin boundaries") then
        bins_of l' {| b_x := b_x b; b_y := b_y b; b_z := b_z b; b_energy := b_energy b; b_time := Some v |}
      else Lib MeshtalError
  end.

(** Header.from_mcnp, Header.py:118-183 *)
Definition mheader_from_mcnp (s : str) : result header :=
  match re_match re_mheader s with
  | None => Lib MeshtalError
  | Some o =>
      bind (integer_from_mcnp (grp 6 o)) (fun h =>
      bind (integer_from_mcnp (grp 7 o)) (fun n =>
      bind (bins_of (map (fun x => (grp 1 x, grp 2 x)) (finditer re_bins (grp 9 o))) no_bins) (fun b =>
      Ok {| m_code := grp 1 o; m_version := grp 2 o; m_ld := grp 3 o; m_probid := grp 4 o; m_title := grp 5 o;
            m_histories := h; m_number := n; m_particle := grp 8 o; m_columns := grp 10 o;
            m_bins_x := b_x b; m_bins_y := b_y b; m_bins_z := b_z b;
            m_bins_energy := b_energy b; m_bins_time := b_time b |})))
  end.

(** [f'{n:>17.2F}'] and [f'{n:>10}'] of an Integer (types/Integer.py:136-137); a
    shorthand has no format.  Simplified: [.2F] converts the int to a float, exact
    up to 2^53; larger numbers are rounded there and not here. *)
Definition format_2F (w : nat) (i : intv) : result str :=
  match i with IVal z => Ok (rjust w (str_of_Z z ++ L ".00")) | IHor _ => Py TypeError end.
Definition format_int (w : nat) (i : intv) : result str :=
  match i with IVal z => Ok (rjust w (str_of_Z z)) | IHor _ => Py TypeError end.

(** One line of bins, Header.py:194-198. *)
Definition bin_line (name : string) (v : option str) : str :=
  match v with Some (c :: t) => L "    " ++ L name ++ ":" :: (c :: t) ++ [nl] | _ => [] end.

(** Header.to_mcnp, Header.py:185-200 *)
Definition mheader_to_mcnp (h : header) : result str :=
  bind (format_2F 17 (m_histories h)) (fun hs =>
  bind (format_int 10 (m_number h)) (fun n =>
  Ok (rjust 7 (m_code h) ++ L "version " ++ rjust 6 (m_version h) ++ L "ld=" ++ rjust 10 (m_ld h) ++
      L "probid =" ++ rjust 20 (m_probid h) ++ nl :: sp :: m_title h ++ nl ::
      L " Number of histories used for normalizing tallies =" ++ hs ++ nl :: nl ::
      L " Mesh Tally Number" ++ n ++ nl :: sp :: rjust 8 (m_particle h) ++ L " mesh tally." ++ nl :: nl ::
      L " Tally bin boundaries:" ++ nl ::
      (bin_line "X direction" (m_bins_x h) ++ bin_line "Y direction" (m_bins_y h) ++
       bin_line "Z direction" (m_bins_z h) ++ bin_line "Time bin boundaries" (m_bins_time h) ++
       bin_line "Energy bin boundaries" (m_bins_energy h)) ++
      nl :: m_columns h ++ [nl]))).

(** ** Files: Meshtal.py *)

Record meshtal := { mt_header : header; mt_tallies : list tally }.

(** Meshtal.py:19-22 *)
Definition re_meshtal : re := compile true
  (L "\A([^\n]{7}version [^\n]{6}ld=[^\n]{10}probid =[^\n]{20}\n\s[^\n]+\n\sNumber of histories used for normalizing tallies =[^\n]{17}\n\n\sMesh Tally Number[^\n]{10}\n\s[^\n]{8} mesh tally[.]\n\n Tally bin boundaries:\n(?:    .+\n)+\n[^\n]+\n)([\n\s\S]+)\Z").

(** [types.Generator(meshtal.Tally).from_mcnp], types/Generator.py:46-64, and its
    iteration.  The lines are read when the generator is advanced; here all at once. *)
Definition tallies_from_mcnp (s : str) : result (list tally) :=
  mapM (fun o => tally_from_mcnp (mtext o)) (finditer (compile true (slice 2 2 pat_tally)) s).

(** Meshtal.from_mcnp, Meshtal.py:49-69 *)
Definition meshtal_from_mcnp (s : str) : result meshtal :=
  match re_match re_meshtal s with
  | None => Lib MeshtalError
  | Some o =>
      bind (mheader_from_mcnp (grp 1 o)) (fun h =>
      bind (tallies_from_mcnp (grp 2 o)) (fun ts =>
      Ok {| mt_header := h; mt_tallies := ts |}))
  end.

(** Meshtal.to_mcnp, Meshtal.py:71-79 *)
Definition meshtal_to_mcnp (m : meshtal) : result str :=
  bind (mheader_to_mcnp (mt_header m)) (fun h =>
  Ok (h ++ join [nl] (map tally_to_mcnp (mt_tallies m)))).
