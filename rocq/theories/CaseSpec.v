(** C76: what is left of a text and of what was read from it when capitals are made small. *)

From Coq Require Import Ascii String NArith ZArith Bool List.
From Verif Require Import PyStr Types Cards.
Import ListNotations.

(** The texts inside a value in small letters; numbers have none. *)
Definition small_zaid (z : zaid) : zaid := {| zz := zz z; za := za z; zabx := option_map slower (zabx z) |}.
Fixpoint small (v : val) : val :=
  match v with
  | VStr s => VStr (slower s)
  | VDesig s => VDesig (slower s)
  | VZaid z => VZaid (small_zaid z)
  | VSub (z, r) => VSub (small_zaid z, r)
  | VObj c l => VObj c (map (option_map small) l)
  | VTup l => VTup (map small l)
  | VPyStr s => VPyStr (slower s)
  | v => v
  end.
Definition small_obj (o : obj) : obj := map (fun x => (fst x, option_map small (snd x))) o.
(** The same text but for the case of its letters. *)
Definition same_letters (s t : str) : Prop := slower s = slower t.
