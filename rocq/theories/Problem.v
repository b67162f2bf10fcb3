(** Problems (/repo/src/pymcnp/Inp.py:168-): the cards of an INP file, and the
    properties [nps] and [seed]. *)

From Coq Require Import Ascii String NArith ZArith Bool Arith List.
From Verif Require Import PyStr PyNum Types Cards Tables Numbered.
Import ListNotations.
Open Scope list_scope.

(** Cards are objects with identity: a problem refers to them, the heap holds them.
    Options inside cards are values here, so an option object shared by two cards is
    not modelled. *)
Inductive card :=
| CCell (c : cellobj)
| CLike (o : obj)
| CSurface (s : surfobj)
| CComment (text : option str)
| CData (k : cls) (o : obj).
Definition heap := list card.
(** The attributes that [Inp.__init__] sets (Inp.py:175-206). *)
Record problem := mkproblem
  { p_title : str; p_cells : list nat; p_surfaces : list nat; p_data : list nat; p_message : option str; p_other : option str }.
Definition state := (heap * problem)%type.

Fixpoint put (h : heap) (i : nat) (c : card) : heap :=
  match h, i with
  | [], _ => []
  | _ :: t, O => c :: t
  | x :: t, S j => x :: put t j c
  end.

(** [next(filter(lambda card: isinstance(card, inp.X), self.data))] (Inp.py:757, 784,
    800, 829): the first card of class X among the data cards. *)
Definition data_card (n : string) (h : heap) (i : nat) : option (cls * obj) :=
  match nth_error h i with
  | Some (CData k o) => if String.eqb (c_name k) n then Some (k, o) else None
  | _ => None
  end.
Fixpoint first_card (n : string) (h : heap) (l : list nat) : option (nat * cls * obj) :=
  match l with
  | [] => None
  | i :: t => match data_card n h i with Some (k, o) => Some (i, k, o) | None => first_card n h t end
  end.
Definition get_attr (n : string) (o : obj) : result (option val) :=
  match assoc n o with Some v => Ok v | None => Py AttributeError end.
(** [self.data = [*self.data, card]] for a new card (Inp.py:787, 840): the setter
    (Inp.py:654-678) keeps every data card. Its test [None in data] compares the
    cards' texts, which always exist here. *)
Definition add_data (s : state) (c : card) : state :=
  let '(h, p) := s in
  (h ++ [c], mkproblem (p_title p) (p_cells p) (p_surfaces p) (p_data p ++ [length h]) (p_message p) (p_other p)).
(** The value converted in the setter, given on to the attribute of the card. *)
Definition arg_of (v : option val) : arg := match v with Some v => AVal v | None => ANone end.

(** * [nps] *)
Definition npp_attr : attr := nth 0 (c_attrs k_Nps) {| a_name := ""; a_ty := One TInt; a_checks := [] |}.
(** Inp.py:746-760. *)
Definition nps_get (s : state) : result (option val) :=
  let '(h, p) := s in
  match first_card "Nps" h (p_data p) with
  | Some (_, _, o) => get_attr "npp" o
  | None => Ok None
  end.
(** Inp.py:762-787. *)
Definition nps_set (a : arg) (s : state) : state * result unit :=
  let '(h, p) := s in
  match conv ext fam (One TInt) a with
  | Ok x =>
      match first_card "Nps" h (p_data p) with
      | Some (i, k, o) =>
          let '(o', r) := set_attr ext fam npp_attr (arg_of x) o in ((put h i (CData k o'), p), r)
      | None =>
          match construct ext fam k_Nps [arg_of x; ANone] with
          | Ok o => (add_data s (CData k_Nps o), Ok tt)
          | Lib e => (s, Lib e)
          | Py e => (s, Py e)
          end
      end
  | Lib e => (s, Lib e)
  | Py e => (s, Py e)
  end.

(** * [seed] *)
Definition seed_attr : attr := nth 0 (c_attrs k_rand_Seed) {| a_name := ""; a_ty := One TInt; a_checks := [] |}.
Definition options_attr : attr := nth 0 (c_attrs k_Rand) {| a_name := ""; a_ty := One TInt; a_checks := [] |}.
Definition as_obj (k : cls) (l : list (option val)) : obj := combine (map a_name (c_attrs k)) l.
Definition as_val (k : cls) (o : obj) : val := VObj k (map snd o).
(** [next(filter(lambda option: isinstance(option, inp.rand.Seed), options))]
    (Inp.py:801, 831): the options before it, the option, those after it. *)
Definition is_seed (v : val) : option (cls * list (option val)) :=
  match v with VObj k l => if String.eqb (c_name k) "rand_Seed" then Some (k, l) else None | _ => None end.
Fixpoint first_seed (l : list val) : option (list val * cls * list (option val) * list val) :=
  match l with
  | [] => None
  | v :: t =>
      match is_seed v with
      | Some (k, x) => Some ([], k, x, t)
      | None => match first_seed t with Some (b, k, x, a) => Some (v :: b, k, x, a) | None => None end
      end
  end.
(** [card_rand.options or []]. *)
Definition options_of (o : obj) : result (list val) :=
  match assoc "options" o with
  | Some (Some (VTup l)) => Ok l
  | Some None => Ok []
  | Some (Some _) => Py TypeError
  | None => Py AttributeError
  end.
(** Inp.py:789-804. *)
Definition seed_get (s : state) : result (option val) :=
  let '(h, p) := s in
  match first_card "Rand" h (p_data p) with
  | None => Ok None
  | Some (_, _, o) =>
      bind (options_of o) (fun l =>
      match first_seed l with
      | None => Ok None
      | Some (_, k, x, _) => get_attr "seed" (as_obj k x)
      end)
  end.
(** Inp.py:806-840. *)
Definition seed_set (a : arg) (s : state) : state * result unit :=
  let '(h, p) := s in
  let new x (f : val -> state * result unit) :=
    match construct ext fam k_rand_Seed [arg_of x] with
    | Ok o => f (as_val k_rand_Seed o)
    | Lib e => (s, Lib e)
    | Py e => (s, Py e)
    end in
  match conv ext fam (One TInt) a with
  | Ok x =>
      match first_card "Rand" h (p_data p) with
      | Some (i, k, o) =>
          match options_of o with
          | Ok l =>
              match first_seed l with
              | Some (b, j, y, t) =>
                  let '(o', r) := set_attr ext fam seed_attr (arg_of x) (as_obj j y) in
                  ((put h i (CData k (upd "options" (Some (VTup (b ++ as_val j o' :: t))) o)), p), r)
              | None =>
                  new x (fun v =>
                    let '(o', r) := set_attr ext fam options_attr (AList (map AVal (l ++ [v]))) o in ((put h i (CData k o'), p), r))
              end
          | Lib e => (s, Lib e)
          | Py e => (s, Py e)
          end
      | None =>
          new x (fun v =>
            match construct ext fam k_Rand [AList [AVal v]] with
            | Ok o => (add_data s (CData k_Rand o), Ok tt)
            | Lib e => (s, Lib e)
            | Py e => (s, Py e)
            end)
      end
  | Lib e => (s, Lib e)
  | Py e => (s, Py e)
  end.
