(** Series, co-occurrence tables and networks of the tags of WOS records: the functions of SeriesModel.v and NetModel.v
    (mkCollection.py:569-1110) over records whose fields are looked up as in WosNetModel.v. *)
From Coq Require Import List ZArith Lia Bool Arith.
From Coq Require Import String.
From Verif Require Import Base PyStr CitationModel RecordModel RecordView GrantModel ValuesModel WosNetModel Nx.
From Verif Require NetModel SeriesModel WosModel.
Import ListNotations.
Local Open Scope list_scope.

(** the values that are counted: citations are equal if their IDs are (citation.py:174-190), and never equal to texts or
    numbers.  Of equal citations the first is the one that is shown; here only the ID is kept. *)
Inductive atom := AText (s : str) | ANum (z : Z) | ACite (id : str) | ANone.
#[global] Instance EqDec_atom : EqDec atom.
Proof. intros x y; unfold EqDec; decide equality; apply eq_dec. Defined.
(** the other kinds of values are not those of WOS tags *)
Definition atoms_of (v : fvalue) : fval atom :=
  match v with
  | FText s => One (AText s)
  | FTexts l => Many (map AText l)
  | FInt z => One (ANum z)
  | FCites l => Many (map (fun c => ACite (c_id c)) l)
  | _ => Many []
  end.
(** str(v) of the values: citation.py:156-163 for citations *)
Definition names_of (v : fvalue) : fval str :=
  match v with
  | FText s => One s
  | FTexts l => Many l
  | FInt z => One (dec_Z z)
  | FCites l => Many (map c_original l)
  | _ => Many []
  end.

Section WosTags.
Variables upper lower title : str -> str.
Variable all_digits : str -> bool.
Notation wrec := WosModel.wrec.
(** R[key]; nothing is cached yet, as for wos_get *)
Definition wos_item (r : wrec) (key : str) : res fvalue :=
  match getitem (kind_of upper lower title all_digits r) (WosModel.wfields r) 2 key [] with Some (x, _) => x | None => Raise RuntimeError end.
Definition wos_lookup (r : wrec) (key : str) : res (fval atom) := let* v := wos_item r key in Ok (atoms_of v).
(** mkCollection.py:706: R['year'] *)
Definition wos_year (r : wrec) : res Z :=
  let* v := wos_item r $"year" in match v with FInt z => Ok z | _ => Raise TypeError end.
(** mkCollection.py:569-663 *)
Definition wos_ranked (key : str) (give_counts give_ranks greatest pandas : bool) (limit : list atom) (rs : list wrec) : res SeriesModel.series :=
  SeriesModel.ranked_series wos_lookup key give_counts give_ranks greatest pandas limit rs.
(** mkCollection.py:665-747 *)
Definition wos_times (key : str) (give_years greatest pandas : bool) (limit : list atom) (rs : list wrec) : res (SeriesModel.tseries atom) :=
  SeriesModel.time_series wos_lookup wos_year key give_years greatest pandas limit rs.
(** mkCollection.py:749-806 *)
Definition wos_cooccurrence (key : str) (keys : list str) (rs : list wrec) : res (SeriesModel.occ (V := atom)) :=
  SeriesModel.cooccurrence_counts wos_lookup ANone key keys rs.
(** mkCollection.py:871, 1093: R.get(key) for the tags of the network.  The program alternates between looking values up
    and adding them to the network; here all of them are looked up first. *)
Fixpoint wos_shown (keys : list str) (r : wrec) : res (dict str (fval str)) :=
  match keys with
  | [] => Ok []
  | k :: ks => let* o := wos_get upper lower title all_digits r k in let* d := wos_shown ks r in
    Ok (match o with Some v => (k, names_of v) :: d | None => d end)
  end.
Fixpoint wos_every (keys : list str) (rs : list wrec) : res (list (dict str (fval str))) :=
  match rs with [] => Ok [] | r :: rs' => let* d := wos_shown keys r in let* ds := wos_every keys rs' in Ok (d :: ds) end.
(** mkCollection.py:808-887 and, with one tag, 889-1001; no stemmer *)
Definition wos_levels (keys : list str) (nodeCount edgeWeight : bool) (rs : list wrec) : res (graph str) :=
  let* ds := wos_every keys rs in
  NetModel.multi_level (fun (d : dict str (fval str)) k => dget k d) (fun s : str => s) keys nodeCount edgeWeight ds.
(** mkCollection.py:1003-1110; no stemmers *)
Definition wos_two_mode (key1 key2 : str) (directed recordType nodeCount edgeWeight : bool) (rs : list wrec) : res (graph str) :=
  let* ds := wos_every [key1; key2] rs in
  NetModel.two_mode (fun (d : dict str (fval str)) k => dget k d) (fun s : str => s) (fun s : str => s) (fun _ => false) key1 key2
    directed recordType nodeCount edgeWeight ds.
End WosTags.
