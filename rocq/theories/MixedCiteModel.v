(** Questions about the citations of collections with records of several databases: localCitesOf, localCiteStats and citeFilter of AnalysisModel.v over the records of MixedNetModel.v. *)
From Coq Require Import List ZArith Lia Bool Arith.
From Coq Require Import String.
From Verif Require Import Base PyStr CitationModel RecordModel GrantModel ValuesModel AnalysisModel MixedModel MixedNetModel.
Import ListNotations.
Local Open Scope list_scope.

(** the attributes of a citation, citation.py:64-151 *)
Definition to_cite (c : acite) : cite := match c with CWos c => of_wos c | CScopus s c => of_scopus s c end.
Section MixedCite.
Variables upper lower title : str -> str.
Variable all_digits : str -> bool.
Variables word num : char -> bool.
Variable int_of : str -> Z.
Notation any_self := (any_self upper lower title all_digits word num int_of).
Notation any_cites := (any_cites upper lower title all_digits word num int_of).
(** a record and R.get('citations'). The code reads the citations of the records one after the other while it goes through them; here all are read first, an
    exception of one of them ends the call in both (simplified: before others that the call itself would raise) *)
Definition held := (anyrec * list acite)%type.
Fixpoint hold (rs : list anyrec) : res (list held) :=
  match rs with [] => Ok [] | r :: rs' => let* l := any_cites r in let* hs := hold rs' in Ok ((r, l) :: hs) end.
Definition held_cites (h : held) : option (list cite) := Some (map to_cite (snd h)).
Definition held_id (h : held) : str := any_id (fst h).
(** recordCollection.py:1474-1501 for a string: the ID of a record (mkCollection.py:469-487), whose citation is looked for *)
Definition any_local_cites_of (rs : list anyrec) (s : str) : res (list anyrec) :=
  let* hs := hold rs in
  match get_id held_id hs s with
  | None => Ok []
  | Some h => let* c := any_self (fst h) in Ok (map fst (citing held_cites hs (to_cite c)))
  end.
(** recordCollection.py:1490-1501 for a citation *)
Definition any_local_cites_to (rs : list anyrec) (c : acite) : res (list anyrec) :=
  let* hs := hold rs in Ok (map fst (citing held_cites hs (to_cite c))).
(** recordCollection.py:1425-1457 *)
Definition any_local_cite_stats (rs : list anyrec) (key_type : str) : res (dict ckey nat) := let* hs := hold rs in local_cite_stats held_cites hs key_type.
(** recordCollection.py:1534-1615; records are compared by their IDs, mkRecord.py:172-186 *)
Definition any_cite_filter (rs : list anyrec) (k field : str) (reverse case_sensitive : bool) : res (list anyrec) :=
  let* hs := hold rs in
  let* found := matching held_cites upper k field case_sensitive hs in
  Ok (map fst (if reverse then filter (fun h => negb (mem (held_id h) (map held_id found))) hs else found)).
End MixedCite.
