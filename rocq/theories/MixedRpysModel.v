(** rpys of collections with records of several databases: recordCollection.py:755-869 as in AnalysisModel.v, over the records of MixedNetModel.v. *)
From Coq Require Import List ZArith Lia Bool Arith.
From Coq Require Import String.
From Verif Require Import Base PyStr CitationModel RecordModel GrantModel ValuesModel AnalysisModel MixedModel MixedNetModel MixedCiteModel YearsModel.
Import ListNotations.
Local Open Scope list_scope.

Section MixedRpys.
Variables upper lower title : str -> str.
Variable all_digits : str -> bool.
Variables word num : char -> bool.
Variable int_of : str -> Z.
(** the order in which a python set of years is gone through *)
Variable order : list Z -> list Z.
(** a record, R['citations'] and R.get('year', float('inf')) *)
Definition dated := (held * option yearval)%type.
(** recordCollection.py:799-805: the year is read only of records with citations. As in MixedCiteModel.v all is read first, before anything is counted
    (simplified: an exception of a later record comes before one of the counting) *)
Fixpoint date (hs : list held) : res (list dated) :=
  match hs with
  | [] => Ok []
  | h :: hs' =>
    let* y := match snd h with
              | [] => Ok None
              | _ => match any_yearval upper lower title all_digits word num int_of text_of not_spoilt no_mend (fst h) with
                     | Ok y => Ok (Some y) | Raise KeyError => Ok None | Raise e => Raise e end
              end in
    let* ds := date hs' in Ok ((h, y) :: ds)
  end.
(** recordCollection.py:755-869 *)
Definition any_rpys (rs : list anyrec) (lo hi : option Z) (dy : drop) (rank_empty : bool) : res (list row) :=
  let* hs := hold upper lower title all_digits word num int_of rs in
  let* ds := date hs in
  rpys (fun d : dated => held_cites (fst d)) (fun d : dated => snd d) order ds lo hi dy rank_empty.
End MixedRpys.
