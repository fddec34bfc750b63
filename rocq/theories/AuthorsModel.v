(** The authors that networkCoAuthor, the num-Authors column and the gender counts take of records of the four databases. *)
From Coq Require Import List ZArith Lia Bool Arith.
From Coq Require Import String.
From Verif Require Import Base PyStr RecordModel GrantModel ValuesModel MixedModel Nx.
From Verif Require CiteNetModel AnalysisModel.
Import ListNotations.
Local Open Scope list_scope.

Section Authors.
Variables upper lower title : str -> str.
Variable all_digits : str -> bool.
Variables word num : char -> bool.
Variable int_of : str -> Z.
Variable scopus_own : list str -> res fvalue.
Variable scopus_spoilt : fvalue -> bool.
Variable scopus_mend : fvalue -> option fvalue -> option fvalue -> option fvalue -> res fvalue.

(** R.get('authorsShort', []), or 'authorsFull', and what going over it gives: recordCollection.py:1020-1026, genders/nameGender.py:68-69.
    Going over a string gives its characters. *)
Definition any_authors (short : bool) (r : anyrec) : res (list str) :=
  let* o := any_get upper lower title all_digits word num int_of scopus_own scopus_spoilt scopus_mend r (if short then $"authorsShort" else $"authorsFull") in
  match o with
  | None => Ok []
  | Some (FTexts l) => Ok l
  | Some (FText s) => Ok (map (fun c => [c]) s)
  | Some _ => Raise TypeError
  end.
Fixpoint every_authors (short : bool) (rs : list anyrec) : res (list (list str)) :=
  match rs with [] => Ok [] | r :: rs' => let* l := any_authors short r in let* ls := every_authors short rs' in Ok (l :: ls) end.
(** recordCollection.py:942-1073, networkCoAuthor without detailedInfo, dropNonJournals and citeProfile *)
Definition any_co_author (short weighted counted : bool) (rs : list anyrec) : res (graph str) :=
  let* ls := every_authors short rs in CiteNetModel.co_author (fun l => l) (fun _ => true) (fun _ => []) weighted false counted ls.
(** recordCollection.py:351, 745: len(R.get('authorsShort', [])), the column num-Authors of writeCSV and makeDict *)
Definition num_authors (r : anyrec) : res nat := let* l := any_authors true r in Ok (length l).
(** recordCollection.py:885-892 and mkRecord.py:677-686, genderStats(); [mapping] is the table of names *)
Definition any_genders (mapping : dict str AnalysisModel.gender) (rs : list anyrec) : res (nat * nat * nat) :=
  let* ls := every_authors false rs in Ok (AnalysisModel.gender_stats title mapping (fun l => l) ls).
End Authors.
