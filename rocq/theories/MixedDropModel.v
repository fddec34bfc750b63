(** RecordCollection.dropNonJournals over records of several databases: recordCollection.py:192-214 with R['pubType'] of the four kinds of records. *)
From Coq Require Import List ZArith Bool Arith.
From Coq Require Import String.
From Verif Require Import Base CitationModel RecordModel ValuesModel MixedModel CollectionModel DropModel ShowModel.
Import ListNotations.
Local Open Scope list_scope.

Section Drop.
Variables upper lower title : str -> str.
Variable all_digits : str -> bool.
Variables word num : char -> bool.
Variable int_of : str -> Z.
Variable scopus_own : list str -> res fvalue.
Variable scopus_spoilt : fvalue -> bool.
Variable scopus_mend : fvalue -> option fvalue -> option fvalue -> option fvalue -> res fvalue.
(** recordCollection.py:212: r['pubType'] compared with a text; None is a value that is no text *)
Definition pub_type (r : anyrec) : res (option str) :=
  let* v := any_item upper lower title all_digits word num int_of scopus_own scopus_spoilt scopus_mend r $"pubType" in
  Ok (match v with FText s => Some s | _ => None end).
(** recordCollection.py:192-214; [EL] tells when two records are equal, see C107 *)
Definition any_drop_non_journals {K : Type} {HK : EqDec K} (EL : Elem anyrec K) (ptVal : str) (dropBad invert : bool) (c : coll anyrec) : coll anyrec * option exn :=
  dropNonJournals pub_type upper ptVal dropBad invert c.
End Drop.
