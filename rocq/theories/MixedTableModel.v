(** RecordCollection.getCitations over records of several databases: recordCollection.py:900-940 and mkRecord.py:546-589, 792-832 (CiteTableModel.v) with the citations of MixedCiteModel.v. *)
From Coq Require Import List ZArith Bool Arith.
From Coq Require Import String.
From Verif Require Import Base CitationModel ValuesModel AnalysisModel CiteTableModel MixedModel MixedNetModel MixedCiteModel.
Import ListNotations.
Local Open Scope list_scope.

Section Table.
Variables upper lower title : str -> str.
Variable all_digits : str -> bool.
Variables word num : char -> bool.
Variable int_of : str -> Z.
(** recordCollection.py:900-940 without field and values, with pandasFriendly; [order] is the order in which the set of citations is walked *)
Definition any_cite_table (order : list cite -> list cite) (counts : bool) (rs : list anyrec) : res cols :=
  let* hs := hold upper lower title all_digits word num int_of rs in
  cite_table (V := str) held_cites counts order None None hs.
End Table.
