(** glimpse of collections with records of several databases. *)
From Coq Require Import List ZArith Lia Bool Arith.
From Coq Require Import String.
From Verif Require Import Base PyStr RecordModel RecordView ValuesModel WosTagsModel MixedModel GlimpseModel.
Import ListNotations.
Local Open Scope list_scope.

(** str of a value in the table: RCglimpse.py:33-34.  [cite_text] gives the text of the citation that the series has for an ID, the first one that was met
    (citation.py:156-163); it is a parameter, as the series are modelled with IDs (WosTagsModel.v) *)
Definition show_atom (cite_text : str -> str) (a : atom) : str :=
  match a with AText s => s | ANum z => dec_Z z | ACite i => cite_text i | ANone => $"None" end.
Section Glimpse.
Variables upper lower title : str -> str.
Variable all_digits : str -> bool.
Variables word num : char -> bool.
Variable int_of : str -> Z.
Variable own : list str -> res fvalue.
Variable spoilt : fvalue -> bool.
Variable mend : fvalue -> option fvalue -> option fvalue -> option fvalue -> res fvalue.
(** mkCollection.py:525-567, RCglimpse.py:18-40 *)
Definition any_glimpse (cite_text : str -> str) (cls now name : str) (rs : list anyrec) (tags : list str) (cols rows : Z) (compact : bool) : res (list str) :=
  glimpse_of (any_lookup upper lower title all_digits word num int_of own spoilt mend) (show_atom cite_text) cls now name rs tags cols rows compact.
End Glimpse.
