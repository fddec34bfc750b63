(** Specification for C104: Scopus records written to a file and read from it again. *)
From Coq Require Import List ZArith Bool Arith.
From Coq Require Import String.
From Verif Require Import Base PyStr CitationModel GrantModel ValuesModel ScopusModel.
Import ListNotations.
Local Open Scope list_scope.

(** the columns that have one of the names all databases share *)
Definition column_named : list (str * str) :=
  [($"year", $"Year"); ($"volume", $"Volume"); ($"beginningPage", $"Page start"); ($"j9", $"Abbreviated Source Title"); ($"citations", $"References");
   ($"authorsShort", $"Authors"); ($"authorsFull", $"Authors"); ($"title", $"Title"); ($"journal", $"Source title"); ($"keywords", $"Index Keywords");
   ($"abstract", $"Abstract"); ($"id", $"EID")].
(** [key] is a column or one of those names for it *)
Definition asks_for (key col : str) : Prop := In (key, col) column_named \/ (key = col /\ In col scopus_header).
(** the record has something in the column *)
Definition has_column (r : srec) (col : str) : Prop := dget col (sdata r) <> None.
(** ... or in whatever column the key asks for *)
Definition has_all (r : srec) (key : str) : Prop := forall col, asks_for key col -> has_column r col.
(** all fields are columns of Scopus *)
Definition only_columns (r : srec) : Prop := forall k, has_column r k -> In k scopus_header.

(** what the value of an empty cell is: not a number, a list with an empty text, an empty text, and in two cases more *)
Definition number_columns : list str := [$"Year"; $"Page count"; $"Cited by"; $"Conference code"].
Definition list_columns : list str :=
  [$"Authors"; $"Authors with affiliations"; $"Author Keywords"; $"Index Keywords"; $"Tradenames"; $"Manufacturers"; $"Correspondence Address"; $"Sponsors"; $"ISBN";
   $"Language of Original Document"].
Definition text_columns : list str :=
  [$"Title"; $"Source title"; $"Volume"; $"Issue"; $"Art. No."; $"Page start"; $"Page end"; $"DOI"; $"Link"; $"Affiliations"; $"Abstract"; $"Molecular Sequence Numbers";
   $"Chemicals/CAS"; $"Editors"; $"Publisher"; $"Conference name"; $"Conference date"; $"Conference location"; $"ISSN"; $"CODEN"; $"PubMed ID"; $"Abbreviated Source Title";
   $"Document Type"; $"Source"; $"EID"].
Section Empty.
Variable upper : str -> str.
Variables word num : char -> bool.
Variable int_of : str -> Z.
Inductive of_empty : str -> res fvalue -> Prop :=
| oe_number : forall col, In col number_columns -> of_empty col (Raise ValueError)
| oe_list : forall col, In col list_columns -> of_empty col (Ok (FTexts [[]]))
| oe_text : forall col, In col text_columns -> of_empty col (Ok (FText []))
| oe_grant : of_empty $"Funding Details" (Ok (FGrants [scopus_grant []]))
| oe_cites : of_empty $"References" (Ok (FScopusCites [CitationModel.scopus_citation word num int_of upper []]))
| oe_none : of_empty $"Funding Text" (Raise KeyError).
End Empty.
