(** What records show as texts, and the grants of records of the four databases: mkRecord.py:150-174. *)
From Coq Require Import List ZArith Bool Arith.
From Coq Require Import String.
From Verif Require Import Base PyStr CitationModel TagNames RecordModel GrantModel ValuesModel WosModel WosNetModel MixedModel.
From Verif Require MedlineModel ScopusModel ProQuestModel.
Import ListNotations.
Local Open Scope list_scope.

(** type(self).__name__: WOS/recordWOS.py:14, medline/recordMedline.py:13, scopus/recordScopus.py:58, proquest/recordProQuest.py:11 *)
Definition type_name (r : anyrec) : str :=
  match r with AnyWos _ => $"WOSRecord" | AnyMedline _ => $"MedlineRecord" | AnyScopus _ => $"ScopusRecord" | AnyProQuest _ => $"ProQuestRecord" end.
(** self.bad: mkRecord.py:81 *)
Definition is_bad (r : anyrec) : bool :=
  match r with AnyWos r => wbad r | AnyMedline r => MedlineModel.mbad r | AnyScopus r => ScopusModel.sbad r | AnyProQuest r => ProQuestModel.pbad r end.
(** self.id as format shows it: mkRecord.py:223-225; None is shown as its name *)
Definition id_text (r : anyrec) : str :=
  let shown (o : option str) := match o with Some i => i | None => $"None" end in
  match r with AnyWos r => wid r | AnyMedline r => shown (MedlineModel.mid r) | AnyScopus r => shown (ScopusModel.sid r) | AnyProQuest r => ProQuestModel.pid r end.

Section Show.
Variables upper lower title : str -> str.
Variable all_digits : str -> bool.
Variables word num : char -> bool.
Variable int_of : str -> Z.
Variable scopus_own : list str -> res fvalue.
Variable scopus_spoilt : fvalue -> bool.
Variable scopus_mend : fvalue -> option fvalue -> option fvalue -> option fvalue -> res fvalue.
Notation look := (any_get upper lower title all_digits word num int_of scopus_own scopus_spoilt scopus_mend).
(** mkRecord.py:150-160; the texts of values that are no texts are not modelled, titles are texts *)
Definition str_of_record (r : anyrec) : res str :=
  let* o := look r $"title" in
  match o with
  | None => Ok (type_name r ++ $"(" ++ id_text r ++ $")")
  | Some (FText s) => Ok (type_name r ++ $"(" ++ s ++ $")")
  | Some _ => Raise EOther
  end.
(** mkRecord.py:162-174 *)
Definition repr_of_record (r : anyrec) : str :=
  if is_bad r then $"<metaknowledge." ++ type_name r ++ $" object BAD>"
  else $"<metaknowledge." ++ type_name r ++ $" object " ++ id_text r ++ $">".
(** R.get('grants', []): WOS/recordWOS.py:110-111, medline/tagProcessing/specialFunctions.py:58; the entries of the other two databases are commented out *)
Definition grants_of_record (r : anyrec) : res (list grant) :=
  let* o := look r $"grants" in
  match o with None => Ok [] | Some (FGrants l) => Ok l | Some _ => Raise TypeError end.
End Show.
