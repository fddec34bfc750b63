(** RecordCollection.makeDict over records of several databases: recordCollection.py:698-753 (AnalysisModel.v) with R.get of the four kinds of records. *)
From Coq Require Import List ZArith Bool Arith.
From Coq Require Import String.
From Verif Require Import Base PyStr CitationModel TagNames RecordModel ValuesModel WosModel AnalysisModel MixedModel.
From Verif Require MedlineModel ScopusModel ProQuestModel.
Import ListNotations.
Local Open Scope list_scope.

(** R.keys(): mkRecord.py:115-118, the keys of the dictionary that the record was read into *)
Definition any_keys (r : anyrec) : list str :=
  match r with
  | AnyWos r => dkeys (wfields r)
  | AnyMedline r => dkeys (MedlineModel.mdata r)
  | AnyScopus r => dkeys (ScopusModel.sdata r)
  | AnyProQuest r => dkeys (ProQuestModel.pdata r)
  end.
Section Dict.
Variables upper lower title : str -> str.
Variable all_digits : str -> bool.
Variables word num : char -> bool.
Variable int_of : str -> Z.
Variable scopus_own : list str -> res fvalue.
Variable scopus_spoilt : fvalue -> bool.
Variable scopus_mend : fvalue -> option fvalue -> option fvalue -> option fvalue -> res fvalue.
Notation look := (any_get upper lower title all_digits word num int_of scopus_own scopus_spoilt scopus_mend).
(** mkRecord.py:591-613 *)
Fixpoint read_tags (tags : list str) (r : anyrec) : res (dict str fvalue) :=
  match tags with
  | [] => Ok []
  | t :: ts => let* o := look r t in let* d := read_tags ts r in Ok (match o with Some v => (t, v) :: d | None => d end)
  end.
Fixpoint read_rows (tags : list str) (rs : list anyrec) : res (list (anyrec * dict str fvalue)) :=
  match rs with [] => Ok [] | r :: rs' => let* d := read_tags tags r in let* ds := read_rows tags rs' in Ok ((r, d) :: ds) end.
(** recordCollection.py:698-753 without longNames, raw, numAuthors and genderCounts. All values are read before the table is filled; the code fills it record by record, which
    shows only in which of several exceptions is raised *)
Definition any_make_dict (rs : list anyrec) (only : list str) : res (dict str (list (cell fvalue))) :=
  let fields := match only with [] => all_tags any_keys rs | _ => normal_tags full_to_tag only end in
  let* rows := read_rows fields rs in
  make_dict (fun row => any_keys (fst row)) (fun (row : anyrec * dict str fvalue) t => dget t (snd row)) (fun _ => 0) (fun _ => (0, 0, 0)) full_to_tag [] rows only false false false.
End Dict.
