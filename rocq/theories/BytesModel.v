(** Model of bytes(record) (mkRecord.py 176-190) and bytes(collection) (recordCollection.py 172-177). *)
From Coq Require Import List ZArith Lia Bool Arith.
From Coq Require Import String.
From Verif Require Import Base PyStr FileModel.
From Verif Require WosModel MedlineModel ProQuestModel ScopusModel.
Import ListNotations.
Local Open Scope list_scope.

(** the elements of the value of a field, as enumerate gives them: a list of lines, or the characters of a text *)
Inductive fvalue := Lines (l : list str) | Text (s : str).
Definition elements (v : fvalue) : list str := match v with Lines l => l | Text s => map (fun c => [c]) s end.
(** mkRecord.py:183-188 *)
Definition field_text (tag : str) (v : fvalue) : str :=
  match elements v with
  | [] => []
  | x :: xs => tag ++ $" " ++ x ++ [nl] ++ flat_map (fun y => $"   " ++ y ++ [nl]) xs
  end.
(** mkRecord.py:176-190; the encodings are in recordWOS.py:93, recordMedline.py:50, recordScopus.py:87 and recordProQuest.py:50 *)
Definition fields_bytes (enc : str -> res bytes) (bad : bool) (d : list (str * fvalue)) : res bytes :=
  if bad then Raise BadRecord else enc (flat_map (fun e => field_text (fst e) (snd e)) d ++ $"ER" ++ [nl]).
Definition lined (d : dict str (list str)) : list (str * fvalue) := map (fun e => (fst e, Lines (snd e))) d.
Definition record_bytes (r : record) : res bytes :=
  match r with
  | WosRec r => fields_bytes utf8_encode (WosModel.wbad r) (lined (WosModel.wfields r))
  | MedlineRec r => fields_bytes latin_encode (MedlineModel.mbad r) (lined (MedlineModel.mdata r))
  | ProQuestRec r => fields_bytes utf8_encode (ProQuestModel.pbad r) (lined (ProQuestModel.pdata r))
  | ScopusRec r => fields_bytes utf8_encode (ScopusModel.sbad r) (map (fun e => (fst e, Text (snd e))) (ScopusModel.sdata r))
  end.
Fixpoint all_bytes (rs : list record) : res (list bytes) :=
  match rs with
  | [] => Ok []
  | r :: rs' => let* b := record_bytes r in let* bs := all_bytes rs' in Ok (b :: bs)
  end.
(** recordCollection.py:172-177; peek() of an empty collection is None; the newline is the same byte in every encoding used *)
Definition collection_bytes (rs : list record) : res bytes :=
  match rs with [] => Raise AttributeError | _ => let* bs := all_bytes rs in Ok (join [10%N] bs) end.
