(** Model of RecordCollection(path) for the path of a directory, without a cache (recordCollection.py 108-147); CacheModel.v has the caches, with abstract readers of files. *)
From Coq Require Import List ZArith Lia Bool Arith.
From Coq Require Import String.
From Verif Require Import Base PyStr FileModel.
From Verif Require WosModel MedlineModel ProQuestModel ScopusModel.
Import ListNotations.
Local Open Scope list_scope.

(** what os.listdir gives the name of: a file with its bytes, or something else *)
Inductive entry := AFile (b : bytes) | Other.
(** os.path.join of an absolute path *)
Definition full (dir f : str) : str := if ends_in $"/" dir then dir ++ f else dir ++ $"/" ++ f.
(** recordCollection.py:116-119 *)
Fixpoint listed (dir ext : str) (es : list (str * entry)) : list (str * bytes) :=
  match es with
  | [] => []
  | (f, Other) :: es' => listed dir ext es'
  | (f, AFile b) :: es' =>
    let p := full dir f in
    if ends_in ext p && negb (ends_in $"mkRecordDirCache" p) then (p, b) :: listed dir ext es' else listed dir ext es'
  end.
(** recordCollection.py:111-114 *)
Definition dir_name (dir name ext : str) : str :=
  match name, ext with
  | [], [] => $"files-from-" ++ dir
  | [], _ => ext ++ $"-files-from-" ++ dir
  | _, _ => name
  end.
(** Equality of records, mkRecord.py:90-104, 128-146: the types are the same and the keys *)
Inductive anykey := KWos (k : WosModel.wkey) | KMed (k : MedlineModel.mkey) | KPro (k : ProQuestModel.pkey) | KSco (k : ScopusModel.skey).
#[global] Instance EqDec_anykey : EqDec anykey.
Proof. intros x y; unfold EqDec; decide equality; apply eq_dec. Defined.
Definition anykey_of (r : record) : anykey :=
  match r with WosRec r => KWos (WosModel.rkey r) | MedlineRec r => KMed (MedlineModel.mkey_of r) | ProQuestRec r => KPro (ProQuestModel.pkey_of r) | ScopusRec r => KSco (ScopusModel.skey_of r) end.
(** recordsSet |= recs, set.add and a new key of a dict: what is there already stays *)
Definition add_record (s : list record) (r : record) : list record := if mem (anykey_of r) (map anykey_of s) then s else s ++ [r].
Definition add_str (t : str) (l : list str) : list str := if mem t l then l else l ++ [t].
(** the first handler that detects the file; None is UnknownFile of the last one, fileHandlers.py:21-22 and 42 *)
Fixpoint first_kind (hs : list source) (b : bytes) : option source :=
  match hs with [] => None | k :: hs' => if detector k b then Some k else first_kind hs' b end.
Section Dir.
(** str.isalpha *)
Variable alpha : char -> bool.
(** recordCollection.py:131-147 *)
Fixpoint read_files (ext : str) (fl : list (str * bytes)) (c : fcoll) : res fcoll :=
  match fl with
  | [] => Ok c
  | (p, b) :: fl' =>
    match first_kind handlers b with
    | None => if eqb ext [] then read_files ext fl' c else Raise BadInputFile
    | Some k =>
      let* (rs, e) := processor alpha k b in
      read_files ext fl' (mkFcoll (fold_left add_record rs (f_recs c)) (add_str (type_name k) (f_types c)) (f_name c) (f_bad c || e)%bool (if e then add_str p (f_errors c) else f_errors c))
    end
  end.
(** recordCollection.py:108-147 *)
Definition read_dir (dir name ext : str) (es : list (str * entry)) : res fcoll :=
  read_files ext (listed dir ext es) (mkFcoll [] [] (dir_name dir name ext) false []).
End Dir.
