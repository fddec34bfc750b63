(** Words for the statements about directories of record files: the files that are read, and equal records. *)
From Coq Require Import List ZArith Bool.
From Coq Require Import String.
From Verif Require Import Base FileModel DirModel.
From Verif Require WosModel MedlineModel ProQuestModel ScopusModel.
Import ListNotations.
Local Open Scope list_scope.

Definition ends (t s : str) : Prop := exists x, s = x ++ t.
(** the path of a name in a directory; only that of the root ends in a slash *)
Definition path_in (dir f p : str) : Prop := (ends $"/" dir /\ p = dir ++ f) \/ (~ ends $"/" dir /\ p = dir ++ $"/" ++ f).
(** p is the path of a file with the bytes b whose path has the extension, and that is no cache *)
Definition asked (dir ext : str) (es : list (str * entry)) (p : str) (b : bytes) : Prop :=
  exists f, In (f, AFile b) es /\ path_in dir f p /\ ends ext p /\ ~ ends $"mkRecordDirCache" p.
(** records that a set holds once only: of one kind, and with the same identifier, or bad with the same values and error *)
Definition same_by {I V : Type} (bad1 bad2 : bool) (id1 id2 : I) (v1 v2 : V) (e1 e2 : option exn) : Prop :=
  (bad1 = false /\ bad2 = false /\ id1 = id2) \/ (bad1 = true /\ bad2 = true /\ v1 = v2 /\ e1 = e2).
Definition same_record (r q : record) : Prop :=
  match r, q with
  | WosRec a, WosRec b => same_by (WosModel.wbad a) (WosModel.wbad b) (WosModel.wid a) (WosModel.wid b) (map snd (WosModel.wfields a)) (map snd (WosModel.wfields b)) (WosModel.werr a) (WosModel.werr b)
  | MedlineRec a, MedlineRec b => same_by (MedlineModel.mbad a) (MedlineModel.mbad b) (MedlineModel.mid a) (MedlineModel.mid b) (map snd (MedlineModel.mdata a)) (map snd (MedlineModel.mdata b)) (MedlineModel.merr a) (MedlineModel.merr b)
  | ProQuestRec a, ProQuestRec b => same_by (ProQuestModel.pbad a) (ProQuestModel.pbad b) (ProQuestModel.pid a) (ProQuestModel.pid b) (map snd (ProQuestModel.pdata a)) (map snd (ProQuestModel.pdata b)) (ProQuestModel.perr a) (ProQuestModel.perr b)
  | ScopusRec a, ScopusRec b => same_by (ScopusModel.sbad a) (ScopusModel.sbad b) (ScopusModel.sid a) (ScopusModel.sid b) (map snd (ScopusModel.sdata a)) (map snd (ScopusModel.sdata b)) (ScopusModel.serr a) (ScopusModel.serr b)
  | _, _ => False
  end.
