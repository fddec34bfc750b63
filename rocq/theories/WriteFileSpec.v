(** C97: what the file written by writeFile should hold, without the single calls of f.write. *)
From Coq Require Import List ZArith Lia Bool Arith.
From Coq Require Import String.
From Verif Require Import Base PyStr FileModel WriteFileModel.
From Verif Require WosModel MedlineModel ProQuestModel ScopusModel.
Import ListNotations.
Local Open Scope list_scope.

(** the text of one record (C22, C24, C25); ProQuest records have none *)
Definition text_of (r : record) : res str :=
  match r with
  | WosRec r => WosModel.write_record r
  | MedlineRec r => MedlineModel.write_mrec r
  | ScopusRec r => ScopusModel.write_srec r
  | ProQuestRec _ => Raise RecordsNotCompatible
  end.
Definition has_text (r : record) (t : str) : Prop := text_of r = Ok t.
(** the records' texts with a line end after each *)
Definition body (ts : list str) : str := concat (map (fun t => t ++ [nl]) ts).
(** a collection of which only one type is known has the first lines of files of that kind *)
Definition first_lines (types : list str) : str :=
  if eqb types [$"WOSRecord"] then WosModel.wos_header
  else if eqb types [$"MedlineRecord"] then [nl]
  else if eqb types [$"ScopusRecord"] then [bom] ++ join [ScopusModel.comma] ScopusModel.scopus_header ++ [nl]
  else [].
Definition last_line (types : list str) : str := if eqb types [$"WOSRecord"] then $"EF" else [].
(** the codec: that of the first record if there are less than two types *)
Definition codec_for (types : list str) (rs : list record) (c : codec) : Prop :=
  (2 <= length types /\ c = Utf8) \/ (length types < 2 /\ exists r rs', rs = r :: rs' /\ c = rec_codec r).

(** The disks that can be found if the program or the machine is stopped at some time: all events up to then have happened, and of what is
    being written a part.  (Of what is still in buffers nothing is on the disk: that is the disk of an earlier time.) *)
Definition seen (d : disk) (l : list event) (d' : disk) : Prop :=
  exists before after, l = before ++ after /\
    (d' = run d before \/ exists f b1 b2 after', after = Put f (b1 ++ b2) :: after' /\ d' = run d (before ++ [Put f b1])).

(** the file that a call names: the one given, or for no name or an empty one the name of the collection, at most 200 characters of it, with .txt *)
Definition file_named (fname : option str) (name file : str) : Prop :=
  (fname = Some file /\ file <> []) \/
  ((fname = None \/ fname = Some []) /\ exists stem rest, name = stem ++ rest /\ file = stem ++ $".txt" /\ length stem <= 200 /\ (rest = [] \/ length stem = 200)).
