(** What writeFile of a RecordCollection does to the disk, for records of all kinds: metaknowledge/recordCollection.py 215-245, with writeRecord of
    WOS/recordWOS.py 125-144, medline/recordMedline.py 65-88, scopus/recordScopus.py 101-105 and proquest/recordProQuest.py 67-68.
    A disk is the bytes of its files by name; the directory in which the program runs stays the same and there are no links.  What is done is a
    list of events, one for each call of f.write.  A file that is still open when an exception ends the call is taken to have what was written to
    it.  Line ends are those of POSIX. *)
From Coq Require Import List ZArith Lia Bool Arith.
From Coq Require Import String.
From Verif Require Import Base PyStr FileModel.
From Verif Require WosModel MedlineModel ProQuestModel ScopusModel.
Import ListNotations.
Local Open Scope list_scope.

Inductive event := Open (file : str) | Put (file : str) (b : bytes).
Definition disk := dict str bytes.
(** open(file, mode = 'w') makes the file empty; what is written is appended *)
Definition happen (d : disk) (e : event) : disk :=
  match e with
  | Open f => dset f [] d
  | Put f b => dset f (match dget f d with Some o => o ++ b | None => b end) d
  end.
Definition run (d : disk) (l : list event) : disk := fold_left happen l d.

(** encoding() of the records: recordWOS.py:91-93, recordMedline.py:48-50, recordScopus.py:85-87, recordProQuest.py:48-50 *)
Inductive codec := Utf8 | Latin1.
Definition rec_codec (r : record) : codec := match r with MedlineRec _ => Latin1 | _ => Utf8 end.
Definition encode (c : codec) (s : str) : res bytes := match c with Utf8 => utf8_encode s | Latin1 => latin_encode s end.

(** ** The texts a record gives to f.write one after the other, and the exception that ends it *)
(** recordWOS.py:137-144 *)
Definition wos_writes (d : WosModel.fields) : list str :=
  flat_map (fun tv : str * list str => match snd tv with
    | [] => []
    | v :: vs => (fst tv ++ [sp]) :: (v ++ [nl]) :: flat_map (fun w => [$"   "; w ++ [nl]]) vs
    end) d ++ [$"ER" ++ [nl]].
(** recordMedline.py:80-88; authTags (71-79) is MedlineModel.author_lines *)
Definition medline_writes (d : MedlineModel.mfields) : list str :=
  let al := MedlineModel.author_lines d in
  flat_map (fun tv : str * list str =>
    if mem (fst tv) MedlineModel.author_tags then []
    else flat_map (fun v => MedlineModel.entry (fst tv) v :: (if eqb (fst tv) $"AU" then match dget v al with Some ls => ls | None => [] end else [])) (snd tv)) d.
(** writeRecord of the four kinds *)
Definition record_writes (r : record) : list str * option exn :=
  match r with
  | WosRec r => if WosModel.wbad r then ([], Some BadWOSRecord) else (wos_writes (WosModel.wfields r), None)
  | MedlineRec r => if MedlineModel.mbad r then ([], Some BadPubmedRecord) else (medline_writes (MedlineModel.mdata r), None)
  | ScopusRec r => if ScopusModel.sbad r then ([], Some BadScopusRecord) else ([ScopusModel.write_scopus (ScopusModel.sdata r)], None)
  | ProQuestRec _ => ([], Some RecordsNotCompatible)
  end.
(** recordCollection.py:240-242, the records in the order of the set *)
Fixpoint all_writes (rs : list record) : list str * option exn :=
  match rs with
  | [] => ([], None)
  | r :: rs' =>
    match record_writes r with
    | (p, Some e) => (p, Some e)
    | (p, None) => let '(q, y) := all_writes rs' in (p ++ [nl] :: q, y)
    end
  end.
(** 232-239 *)
Definition head_writes (types : list str) : list str :=
  if eqb types [$"WOSRecord"] then [[bom] ++ $"FN Thomson Reuters Web of Science" ++ [8482%N; nl]; $"VR 1.0" ++ [nl]]
  else if eqb types [$"MedlineRecord"] then [[nl]]
  else if eqb types [$"ScopusRecord"] then [[bom] ++ join [ScopusModel.comma] ScopusModel.scopus_header ++ [nl]]
  else [].
(** 243-244 *)
Definition foot_writes (types : list str) : list str := if eqb types [$"WOSRecord"] then [$"EF"] else [].
Definition file_writes (types : list str) (rs : list record) : list str * option exn :=
  let '(p, x) := all_writes rs in (head_writes types ++ p ++ match x with None => foot_writes types | Some _ => [] end, x).
(** f.write encodes its text; the first that has no encoding ends it *)
Fixpoint encode_all (c : codec) (ps : list str) : list bytes * option exn :=
  match ps with
  | [] => ([], None)
  | p :: ps' =>
    match encode c p with
    | Raise e => ([], Some e)
    | Ok b => let '(bs, x) := encode_all c ps' in (b :: bs, x)
    end
  end.

Section Write.
(** whether open(file, 'w') would work: the directory exists, the file is no directory, there is permission *)
Variable can_open : str -> bool.
(** 228-231: fname, or the first 200 characters of the name of the collection *)
Definition target (fname : option str) (name : str) : str := match fname with Some (c :: f) => c :: f | _ => firstn 200 name ++ $".txt" end.
(** 224-245; [types] is the set of the collected types, [rs] the records in the order of the set *)
Definition write_disk (fname : option str) (name : str) (types : list str) (rs : list record) : list event * res unit :=
  match (if length types <? 2 then option_map rec_codec (hd_error rs) else Some Utf8) with
  | None => ([], Raise AttributeError)
  | Some c =>
    let f := target fname name in
    if can_open f then
      let '(ps, x) := file_writes types rs in
      let '(bs, y) := encode_all c ps in
      (Open f :: map (Put f) bs, match y, x with Some e, _ => Raise e | None, Some e => Raise e | None, None => Ok tt end)
    else ([], Raise OSError)
  end.
End Write.
