(** Model of the files a RecordCollection is made from and written to, as bytes: metaknowledge/fileHandlers.py, and of recordCollection.py the
    branch of __init__ for the path of a file (lines 89-109) and the encoding in writeFile (lines 225-245). *)
From Coq Require Import List ZArith Lia Bool Arith.
From Coq Require Import String.
From Verif Require Import Base PyStr.
From Verif Require WosModel MedlineModel ProQuestModel ScopusModel.
Import ListNotations.
Local Open Scope list_scope.

(** ** Encodings (codecs of python; a byte is a number below 256) *)
Definition bytes := list N.
Definition surrogate (c : char) : bool := ((55296 <=? c) && (c <? 57344))%N.
(** numbers that are not those of characters have no encoding either *)
Definition no_code (c : char) : bool := surrogate c || (1114112 <=? c)%N.
(** the bytes of one character in utf-8 *)
Definition utf8_char (c : char) : bytes :=
  (if c <? 128 then [c]
   else if c <? 2048 then [192 + c / 64; 128 + c mod 64]
   else if c <? 65536 then [224 + c / 4096; 128 + c / 64 mod 64; 128 + c mod 64]
   else [240 + c / 262144; 128 + c / 4096 mod 64; 128 + c / 64 mod 64; 128 + c mod 64])%N.
(** text.encode('utf-8'); UnicodeEncodeError is a ValueError *)
Definition utf8_encode (s : str) : res bytes := if existsb no_code s then Raise ValueError else Ok (flat_map utf8_char s).
Definition tail_byte (b : N) : bool := ((128 <=? b) && (b <? 192))%N.
Definition ocons (c : char) (o : option str) : option str := option_map (cons c) o.
(** bytes.decode('utf-8'); None is UnicodeDecodeError. Where it occurs is not modelled: python decodes 8192 bytes at a time, so that an error
    late in a file does not prevent the first lines from being read; here there are no lines then *)
Fixpoint utf8_decode (b : bytes) : option str :=
  match b with
  | [] => Some []
  | w :: b1 =>
    if (w <? 128)%N then ocons w (utf8_decode b1)
    else match b1 with
    | [] => None
    | x :: b2 =>
      if negb (tail_byte x) then None
      else if ((194 <=? w) && (w <? 224))%N then ocons ((w - 192) * 64 + (x - 128))%N (utf8_decode b2)
      else match b2 with
      | [] => None
      | y :: b3 =>
        if negb (tail_byte y) then None
        else if ((224 <=? w) && (w <? 240))%N then
          let c := ((w - 224) * 4096 + (x - 128) * 64 + (y - 128))%N in
          if (2048 <=? c)%N && negb (surrogate c) then ocons c (utf8_decode b3) else None
        else match b3 with
        | [] => None
        | z :: b4 =>
          let c := ((w - 240) * 262144 + (x - 128) * 4096 + (y - 128) * 64 + (z - 128))%N in
          if tail_byte z && (240 <=? w)%N && (w <? 245)%N && (65536 <=? c)%N && (c <? 1114112)%N then ocons c (utf8_decode b4) else None
        end
      end
    end
  end.
(** text.encode('latin-1') and bytes.decode('latin-1') *)
Definition latin_encode (s : str) : res bytes := if forallb (fun c => c <? 256)%N s then Ok s else Raise ValueError.
Definition latin_decode (b : bytes) : str := b.

(** ** Kinds of files *)
Inductive source := WosFile | MedlineFile | ProQuestFile | ScopusFile.
Inductive record := WosRec (r : WosModel.wrec) | MedlineRec (r : MedlineModel.mrec) | ProQuestRec (r : ProQuestModel.prec) | ScopusRec (r : ScopusModel.srec).
Definition type_name (k : source) : str :=
  match k with WosFile => $"WOSRecord" | MedlineFile => $"MedlineRecord" | ProQuestFile => $"ProQuestRecord" | ScopusFile => $"ScopusRecord" end.
(** the detectors, with the encodings they open the file with: wosHandlers.py:26, medlineHandlers.py:27, proQuestHandlers.py:29, scopusHandlers.py:35 *)
Definition in_utf8 {A} (b : bytes) (other : A) (f : str -> A) : A := match utf8_decode b with Some s => f s | None => other end.
Definition detector (k : source) (b : bytes) : bool :=
  match k with
  | WosFile => in_utf8 b false WosModel.is_wos_file
  | MedlineFile => MedlineModel.is_medline_file (latin_decode b)
  | ProQuestFile => in_utf8 b false ProQuestModel.is_proquest_file
  | ScopusFile => in_utf8 b false ScopusModel.is_scopus_file
  end.
Section Files.
(** str.isalpha *)
Variable alpha : char -> bool.
(** the parsers: the records, and whether there is an error *)
Definition processor (k : source) (b : bytes) : res (list record * bool) :=
  match k with
  | WosFile => Ok (in_utf8 b ([], true) (fun s => let '(rs, e) := WosModel.wos_parse s in (map WosRec rs, match e with Some _ => true | None => false end)))
  | MedlineFile => let* (rs, e) := MedlineModel.medline_file alpha (latin_decode b) in Ok (map MedlineRec rs, e)
  | ProQuestFile => in_utf8 b (Ok ([], true)) (fun s => let* (rs, e) := ProQuestModel.proquest_file s in Ok (map ProQuestRec rs, e))
  | ScopusFile => Ok (in_utf8 b ([], true) (fun s => (map ScopusRec (ScopusModel.scopus_file s), false)))
  end.
(** fileHandlers.py:36-44 *)
Definition handlers : list source := [WosFile; MedlineFile; ProQuestFile; ScopusFile].

Record fcoll := mkFcoll { f_recs : list record; f_types : list str; f_name : str; f_bad : bool; f_errors : list str }.
(** the last part of a path without what follows its last dot: os.path.splitext(os.path.split(path)[1])[0]; dots at the start do not count *)
Fixpoint lead_dots (s : str) : nat := match s with c :: s' => if eqb c 46%N then S (lead_dots s') else 0 | [] => 0 end.
Definition splitext (s : str) : str :=
  let n := lead_dots s in
  let t := skipn n s in
  firstn n s ++ (if mem 46%N t then join [46%N] (removelast (split_char 46%N t)) else t).
Definition path_name (path : str) : str := splitext (last (split_char 47%N path) []).
Definition ends_in (t s : str) : bool := starts_with (rev t) (rev s).
(** recordCollection.py:97-107; the last handler raises UnknownFile *)
Fixpoint try_handlers (hs : list source) (path name : str) (b : bytes) : res fcoll :=
  match hs with
  | [] => Raise BadInputFile
  | k :: hs' =>
    if detector k b then
      let* (rs, e) := processor k b in Ok (mkFcoll rs [type_name k] name e (if e then [path] else []))
    else try_handlers hs' path name b
  end.
(** recordCollection.py:91-107, for the path of an existing file *)
Definition read_path (path name ext : str) (b : bytes) : res fcoll :=
  if negb (ends_in ext path) then Raise RCTypeError
  else try_handlers handlers path (match name with [] => path_name path | _ => name end) b.
End Files.

(** ** Writing: recordCollection.py:225-245 for collections of one type; the text, and its encoding *)
Definition write_wos_bytes (rs : list WosModel.wrec) : res bytes := let* s := WosModel.write_file [$"WOSRecord"] rs in utf8_encode s.
Definition write_medline_bytes (rs : list MedlineModel.mrec) : res bytes := let* s := MedlineModel.write_mfile rs in latin_encode s.
Definition write_scopus_bytes (rs : list ScopusModel.srec) : res bytes := let* s := ScopusModel.write_sfile rs in utf8_encode s.
