(** Which kind of grant file a file is, and what is read from it: metaknowledge/grants/*.py, metaknowledge/fileHandlers.py 24-32 and the reading of one file
    in metaknowledge/grantCollection.py 44-62, 131-132.

    Simplifications: a file is its name, its text (latin-1, so each byte is a character) and the tree of xml elements ET.parse gives, None if it raises; a file
    that vanishes, unreadable ones and interrupts by the user are left out. A row with more values than columns has the values left over under the key None: the
    model leaves these values out. [pep479] is whether python turns a StopIteration that leaves the body of a generator into a RuntimeError, as it does since version 3.7. *)
From Coq Require Import List ZArith Lia Bool Arith.
From Coq Require Import String.
From Verif Require Import Base PyStr CsvModel GrantModel.
Import ListNotations.
Local Open Scope list_scope.

(** A row of a csv file: the number of the last line that was read for it, this line, the values. Reading stops at an exception; None is the end of the file.
    [last] is the line that was read last. csv.reader gives a row that the end of the file cuts off if the end comes as StopIteration only. *)
Definition numbered : Type := N * str * list str.
Fixpoint read_lines (eof : option exn) (p : ps) (n : N) (last : str) (ls : list str) : list numbered * option exn :=
  match ls with
  | [] => match eof with
          | Some e => ([], Some e)
          | None => (if negb (eqb (pfield p) []) || eqb (pst p) InQuoted then [(n, last, pfields p ++ [pfield p])] else [], None)
          end
  | l :: ls' =>
    if mem 0%N l then ([], Some EOther) else
    match (let* p1 := steps p l in step p1 None) with
    | Raise e => ([], Some e)
    | Ok p2 =>
      if eqb (pst p2) StartRecord
      then let (r, e) := read_lines eof ps0 (n + 1) l ls' in ((n + 1, l, pfields p2)%N :: r, e)
      else read_lines eof p2 (n + 1) l ls'
    end
  end.
(** csv.DictReader: the names of the columns, None if there is no row, and the rows that are not empty *)
Definition not_blank (r : numbered) : bool := match snd r with [] => false | _ => true end.
Definition table (eof : option exn) (n : N) (ls : list str) : option (list str) * list numbered * option exn :=
  let (rs, e) := read_lines eof ps0 n [] ls in
  match rs with [] => (None, [], e) | h :: rs' => (Some (snd h), filter not_blank rs', e) end.
(** the dictionary of a row *)
Fixpoint fields_of (header row : list str) : gfields :=
  match header, row with
  | [], _ => []
  | h :: hs, [] => (h, GNone) :: fields_of hs []
  | h :: hs, x :: xs => (h, GText x) :: fields_of hs xs
  end.
Definition row_dict (header : list str) (r : numbered) : gfields := dupdate [] (fields_of header (snd r)).
(** set(row.keys()) != set(reader.fieldnames): there is also the key None *)
Definition too_long (header : list str) (r : numbered) : bool := length header <? length (snd r).

Record gfile := { fname : str; ftext : str; ftree : option element }.
(** os.path.basename *)
Definition basename (s : str) : str := last (split_char 47%N s) [].
Definition ends_in (t s : str) : bool := starts_with (rev t) (rev s).
(** the lines of a file opened in text mode *)
Definition text_lines (f : gfile) : list str := lines (translate (ftext f)).

(** ** Detectors, called with useFileName = True *)
(** nsfGrant.py:56-67 *)
Definition is_nsf (f : gfile) : bool :=
  ends_in $".xml" (basename (fname f)) && match ftree f with Some root => length (findall $"Award" root) =? 1 | None => false end.
(** cihrGrant.py:20-38; readline gives the empty text at the end of the file *)
Definition is_cihr (f : gfile) : res bool :=
  if negb (starts_with $"cihr_" (basename (fname f))) then Ok false else
  let ls := text_lines f in
  if negb (starts_with $"Search Criteria" (nth 0 ls [])) then Ok false
  else if negb (ends_in ($",,,,,,,,," ++ [nl]) (nth 1 ls [])) then Ok false
  else if negb (ends_in ($",,,,,,,,," ++ [nl]) (nth 2 ls [])) then Ok false
  else match table None 3 (skipn 3 ls) with
       | (Some h, _ :: _, e) => if mem $"PI Names" h then match e with Some x => Raise x | None => Ok true end else Ok false
       | (_, _, e) => match e with Some x => Raise x | None => Ok true end
       end.
(** nsercGrant.py:64-80 *)
Definition is_nserc (f : gfile) : res bool :=
  if negb (starts_with $"NSERC_" (basename (fname f))) then Ok false else
  match table None 0 (text_lines f) with
  | (Some h, rows, e) => if existsb (too_long h) rows then Ok false else match e with Some x => Raise x | None => Ok (negb (length rows <? 1)) end
  | (None, _, e) => match e with Some x => Raise x | None => Ok false end
  end.
(** baseGrant.py:142-172 *)
Definition scopus_columns : list str := [$"Conference location"; $"Conference code"; $"ISSN"; $"ISBN"; $"CODEN"; $"PubMed ID"; $"Language of Original Document";
  $"Abbreviated Source Title"; $"Document Type"; $"Source"; $"EID"].
Definition is_fallback (f : gfile) : bool :=
  ends_in $"csv" (fname f) &&
  match table None 0 (text_lines f) with
  | (Some h, rows, e) => negb (forallb (fun c => mem c h) scopus_columns) && negb (existsb (too_long h) rows) && negb (length rows <? 1) && match e with Some _ => false | None => true end
  | (None, _, _) => false
  end.

(** ** Parsers: the grants and the error *)
Section Parsers.
Variable pep479 : bool.
Variable hash : str -> Z.
(** baseGrant.py:116-129: the end of the file is a StopIteration in the generator readerWithSideEffects, and again in csvAndLinesReader *)
Definition eof_of_lines : option exn := if pep479 then Some RuntimeError else None.
Definition lines_reader (n : N) (ls : list str) : list (N * str * gfields) * option exn :=
  match table eof_of_lines n ls with
  | (Some h, rows, e) => (map (fun r => (fst r, row_dict h r)) rows, e)
  | (None, _, e) => ([], e)
  end.
(** cihrGrant.py:40-60 *)
Definition parse_cihr (f : gfile) : gset * option exn :=
  let ls := text_lines f in
  if length ls <? 3 then ([], Some BadGrant) else
  let (rows, e) := lines_reader 3 (skipn 3 ls) in other_file (cihr hash (basename (fname f))) rows e.
(** nsercGrant.py:82-106 *)
Definition parse_nserc (f : gfile) : gset * option exn :=
  let (rows, e) := lines_reader 0 (text_lines f) in nserc_file hash (map (fun r => (snd (fst r), snd r)) rows) e.
(** baseGrant.py:174-192 *)
Definition parse_fallback (f : gfile) : gset * option exn :=
  let (rows, e) := lines_reader 0 (text_lines f) in other_file (fallback hash (basename (fname f))) rows e.
(** nsfGrant.py:69-132 *)
Definition parse_nsf (f : gfile) : res (gset * option exn) :=
  match ftree f with
  | None => Ok ([], Some BadGrant)
  | Some root => match findall $"Award" root with
                 | [] => Raise AttributeError
                 | top :: _ => let* d := nsf_fields top in Ok (gadd (nsf_grant (basename (fname f)) d) [], None)
                 end
  end.
(** fileHandlers.py:24-32: the first detector that says yes; the last one raises *)
Definition process (f : gfile) : res (gkind * (gset * option exn)) :=
  if is_nsf f then let* r := parse_nsf f in Ok (NSFG, r) else
  let* c := is_cihr f in if c then Ok (CIHRG, parse_cihr f) else
  let* n := is_nserc f in if n then Ok (NSERCG, parse_nserc f) else
  if is_fallback f then Ok (FallbackG, parse_fallback f) else Raise UnknownFile.
(** grantCollection.py:44-62, 132: the grants, the type of grants, bad and errors *)
Record collected := { c_grants : gset; c_types : list gkind; c_bad : bool; c_errors : list (str * exn) }.
Definition from_file (extension : str) (f : gfile) : res collected :=
  if negb (ends_in extension (fname f)) then Raise GrantCollectionException else
  match process f with
  | Ok (k, (gs, None)) => Ok {| c_grants := gs; c_types := [k]; c_bad := false; c_errors := [] |}
  | Ok (k, (gs, Some e)) => Ok {| c_grants := gs; c_types := [k]; c_bad := true; c_errors := [(fname f, e)] |}
  | Raise UnknownFile => Raise BadInputFile
  | Raise e => Raise e
  end.
End Parsers.
