(** The arguments of getj9dict (journalAbbreviations/backend.py), of isJournal and of Citation.addToDB (citation.py).
    The database files in the directory of the package are dictionaries under their names; the pages that can be downloaded do
    not change. *)
From Coq Require Import String.
From Verif Require Import Base PyStr JournalModel.
Set Implicit Arguments.

(** backend.py:10 and 12 *)
Definition wos_name : str := $"j9Abbreviations".
Definition manual_name : str := $"manualj9Abbreviations".
Definition dbdir := dict str (dict str str).
Definition db_of (n : str) (d : dbdir) : dict str str := match dget n d with Some x => x | None => [] end.
(** dbm.dumb.open makes a missing file *)
Definition opened (n : str) (d : dbdir) : dbdir := if dhas n d then d else dset n [] d.
Section Options.
Variable pages : list (res str).
(** backend.py:114-128 (updatej9DB): the file is opened before the pages are fetched *)
Definition update_file (n : str) (d : dbdir) : dbdir * res unit :=
  let d1 := opened n d in
  match updatej9DB pages (db_of n d1) with
  | Ok db => (dset (V:=dict str str) n db d1, Ok tt)
  | Raise e => (d1, Raise e)
  end.
(** backend.py:150-159.  The update is that of the default database (158); when the one that was asked for is still empty the
    recursion does not end: RecursionError, a RuntimeError. *)
Definition read_wos (dbname returnDict : str) (d : dbdir) : dbdir * res (dict str entry) :=
  if eqb returnDict $"both" || eqb returnDict $"WOS" then
    let d1 := opened dbname d in
    match db_of dbname d1 with
    | _ :: _ => (d1, Ok (read_into (db_of dbname d1) []))
    | [] =>
      match update_file wos_name d1 with
      | (d2, Raise e) => (d2, Raise e)
      | (d2, Ok _) => match db_of dbname d2 with [] => (d2, Raise RuntimeError) | _ :: _ => (d2, Ok (read_into (db_of dbname d2) [])) end
      end
    end
  else (d, Ok []).
(** backend.py:160-172.  The second call of 171 finds the file that the update of 170 made. *)
Definition read_manual (manualDB returnDict : str) (d : dbdir) (r : dict str entry) : dbdir * res (dict str entry) :=
  if eqb returnDict $"both" || eqb returnDict $"manual" then
    if dhas manualDB d then (d, Ok (read_into (db_of manualDB d) r))
    else if eqb returnDict $"manual" then
      match update_file manualDB d with
      | (d2, Raise e) => (d2, Raise e)
      | (d2, Ok _) => (d2, Ok (read_into (db_of manualDB d2) []))
      end
    else (d, Ok r)
  else (d, Ok r).
(** backend.py:130-172 (getj9dict) *)
Definition getj9 (dbname manualDB returnDict : str) (d : dbdir) : dbdir * res (dict str entry) :=
  match read_wos dbname returnDict d with
  | (d', Raise e) => (d', Raise e)
  | (d', Ok r) => read_manual manualDB returnDict d' r
  end.

(** the files, and the dictionary of this process (citation.py:16) *)
Record osession := mkO { dbs : dbdir; dictionary : option (dict str entry) }.
(** citation.py:290-292 *)
Definition load_opt (dbname manualDB returnDict : str) (st : osession) : osession * res (dict str entry) :=
  match dictionary st with
  | Some d => (st, Ok d)
  | None =>
    match getj9 dbname manualDB returnDict (dbs st) with
    | (f, Ok d) => (mkO f (Some d), Ok d)
    | (f, Raise e) => (mkO f None, Raise e)
    end
  end.
(** a name or a truth value *)
Inductive answer := Name (s : str) | Flag (b : bool).
(** citation.py:295-302 (checkIfExcluded), for a journal that is not empty *)
Definition excluded_in (d : dict str entry) (j : str) : res answer :=
  match dget j d with
  | None => Ok (Flag false)
  | Some e =>
    match first_of e with
    | Ok (_ :: _) => Ok (Flag false)
    | Ok [] => Ok (Flag true)
    | Raise IndexError => Ok (Flag false)
    | Raise e => Raise e
    end
  end.
(** citation.py:290-311 (isJournal) for the journal attribute, [None] if it is None or missing *)
Definition is_journal_opt (dbname manualDB returnDict : str) (checkIfExcluded : bool) (st : osession) (journal : option str) : osession * res answer :=
  match load_opt dbname manualDB returnDict st with
  | (st', Raise e) => (st', Raise e)
  | (st', Ok d) =>
    (st', match checkIfExcluded, journal with
          | true, Some (x :: j) => excluded_in d (x :: j)
          | _, _ => let* n := is_journal_in d journal in Ok (match n with Some n => Name n | None => Flag false end)
          end)
  end.
(** citation.py:350-361 (Citation.addToDB) with the name of the database *)
Definition cite_add_opt (manualDB : str) (st : osession) (journal : str) (manual_name : option str) (invert : bool) : osession * option exn :=
  let text := if invert then [] else match manual_name with None => journal | Some n => n end in
  let f := dset (V:=dict str str) manualDB (match addToDB [(journal, text)] (dget manualDB (dbs st)) with Some m => m | None => [] end) (dbs st) in
  match dictionary st with
  | None => (mkO f None, Some AttributeError)
  | Some d => (mkO f (Some (dset journal (Text text) d)), None)
  end.
End Options.
