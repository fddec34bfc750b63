(** The databases of journal names (journalAbbreviations/backend.py) and the citation methods that use them (citation.py).
    The dbm files are dictionaries from abbreviation to text (always valid utf-8 here); [dbm] errors and crashes inside [dbm]
    are not modelled. *)
From Coq Require Import String.
From Verif Require Import Base PyStr.
Set Implicit Arguments.

Definition database := dict str str.
Definition bar : char := 124%N.

(** ** The downloaded pages *)
(** the text before and after the first [sep] *)
Fixpoint cut (sep s : str) : option (str * str) :=
  if starts_with sep s then Some ([], skipn (length sep) s)
  else match s with
       | [] => None
       | x :: s' => match cut sep s' with Some (a, b) => Some (x :: a, b) | None => None end
       end.
(** s.split(sep)[1] *)
Definition second (sep s : str) : res str :=
  match cut sep s with
  | None => Raise IndexError
  | Some (_, t) => Ok (match cut sep t with Some (a, _) => a | None => t end)
  end.
Definition q : char := 34%N.
Definition sep_first : str := q :: $"></A><DT>".
Definition sep_name : str := $"</B><DT>".
Definition sep_abbr : str := ($"<B><DD>" ++ [9%N])%list.
(** backend.py:70-73 *)
Definition add_name (abbr name : str) (d : dict str (list str)) : dict str (list str) :=
  match dget abbr d with Some l => dset abbr (l ++ [name]) d | None => dset abbr [name] d end.
(** backend.py:69-79: each turn takes two lines; it ends when a line is missing or is not of the right form *)
Fixpoint page_loop (lines : list str) (name abbr : str) (d : dict str (list str)) : dict str (list str) :=
  let d := add_name abbr name d in
  match lines with
  | l1 :: l2 :: lines' =>
    match second sep_name l1, second sep_abbr l2 with
    | Ok n, Ok a => page_loop lines' n a d
    | _, _ => d
    end
  | _ => d
  end.
(** backend.py:64-65 *)
Fixpoint skip_head (lines : list str) : res (list str) :=
  match lines with
  | [] => Raise IndexError
  | l :: lines' => if eqb l $"<DL>" then Ok lines' else skip_head lines'
  end.
(** backend.py:56-79 (_getDict) for the text of a page *)
Definition page_dict (text : str) : res (dict str (list str)) :=
  let* lines := skip_head (split_char nl text) in
  match lines with
  | l1 :: l2 :: lines' =>
    let* name := second sep_first l1 in
    let* abbr := second sep_abbr l2 in
    Ok (page_loop lines' name abbr [])
  | [l1] => let* name := second sep_first l1 in Raise IndexError
  | [] => Raise IndexError
  end.
(** backend.py:81-93 (_getCurrentj9Dict); a page that cannot be fetched raises *)
Fixpoint pages_dict (pages : list (res str)) (d : dict str (list str)) : res (dict str (list str)) :=
  match pages with
  | [] => Ok d
  | p :: pages' =>
    let* text := p in
    let* e := page_dict text in
    if length e =? 0 then Raise RuntimeError else pages_dict pages' (dupdate d e)
  end.

(** backend.py:120-126.  [j9] is looked up by the loop; the names in [v] are those of j9[k] itself. *)
Fixpoint names_loop (j9 : dict str (list str)) (k : str) (v : list str) : dict str (list str) :=
  match v with
  | [] => j9
  | n :: v' =>
    let j9' := match dget k j9 with
               | Some l => if mem n l then j9 else dset k (l ++ map (fun x => [x]) (bar :: n)) j9  (* list += string: one element per character *)
               | None => j9
               end in
    names_loop j9' k v'
  end.
Fixpoint update_loop (items : list (str * list str)) (j9 : dict str (list str)) (db : database) : database :=
  match items with
  | [] => db
  | (k, v) :: items' =>
    if dhas k db then update_loop items' (names_loop j9 k v) db
    else update_loop items' j9 (dset k (join [bar] v) db)
  end.
(** backend.py:95-128 (updatej9DB, without keeping the pages) *)
Definition updatej9DB (pages : list (res str)) (db : database) : res database :=
  let* j9 := pages_dict pages [] in Ok (update_loop j9 j9 db).

(** ** Reading and changing the databases *)
(** what the dictionary of abbreviations holds: a list of names, or (citation.py:361) just a text *)
Inductive entry := Names (l : list str) | Text (s : str).
(** backend.py:155-156, 164-165 *)
Definition read_into (db : database) (d : dict str entry) : dict str entry :=
  fold_left (fun d (p : str * str) => dset (fst p) (Names (split_char bar (snd p))) d) db d.
(** backend.py:130-172 (getj9dict('both') with the default names): the downloaded database, refreshed if it was empty, and
    the dictionary.  A database still empty after the update makes the recursion endless: RecursionError, a RuntimeError. *)
Definition getj9dict (pages : list (res str)) (wos : database) (manual : option database) : database * res (dict str entry) :=
  let both w := read_into (match manual with Some m => m | None => [] end) (read_into w []) in
  match wos with
  | _ :: _ => (wos, Ok (both wos))
  | [] => match updatej9DB pages [] with
          | Raise e => (wos, Raise e)
          | Ok [] => ([], Raise RuntimeError)
          | Ok w => (w, Ok (both w))
          end
  end.
(** backend.py:174-199 (addToDB with a dictionary; with a string it is {abbr : abbr}) *)
Definition addToDB (abbr : dict str str) (manual : option database) : option database :=
  Some (dupdate (match manual with Some m => m | None => [] end) abbr).
(** backend.py:201-226 (excludeFromDB with a list) *)
Definition excludeFromDB (abbr : list str) (manual : option database) : option database :=
  addToDB (map (fun a => (a, [])) abbr) manual.

(** ** The citation methods *)
(** the databases, and the dictionary read by this process (citation.py:16) *)
Record session := { wos_db : database; manual_db : option database; abbrev : option (dict str entry) }.
(** x[0] *)
Definition first_of (e : entry) : res str :=
  match e with
  | Names (n :: _) => Ok n
  | Text (c :: _) => Ok [c]
  | _ => Raise IndexError
  end.
Section Journal.
Variable pages : list (res str).
(** citation.py:290-292 *)
Definition load (st : session) : session * res (dict str entry) :=
  match abbrev st with
  | Some d => (st, Ok d)
  | None =>
    match getj9dict pages (wos_db st) (manual_db st) with
    | (w, Ok d) => ({| wos_db := w; manual_db := manual_db st; abbrev := Some d |}, Ok d)
    | (w, Raise e) => ({| wos_db := w; manual_db := manual_db st; abbrev := None |}, Raise e)
    end
  end.
(** citation.py:293-311 (isJournal with its default arguments) for the journal attribute, [None] if it is None or missing:
    the name found, if it is true *)
Definition is_journal_in (d : dict str entry) (journal : option str) : res (option str) :=
  match journal with
  | Some (x :: j) =>
    match dget (x :: j) d with
    | None => Ok None
    | Some e => let* n := first_of e in Ok (match n with [] => None | _ => Some n end)
    end
  | _ => Ok None
  end.
Definition is_journal (st : session) (journal : option str) : session * res (option str) :=
  match load st with
  | (st', Ok d) => (st', is_journal_in d journal)
  | (st', Raise e) => (st', Raise e)
  end.
(** citation.py:313-330 (FullJournalName) *)
Definition full_journal_name (st : session) (journal : option str) : session * res (option str) :=
  let '(st', r) := is_journal st journal in
  match r, journal, abbrev st' with
  | Ok (Some _), Some j, Some d => (st', match dget j d with Some e => let* n := first_of e in Ok (Some n) | None => Raise KeyError end)
  | Ok _, _, _ => (st', Ok None)
  | Raise e, _, _ => (st', Raise e)
  end.
(** citation.py:332-362 (Citation.addToDB) for a citation with a journal *)
Definition cite_add (st : session) (journal : str) (manual_name : option str) (invert : bool) : session * option exn :=
  let text := if invert then [] else match manual_name with None => journal | Some n => n end in
  let m := addToDB [(journal, text)] (manual_db st) in
  match abbrev st with
  | None => ({| wos_db := wos_db st; manual_db := m; abbrev := None |}, Some AttributeError) (* None.update *)
  | Some d => ({| wos_db := wos_db st; manual_db := m; abbrev := Some (dset journal (Text text) d) |}, None)
  end.
(** citation.py:364-391 (filterNonJournals) *)
Fixpoint filter_loop {C} (journal_of : C -> option str) (invert : bool) (st : session) (l kept : list C) : session * res (list C) :=
  match l with
  | [] => (st, Ok kept)
  | c :: l' =>
    match is_journal st (journal_of c) with
    | (st', Raise e) => (st', Raise e)
    | (st', Ok (Some _)) => filter_loop journal_of invert st' l' (if negb invert then kept ++ [c] else kept)
    | (st', Ok None) => filter_loop journal_of invert st' l' (if invert then kept ++ [c] else kept)
    end
  end.
Definition filter_non_journals {C} (journal_of : C -> option str) (st : session) (l : list C) (invert : bool) : session * res (list C) :=
  filter_loop journal_of invert st l [].
End Journal.
