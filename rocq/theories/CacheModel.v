(** Reading a directory, with or without a cache: metaknowledge/recordCollection.py:104-146, 160-166, metaknowledge/grantCollection.py:59-125, 135-138,
    metaknowledge/mkCollection.py:366-407.

    The steps of the constructor are those of its effects on the directory, so that it can be interrupted between any two of them and
    so that other programs can change files in between.

    Simplifications: one directory with files only, whose path is [dir]; file names are without the path; os.listdir is one step and gives the names
    in the order in which the directory holds them; loading a cache and the checks of the modification times are one step; the readers
    of the four kinds of files are one function [parse], from the version of the program, the name and the content of the file (None if it no longer exists)
    to the kind and the records, None for UnknownFile; pickle.dump and pickle.load are two functions to and from bytes. *)
From Coq Require Import List ZArith Lia Bool Arith.
From Coq Require Import String.
From Verif Require Import Base PyStr.
Import ListNotations.
Local Open Scope list_scope.

(** str.endswith *)
Definition ends_with (x s : str) : bool := starts_with (rev x) (rev s).
(** RecordCollection or GrantCollection *)
Inductive kind := Records | Grants.
#[global] Instance EqDec_kind : EqDec kind.
Proof. intros x y; unfold EqDec; decide equality. Defined.
(** the arguments name, extension and cached, and metaknowledge.constants.__version__ *)
Record call := mkCall { a_kind : kind; a_ver : str; a_name : str; a_ext : str; a_cached : bool }.
(** files: name, modification time and bytes *)
Definition files := dict str (Z * list N).

Section Cache.
Context {rec : Type} `{EqDec rec}.
Variable dir : str.
Variable parse : kind -> str -> str -> option (list N) -> res (option (str * list rec * option exn)).

(** the attributes of a collection that the constructor computes *)
Record coll := mkColl { c_recs : list rec; c_types : list str; c_name : str; c_bad : bool; c_errors : dict str exn }.
(** mkCollection.py:398-405 *)
Record stamp := mkStamp { s_ver : str; s_files : dict str Z; s_name : str; s_ext : str }.
Variable enc : stamp * coll -> list N.
Variable dec : list N -> res (stamp * coll).

(** os.path.basename *)
Definition basename (s : str) : str := last (split_char 47%N s) [].
(** recordCollection.py:122, grantCollection.py:75 *)
Definition cache_name (a : call) : str :=
  basename dir ++ $".[" ++ a_ext a ++ match a_kind a with Records => $"].mkRecordDirCache" | Grants => $"].mkGrantDirCache" end.
(** recordCollection.py:110-113, grantCollection.py:63-66 *)
Definition call_name (a : call) : str :=
  match a_name a, a_ext a with
  | [], [] => $"files-from-" ++ dir
  | [], _ => a_ext a ++ $"-files-from-" ++ dir
  | n, _ => n
  end.
(** recordCollection.py:116-119, grantCollection.py:69-72 *)
Definition wanted (a : call) (f : str) : bool :=
  ends_with (a_ext a) f && match a_kind a with Records => negb (ends_with $"mkRecordDirCache" f) | Grants => true end.
Definition listing (a : call) (fs : files) : list str := filter (wanted a) (dkeys fs).

(** mkCollection.py:367-387 *)
Fixpoint same_times (fs : files) (times : dict str Z) (fl : list str) : res unit :=
  match fl with
  | [] => Ok tt
  | f :: fl' =>
    match dget f fs with
    | None => Raise FileNotFoundError
    | Some (m, _) => match dget f times with
                     | None => Raise KeyError
                     | Some m' => if Z.eqb m m' then same_times fs times fl' else Raise CacheError
                     end
    end
  end.
Definition load_cache (a : call) (fs : files) (fl : list str) (b : list N) : res coll :=
  match dec b with
  | Raise UnpicklingError => Raise CacheError
  | Raise e => Raise e
  | Ok (dat, c) =>
    if negb (eqb (s_ver dat) (a_ver a)) then Raise CacheError
    else if negb (eqb (s_name dat) (call_name a)) then Raise CacheError
    else if negb (eqb (s_ext dat) (a_ext a)) then Raise CacheError
    else if negb (length fl =? length (s_files dat)) then Raise CacheError
    else match same_times fs (s_files dat) (rev fl) with Ok _ => Ok c | Raise e => Raise e end
  end.
(** recordsSet |= recs: equal elements are kept as they are *)
Definition union (s t : list rec) : list rec := s ++ filter (fun x => negb (mem x s)) t.
Definition add_type (t : str) (ts : list str) : list str := if mem t ts then ts else ts ++ [t].
(** recordCollection.py:131-147, grantCollection.py:84-120 for one file; not modelled: the update of NSERC grants that are already there (see GrantModel.v) *)
Definition read_file (a : call) (fs : files) (f : str) (c : coll) : res coll :=
  match parse (a_kind a) (a_ver a) f (option_map snd (dget f fs)) with
  | Raise e => Raise e
  | Ok None => if eqb (a_ext a) [] then Ok c else Raise BadInputFile
  | Ok (Some (t, rs, e)) =>
    Ok (mkColl (union (c_recs c) rs) (add_type t (c_types c)) (c_name c)
               (match e with Some _ => true | None => c_bad c end)
               (match e with Some x => dset f x (c_errors c) | None => c_errors c end))
  end.
Definition no_coll (a : call) : coll := mkColl [] [] (call_name a) false [].

(** where the constructor is *)
Inductive phase :=
| Listing
| Loading (fl : list str)
| Reading (fl todo : list str) (c : coll)
| Stating (fl todo : list str) (c : coll) (times : dict str Z)
| Opening (c : coll) (v : stamp * coll)
| Writing (c : coll) (more : list N)
| Done (r : res coll).
(** one step; [n] is how many more bytes than one a write takes, [m] the time on the clock *)
Definition tick (a : call) (n : nat) (m : Z) (fs : files) (p : phase) : files * phase :=
  match p with
  | Listing => let fl := listing a fs in (fs, if a_cached a then Loading fl else Reading fl fl (no_coll a))
  | Loading fl =>
    match dget (cache_name a) fs with
    | None => (fs, Reading fl fl (no_coll a))
    | Some (_, b) =>
      match load_cache a fs fl b with
      | Ok c => (fs, Done (Ok c))
      | Raise CacheError | Raise KeyError | Raise FileNotFoundError => (ddel (cache_name a) fs, Reading fl fl (no_coll a))
      | Raise e => (fs, Done (Raise e))
      end
    end
  | Reading fl [] c => (fs, if a_cached a then Stating fl fl c [] else Done (Ok c))
  | Reading fl (f :: todo) c =>
    match read_file a fs f c with
    | Ok c' => (fs, Reading fl todo c')
    | Raise e => (fs, Done (Raise e))
    end
  | Stating fl [] c times => (fs, Opening c (mkStamp (a_ver a) times (call_name a) (a_ext a), c))
  | Stating fl (f :: todo) c times =>
    match dget f fs with
    | Some (t, _) => (fs, Stating fl todo c (dset f t times))
    | None => (fs, Done (Raise FileNotFoundError))
    end
  | Opening c v => (dset (cache_name a) (m, []) fs, Writing c (enc v))
  | Writing c [] => (fs, Done (Ok c))
  | Writing c more =>
    match dget (cache_name a) fs with
    | Some (_, b) => (dset (cache_name a) (m, b ++ firstn (S n) more) fs, Writing c (skipn (S n) more))
    | None => (fs, Writing c (skipn (S n) more))
    end
  | Done r => (fs, Done r)
  end.

(** What happens to a directory: the constructor is called, it takes a step, it is killed; a user writes or removes a file.
    A result is forgotten when a user changes a file after it. *)
Inductive event := Call (a : call) | Tick (n : nat) (m : Z) | Kill | Write (f : str) (m : Z) (b : list N) | Remove (f : str).
Record world := mkWorld { w_files : files; w_run : option (call * phase) }.
Definition forget (r : option (call * phase)) : option (call * phase) := match r with Some (_, Done _) => None | _ => r end.
Definition step (w : world) (e : event) : world :=
  match e with
  | Call a => mkWorld (w_files w) (Some (a, Listing))
  | Tick n m => match w_run w with
                | Some (a, p) => let '(fs, p') := tick a n m (w_files w) p in mkWorld fs (Some (a, p'))
                | None => w
                end
  | Kill => mkWorld (w_files w) None
  | Write f m b => mkWorld (dset f (m, b) (w_files w)) (forget (w_run w))
  | Remove f => mkWorld (ddel f (w_files w)) (forget (w_run w))
  end.
Definition run (h : list event) (w : world) : world := fold_left step h w.
End Cache.
Arguments coll : clear implicits.
Arguments phase : clear implicits.
Arguments world : clear implicits.
