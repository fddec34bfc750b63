(** Model of metaknowledge/recordCollection.py 247-371 (writeCSV) with the default delimiter and quotes of the csv file.
    A row is written as CsvModel.v writes it; all cells are texts, so QUOTE_ALL quotes what QUOTE_NONNUMERIC does. *)
From Coq Require Import List ZArith Lia Bool Arith.
From Coq Require Import String.
From Verif Require Import Base PyStr Nx CsvModel.
Import ListNotations.
Local Open Scope list_scope.

(** a value of a record: a text, something that can be walked, whose elements are made texts, None, or something else, made a text *)
Inductive wval := WText (s : str) | WMany (l : list str) | WNone | WOther (s : str).
(** the arguments; an empty onlyTheseTags is as good as none *)
Record wopts := { w_only : list str; w_num : bool; w_gender : bool; w_long : bool; w_first : option (list str); w_bar : str }.
(** the lists of the function and of the caller *)
Record wplan := { p_retrieved : list str; p_header : list str; p_first : list str; p_only : list str }.
Definition num_column : str := $"num-Authors".
Definition gender_columns : list str := [$"num-Male"; $"num-Female"; $"num-Unknown"].
Definition default_first : list str := [$"id"; $"title"; $"authorsFull"; $"citations"; $"keywords"; $"DOI"].

Section Write.
Context {R : Type}.
(** fullToTagDict and tagToFullDict *)
Variables to_tag to_full : dict str str.
(** R.keys(), R.get(tag) with None for a missing one, and R.authGenders(_countsTuple = True) *)
Variable keys : R -> list str.
Variable get : R -> str -> option wval.
Variable genders : R -> res (nat * nat * nat).

(** recordCollection.py:297-303 *)
Definition norm (l : list str) : list str := map (fun t => match dget t to_tag with Some u => u | None => t end) l.
(** recordCollection.py:307-309 *)
Fixpoint gather (rs : list R) (l : list str) : list str :=
  match rs with [] => l | r :: rs' => gather rs' (l ++ filter (fun t => negb (mem t l)) (keys r)) end.
Fixpoint long_names (l : list str) : res (list str) :=
  match l with
  | [] => Ok []
  | t :: l' => match dget t to_full with None => Raise KeyError | Some u => let* us := long_names l' in Ok (u :: us) end
  end.
(** recordCollection.py:295-327. The list csvWriterFields is the list retrievedFields itself if there is no column for the number of
    authors, and that is the list firstTags of the caller if neither onlyTheseTags nor longNames is given *)
Definition write_plan (o : wopts) (rs : list R) : res wplan :=
  let first := norm match w_first o with Some l => l | None => default_first end in
  let only := norm (w_only o) in
  let own := match w_only o with [] => false | _ => true end in
  let retrieved := if own then filter (fun t => mem t only) first ++ filter (fun t => negb (mem t first)) only else gather rs first in
  let first := if own then first else retrieved in
  let* long := if w_long o then long_names retrieved else Ok retrieved in
  let g := if w_gender o then gender_columns else [] in
  if w_num o then Ok {| p_retrieved := long; p_header := long ++ [num_column] ++ g; p_first := first; p_only := only |}
  else Ok {| p_retrieved := long ++ g; p_header := long ++ g; p_first := if own || w_long o then first else first ++ g; p_only := only |}.
(** recordCollection.py:342-351 *)
Definition cell_text (bar : str) (v : option wval) : str :=
  match v with
  | Some (WText s) => s
  | Some (WMany l) => join bar l
  | Some WNone | None => []
  | Some (WOther s) => s
  end.
(** len(R.get('authorsShort', [])) *)
Definition num_authors (r : R) : res nat :=
  match get r $"authorsShort" with
  | None => Ok 0
  | Some (WMany l) => Ok (length l)
  | Some (WText s) => Ok (length s)
  | Some _ => Raise TypeError
  end.
(** recordCollection.py:340-355 *)
Definition rec_dict (o : wopts) (retrieved : list str) (r : R) : res (dict str val) :=
  let d := fold_left (fun d t => dset t (VStr (cell_text (w_bar o) (get r t))) d) retrieved [] in
  let* d := if w_num o then let* n := num_authors r in Ok (dset num_column (VStr (dec_nat n)) d) else Ok d in
  if w_gender o then
    let* g := genders r in
    let '(m, f, u) := g in
    Ok (dset $"num-Unknown" (VStr (dec_nat u)) (dset $"num-Female" (VStr (dec_nat f)) (dset $"num-Male" (VStr (dec_nat m)) d)))
  else Ok d.
Fixpoint rec_dicts (o : wopts) (retrieved : list str) (rs : list R) : res (list (dict str val)) :=
  match rs with [] => Ok [] | r :: rs' => let* d := rec_dict o retrieved r in let* ds := rec_dicts o retrieved rs' in Ok (d :: ds) end.
(** recordCollection.py:328-331, 367, 371: one file; what is written before an exception is not modelled *)
Definition write_csv (o : wopts) (rs : list R) : res (str * wplan) :=
  let* p := write_plan o rs in
  let* ds := rec_dicts o (p_retrieved p) rs in
  let* text := csv_file (p_header p) ds in
  Ok (text, p).

(** ** One file for each value of a tag *)
(** R[splitByTag]: None for a KeyError, a list of texts, or another value made a text *)
Variable split_val : R -> option (list str).
Definition file_name (base v : str) : str := firstn 200 v ++ $"-" ++ base.
(** the open files: for each value the name of its file and the text written to it *)
Definition files : Type := dict str (str * str).
(** recordCollection.py:356-365 *)
Fixpoint put_row (base : str) (header : list str) (d : dict str val) (vs : list str) (fs : files) : res files :=
  match vs with
  | [] => Ok fs
  | v :: vs' =>
    let* row := dict_row header d in
    let fs := match dget v fs with
              | Some (name, text) => dset v (name, text ++ row) fs
              | None => dset v (file_name base v, csv_row (map VStr header) ++ row) fs
              end in
    put_row base header d vs' fs
  end.
(** recordCollection.py:332-366 *)
Fixpoint put_rows (o : wopts) (base : str) (p : wplan) (rs : list R) (fs : files) : res files :=
  match rs with
  | [] => Ok fs
  | r :: rs' =>
    match split_val r with
    | None => put_rows o base p rs' fs
    | Some vs =>
      let* d := rec_dict o (p_retrieved p) r in
      let* fs := put_row base (p_header p) d vs fs in
      put_rows o base p rs' fs
    end
  end.
(** recordCollection.py:368-370. The texts are taken to be written when the files are closed, each from the beginning of its file:
    of a longer text that is already there the end stays *)
Definition close_one (disk : dict str str) (f : str * (str * str)) : dict str str :=
  let '(name, text) := snd f in
  dset name (text ++ match dget name disk with Some t => skipn (length text) t | None => [] end) disk.
Definition close_files (fs : files) : dict str str := fold_left close_one fs [].
Definition write_split (o : wopts) (base : str) (rs : list R) : res (dict str str * wplan) :=
  let* p := write_plan o rs in
  let* fs := put_rows o base p rs [] in
  Ok (close_files fs, p).
End Write.
