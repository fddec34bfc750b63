(** Python's csv module as graphHelpers.py uses it: [csv.DictWriter(f, header, delimiter = ',',
    quotechar = the double quote, quoting = csv.QUOTE_NONNUMERIC)] on a file opened with [newline = ''], and
    [csv.DictReader(f)] (dialect excel) on a file opened in text mode.  The reader is the state
    machine of CPython's Modules/_csv.c.  Nothing here is repository code. *)
From Coq Require Import String.
From Verif Require Import Base PyStr Nx.
Set Implicit Arguments.

Definition quote : char := 34%N.
Definition comma : char := 44%N.

(** ** writing *)
Definition double_quotes (s : str) : str := flat_map (fun c => if eqb c quote then [quote; quote] else [c]) s.
Definition quoted (s : str) : str := quote :: double_quotes s ++ [quote].
(** [str(v)], with None written as nothing *)
Definition val_text (v : val) : str :=
  match v with
  | VInt z => dec_Z z
  | VStr s => s
  | VBool b => if b then $"True" else $"False"
  | VNone => []
  end.
(** QUOTE_NONNUMERIC: everything but numbers is quoted; a bool is a number *)
Definition field_text (v : val) : str :=
  match v with
  | VInt _ | VBool _ => val_text v
  | VStr _ | VNone => quoted (val_text v)
  end.
Definition csv_row (r : list val) : str := join [comma] (map field_text r) ++ [cr; nl].
(** DictWriter.writerow: ValueError for a key that is no column, '' for a missing one *)
Definition dict_row (header : list str) (d : dict str val) : res str :=
  if forallb (fun k => mem k header) (dkeys d)
  then Ok (csv_row (map (fun k => match dget k d with Some v => v | None => VStr [] end) header))
  else Raise ValueError.
Fixpoint dict_rows (header : list str) (l : list (dict str val)) : res str :=
  match l with
  | [] => Ok []
  | d :: l' => let* r := dict_row header d in let* rs := dict_rows header l' in Ok (r ++ rs)
  end.
(** writeheader() and then the rows *)
Definition csv_file (header : list str) (l : list (dict str val)) : res str :=
  let* rs := dict_rows header l in Ok (csv_row (map VStr header) ++ rs).

(** ** reading *)
Inductive cst := StartRecord | StartField | InField | InQuoted | QuoteInQuoted | EatCrnl.
#[global] Instance EqDec_cst : EqDec cst.
Proof. intros x y; unfold EqDec; decide equality. Defined.
Record ps := mkPs { pst : cst; pfield : str; pfields : list str }.
Definition ps0 : ps := mkPs StartRecord [] [].

Definition save (p : ps) (s : cst) : ps := mkPs s [] (pfields p ++ [pfield p]).
(** csv.field_size_limit() *)
Definition field_limit : N := 131072%N.
Definition put (p : ps) (s : cst) (c : char) : res ps :=
  if (field_limit <=? N.of_nat (length (pfield p)))%N then Raise EOther
  else Ok (mkPs s (pfield p ++ [c]) (pfields p)).
Definition goto (p : ps) (s : cst) : ps := mkPs s (pfield p) (pfields p).
Definition is_eol (c : option char) : bool :=
  match c with None => true | Some c => eqb c nl || eqb c cr end.

Definition start_field (p : ps) (c : option char) : res ps :=
  match c with
  | None => Ok (save p StartRecord)
  | Some ch => if is_eol c then Ok (save p EatCrnl)
               else if eqb ch quote then Ok (goto p InQuoted)
               else if eqb ch comma then Ok (save p StartField)
               else put p InField ch
  end.
(** one character, or None for the end of a line *)
Definition step (p : ps) (c : option char) : res ps :=
  match pst p with
  | StartRecord =>
    match c with
    | None => Ok p
    | Some ch => if is_eol c then Ok (goto p EatCrnl) else start_field p c
    end
  | StartField => start_field p c
  | InField =>
    match c with
    | None => Ok (save p StartRecord)
    | Some ch => if is_eol c then Ok (save p EatCrnl)
                 else if eqb ch comma then Ok (save p StartField)
                 else put p InField ch
    end
  | InQuoted =>
    match c with
    | None => Ok p
    | Some ch => if eqb ch quote then Ok (goto p QuoteInQuoted) else put p InQuoted ch
    end
  | QuoteInQuoted =>
    match c with
    | None => Ok (save p StartRecord)
    | Some ch => if eqb ch quote then put p InQuoted ch
                 else if eqb ch comma then Ok (save p StartField)
                 else if is_eol c then Ok (save p EatCrnl)
                 else put p InField ch
    end
  | EatCrnl =>
    match c with
    | None => Ok (goto p StartRecord)
    | Some ch => if is_eol c then Ok p else Raise EOther            (* csv.Error *)
    end
  end.
Fixpoint steps (p : ps) (s : str) : res ps :=
  match s with [] => Ok p | c :: s' => let* p' := step p (Some c) in steps p' s' end.
(** the rows of a list of lines *)
Fixpoint csv_loop (p : ps) (ls : list str) : res (list (list str)) :=
  match ls with
  | [] => if negb (eqb (pfield p) []) || eqb (pst p) InQuoted then Ok [pfields p ++ [pfield p]] else Ok []
  | l :: ls' =>
    if mem 0%N l then Raise EOther else                                (* line contains NUL *)
    let* p1 := steps p l in
    let* p2 := step p1 None in
    if eqb (pst p2) StartRecord then let* r := csv_loop ps0 ls' in Ok (pfields p2 :: r)
    else csv_loop p2 ls'
  end.
Definition csv_rows (text : str) : res (list (list str)) := csv_loop ps0 (lines (translate text)).

(** DictReader: the first row names the columns, empty rows are skipped, missing values are None.
    A row with more values than columns puts the rest under the key None; the model raises the
    TypeError readGraph then gets from [**vals]. *)
Fixpoint zip_row (header row : list str) : dict str val :=
  match header, row with
  | [], _ => []
  | h :: hs, [] => (h, VNone) :: zip_row hs []
  | h :: hs, x :: xs => (h, VStr x) :: zip_row hs xs
  end.
Definition read_row (header row : list str) : res (dict str val) :=
  if length header <? length row then Raise TypeError
  else Ok (dupdate [] (zip_row header row)).
Fixpoint read_rows (header : list str) (rows : list (list str)) : res (list (dict str val)) :=
  match rows with
  | [] => Ok []
  | [] :: rows' => read_rows header rows'
  | r :: rows' => let* d := read_row header r in let* ds := read_rows header rows' in Ok (d :: ds)
  end.
(** a file without any row has no column names and yields nothing *)
Definition dict_reader (text : str) : res (list (dict str val)) :=
  let* rows := csv_rows text in
  match rows with [] => Ok [] | h :: rows' => read_rows h rows' end.
