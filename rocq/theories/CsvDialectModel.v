(** writeCSV with any delimiter and quote character: metaknowledge/recordCollection.py 328-331, 367 (csvDelimiter, csvQuote), with Python's csv module:
    [csv.DictWriter(f, fields, delimiter, quotechar, quoting = csv.QUOTE_ALL)] on a file opened with [newline = ''], and [csv.DictReader(f, delimiter,
    quotechar)] on a file opened with [newline = ''], as the documentation of the module asks for.  The reader is the state machine of CPython's
    Modules/_csv.c, as in CsvModel.v, whose states and fields are used.  The two characters are different and no line ends. *)
From Coq Require Import List ZArith Lia Bool Arith.
From Coq Require Import String.
From Verif Require Import Base PyStr Nx CsvModel WriteCsvModel.
Import ListNotations.
Local Open Scope list_scope.

(** the lines of a file opened with newline = '': they end with \n, \r or \r\n, which stay as they are *)
Definition ends_line (c : char) (rest : str) : bool := eqb c nl || (eqb c cr && match rest with x :: _ => negb (eqb x nl) | [] => true end).
Fixpoint raw_lines (s : str) : list str :=
  match s with
  | [] => []
  | c :: s' => if ends_line c s' then [c] :: raw_lines s' else match raw_lines s' with [] => [[c]] | l :: ls => (c :: l) :: ls end
  end.

Section Dialect.
Variables delim quo : char.
(** ** writing: QUOTE_ALL, doublequote *)
Definition d_quoted (s : str) : str := [quo] ++ flat_map (fun c => if eqb c quo then [quo; quo] else [c]) s ++ [quo].
Definition d_row (r : list str) : str := join [delim] (map d_quoted r) ++ [cr; nl].
Definition d_dict_row (header : list str) (d : dict str val) : res str :=
  if forallb (fun k => mem k header) (dkeys d) then Ok (d_row (map (fun k => match dget k d with Some v => val_text v | None => [] end) header)) else Raise ValueError.
Fixpoint d_dict_rows (header : list str) (l : list (dict str val)) : res str :=
  match l with [] => Ok [] | d :: l' => let* r := d_dict_row header d in let* rs := d_dict_rows header l' in Ok (r ++ rs) end.
Definition d_file (header : list str) (l : list (dict str val)) : res str := let* rs := d_dict_rows header l in Ok (d_row header ++ rs).

(** ** reading *)
Definition d_start (p : ps) (c : option char) : res ps :=
  match c with
  | None => Ok (save p StartRecord)
  | Some ch => if is_eol c then Ok (save p EatCrnl)
               else if eqb ch quo then Ok (goto p InQuoted)
               else if eqb ch delim then Ok (save p StartField)
               else put p InField ch
  end.
Definition d_step (p : ps) (c : option char) : res ps :=
  match pst p with
  | StartRecord => match c with None => Ok p | Some ch => if is_eol c then Ok (goto p EatCrnl) else d_start p c end
  | StartField => d_start p c
  | InField =>
    match c with
    | None => Ok (save p StartRecord)
    | Some ch => if is_eol c then Ok (save p EatCrnl) else if eqb ch delim then Ok (save p StartField) else put p InField ch
    end
  | InQuoted => match c with None => Ok p | Some ch => if eqb ch quo then Ok (goto p QuoteInQuoted) else put p InQuoted ch end
  | QuoteInQuoted =>
    match c with
    | None => Ok (save p StartRecord)
    | Some ch => if eqb ch quo then put p InQuoted ch
                 else if eqb ch delim then Ok (save p StartField)
                 else if is_eol c then Ok (save p EatCrnl)
                 else put p InField ch
    end
  | EatCrnl => match c with None => Ok (goto p StartRecord) | Some ch => if is_eol c then Ok p else Raise EOther end
  end.
Fixpoint d_steps (p : ps) (s : str) : res ps := match s with [] => Ok p | c :: s' => let* p' := d_step p (Some c) in d_steps p' s' end.
Fixpoint d_loop (p : ps) (ls : list str) : res (list (list str)) :=
  match ls with
  | [] => if negb (eqb (pfield p) []) || eqb (pst p) InQuoted then Ok [pfields p ++ [pfield p]] else Ok []
  | l :: ls' =>
    if mem 0%N l then Raise EOther else
    let* p1 := d_steps p l in
    let* p2 := d_step p1 None in
    if eqb (pst p2) StartRecord then let* r := d_loop ps0 ls' in Ok (pfields p2 :: r) else d_loop p2 ls'
  end.
Definition d_rows (text : str) : res (list (list str)) := d_loop ps0 (raw_lines text).
Definition d_reader (text : str) : res (list (dict str val)) :=
  let* rows := d_rows text in
  match rows with [] => Ok [] | h :: rows' => read_rows h rows' end.

(** ** writeCSV *)
Section Write.
Context {R : Type}.
Variables to_tag to_full : dict str str.
Variable keys : R -> list str.
Variable get : R -> str -> option wval.
Variable genders : R -> res (nat * nat * nat).
(** recordCollection.py:295-355, 367, 371 *)
Definition write_csv_with (o : wopts) (rs : list R) : res (str * wplan) :=
  let* p := write_plan to_tag to_full keys o rs in
  let* ds := rec_dicts get genders o (p_retrieved p) rs in
  let* text := d_file (p_header p) ds in
  Ok (text, p).
End Write.
End Dialect.
