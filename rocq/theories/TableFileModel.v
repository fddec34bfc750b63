(** The csv files that rankedSeries, timeSeries, forBurst and forNLP write with [outputFile]:
    metaknowledge/mkCollection.py 627-631, 732-736, metaknowledge/recordCollection.py 546-551, 682-694.
    A file is its text; the system is one that writes line ends as they are (on Windows rankedSeries and timeSeries, which open their files
    without [newline = ''], would double the carriage returns), and every character can be encoded. *)
From Coq Require Import List ZArith Lia Bool Arith.
From Coq Require Import String.
From Verif Require Import Base PyStr RecordView CsvModel SeriesModel NlpModel.
Import ListNotations.
Local Open Scope list_scope.

(** ** csv.writer(f, dialect = 'excel') and csv.DictWriter(f, fields) (library): QUOTE_MINIMAL, lines end in CR LF *)
Definition needs_quotes (c : char) : bool := eqb c comma || eqb c CsvModel.quote || eqb c cr || eqb c nl.
Definition excel_field (s : str) : str := if existsb needs_quotes s then quoted s else s.
(** writerow; the row of one empty field is quoted *)
Definition excel_row (r : list str) : str := match r with [[]] => quoted [] | _ => join [comma] (map excel_field r) end ++ [cr; nl].
Definition excel_file (rs : list (list str)) : str := concat (map excel_row rs).

Section SeriesFile.
Context {R V : Type} `{EqDec V}.
Variable lookup : R -> str -> res (fval V).
(** str() of a value *)
Variable show : V -> str.
(** mkCollection.py:608-631: the text written to the file, None if the call ends before it is opened *)
Definition ranked_file (tag : str) (give_counts give_ranks greatest : bool) (limit : list V) (rs : list R) : option str :=
  if give_ranks && give_counts then None
  else match count_values lookup tag limit rs [] with
       | Raise _ => None
       | Ok d => Some (excel_file ([tag; $"count"] :: map (fun vn => [show (fst vn); dec_nat (snd vn)]) (by_count greatest d)))
       end.
(** mkCollection.py:732-736 *)
Definition years_rows {E} (show : E -> str) (d : dict E (dict Z nat)) : list (list str) :=
  map (fun kv => [show (fst kv); join $"|" (map dec_Z (dkeys (snd kv)))]) d.
Variable year_of : R -> res Z.
Definition time_file (tag : str) (limit : list V) (rs : list R) : option str :=
  match count_years lookup year_of tag limit rs [] with
  | Raise _ => None
  | Ok d => Some (excel_file ([tag; $"years"] :: years_rows show d))
  end.
(** ... without a tag: str(None) is the name of the column *)
Definition time_file_records `{EqDec R} (show_rec : R -> str) (rs : list R) : option str :=
  match record_years year_of rs [] with
  | Raise _ => None
  | Ok d => Some (excel_file ([$"None"; $"years"] :: years_rows show_rec d))
  end.
End SeriesFile.

(** recordCollection.py:546-551: no header is written *)
Definition burst_file {Y} (show : Y -> str) (table : list Y * list str) : str :=
  excel_file (map (fun yw => [show (fst yw); snd yw]) (combine (fst table) (snd table))).

Section NlpFile.
Context {X : Type}.
(** str() of a value that is no text, and of a list of texts *)
Variable show : X -> str.
Variable show_list : list str -> str.
Definition nlp_text (v : @nfield X) : str := match v with FList l => show_list l | FOne (NText s) => s | FOne (NOther x) => show x end.
(** recordCollection.py:685-690 *)
Definition field_names (t : dict str (list (@nfield X))) : list str :=
  [$"id"; $"year"; $"title"; $"keywords"] ++ remove_one $"keywords" (remove_one $"year" (remove_one $"title" (remove_one $"id" (dkeys t)))).
(** recordCollection.py:694: {k : retDict[k][row] for k in retDict.keys()} *)
Fixpoint row_dict (i : nat) (t : dict str (list (@nfield X))) : res (dict str str) :=
  match t with
  | [] => Ok []
  | (k, c) :: t' => match nth_error c i with None => Raise IndexError | Some v => let* d := row_dict i t' in Ok ((k, nlp_text v) :: d) end
  end.
Fixpoint table_rows (t : dict str (list (@nfield X))) (is : list nat) : res (list (list str)) :=
  match is with
  | [] => Ok []
  | i :: is' =>
    let* d := row_dict i t in
    let* rows := table_rows t is' in
    Ok (map (fun k => match dget k d with Some s => s | None => [] end) (field_names t) :: rows)
  end.
(** recordCollection.py:682-694; the table always has the column id *)
Definition nlp_file (t : dict str (list (@nfield X))) : res str :=
  let* rows := table_rows t (seq 0 (length (match dget $"id" t with Some c => c | None => [] end))) in
  Ok (excel_file (field_names t :: rows)).
End NlpFile.
