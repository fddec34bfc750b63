(** Model of functions that cut and lay out text:
    metaknowledge/recordCollection.py 1815-1833 (findCopyright), metaknowledge/mkRecord.py 769-790 (_bibFormatter),
    metaknowledge/RCglimpse.py (the glimpse of a collection), metaknowledge/progressBar.py 78-88 (prepString). *)
From Coq Require Import List ZArith Lia Bool Arith.
From Coq Require Import String.
From Verif Require Import Base PyStr PyInt Regex JournalModel.
Import ListNotations.
Local Open Scope list_scope.

(** ** Python slices and paddings (library) *)
(** s[:z] *)
Definition upto (z : Z) (s : str) : str := firstn (Z.to_nat (if (z <? 0)%Z then Z.of_nat (length s) + z else z)) s.
(** s[z:] *)
Definition from (z : Z) (s : str) : str := skipn (Z.to_nat (if (z <? 0)%Z then Z.of_nat (length s) + z else z)) s.
(** s.split(sep) for a separator that is not empty *)
Fixpoint split_on (fuel : nat) (sep s : str) : list str :=
  match cut sep s, fuel with
  | Some (a, b), S fuel' => a :: split_on fuel' sep b
  | _, _ => [s]
  end.
(** s.rjust(n, ' '), s.ljust(n, ' '), '{:c<n}'.format(s) and '{:c^n}'.format(s) *)
Definition rjust (n : Z) (s : str) : str := repeat sp (Z.to_nat (n - Z.of_nat (length s))) ++ s.
Definition pad_right (c : char) (n : Z) (s : str) : str := s ++ repeat c (Z.to_nat (n - Z.of_nat (length s))).
Definition center (c : char) (n : Z) (s : str) : str :=
  let p := Z.to_nat (n - Z.of_nat (length s)) in repeat c (p / 2) ++ s ++ repeat c (p - p / 2).

(** ** recordCollection.py:1815-1833 *)
Section Copyright.
(** \d of python's re *)
Variable num : char -> bool.
Definition copyright_hits : list str := [$". &COPY; "; $". Crown Copyright"; $" Elsevier Ltd. "; $". Copyright"; $". Published by Els"; $". (c) "; $". (C) "].
(** ([.] [(]?(c|C)[)]? \d\d\d\d )|([.] \d\d\d\d Elsevier), the whole as group 0 *)
Definition copyright_regex : rx :=
  let d4 := rseq [RCls num; RCls num; RCls num; RCls num] in
  RGrp 0 (ROr (RGrp 1 (rseq [rchar 46%N; rchar sp; ropt (rchar 40%N); RGrp 2 (ROr (rchar 99%N) (rchar 67%N)); ropt (rchar 41%N); rchar sp; d4; rchar sp]))
              (RGrp 3 (rseq [rchar 46%N; rchar sp; d4; rtext $" Elsevier"]))).
(** re.search *)
Fixpoint re_search (r : rx) (s : str) : option caps :=
  match re_match r s with
  | Some c => Some c
  | None => match s with [] => None | _ :: s' => re_search r s' end
  end.
Definition splitter (s : str) : option str :=
  match find (fun t => contains t s) copyright_hits with
  | Some t => Some t
  | None => match re_search copyright_regex s with Some c => c 0 | None => None end
  end.
Definition find_copyright (s : str) : str * str :=
  match splitter s with
  | None | Some [] => (s, [])
  | Some (x :: sep') =>
    let sep := x :: sep' in
    let parts := split_on (length s) sep s in
    let before := join sep (removelast parts) in
    if eqb x 46%N then (before ++ $".", sep' ++ rstrip (last parts [])) else (before, sep ++ rstrip (last parts []))
  end.
End Copyright.

(** ** mkRecord.py:769-790 *)
(** a value: a list of values or something else, each already made a string *)
Inductive bval := BList (l : list str) | BOne (s : str).
Definition quote : char := 34%N.
Definition remove (c : char) (s : str) : str := filter (fun x => negb (eqb x c)) s.
(** s.replace('{', '\\{').replace('}', '\\}') *)
Definition escape (s : str) : str := flat_map (fun x => if eqb x 123%N || eqb x 125%N then [92%N; x] else [x]) s.
(** s[i * max: (i + 1) * max] *)
Definition piece (max i : nat) (s : str) : str := firstn max (skipn (i * max) s).
Definition bib_text (v : bval) : str := match v with BList l => join $" and " l | BOne s => s end.
Definition bib_pieces (s : str) (max : nat) : list str := map (fun i => piece max i s) (seq 0 (length s / max)).
Definition bib_format (v : bval) (max : nat) : res str :=
  let s := bib_text v in
  if max <? length s then
    (* range(len(s) // maxLength) *)
    if max =? 0 then Raise ZeroDivisionError
    else Ok ([quote] ++ join $""" # """ (bib_pieces (remove quote s) max) ++ [quote])
  else if mem quote s then Ok ($"{" ++ escape s ++ $"}") else Ok ([quote] ++ s ++ [quote]).

(** ** RCglimpse.py *)
Definition description1 : str := $"Columns are ranked by num. of occurrences".
Definition description2 : str := $"and are independent of one another".
Definition description : str := description1 ++ $" " ++ description2.
(** RCglimpse.py:85-91; {:<2.0f} of a whole number *)
Definition prep_entry (h : Z) (v : str) (rank : Z) : str :=
  let v' := if (Z.of_nat (length v) <=? h - 2)%Z then rjust (h - 2) v else upto (h - 3) v ++ $"." in
  pad_right sp 2 (dec_Z rank) ++ v'.
(** RCglimpse.py:59-67: the heading of a column, and the rest for the next columns; a negative width is no format *)
Definition heading (w rem : Z) (title : str) : res (str * Z) :=
  let '(w', rem') := if (0 <? rem)%Z then (w + 1, rem - 1)%Z else if (rem <? 0)%Z then (w - 1, rem + 1)%Z else (w, rem) in
  if (w' <? 0)%Z then Raise ValueError else Ok (center 45%N w' title, rem').
(** RCglimpse.py:68-74: the entries under a heading *)
Definition column (height : nat) (head : str) (rows : list (str * Z)) : list str :=
  let rows' := rows ++ repeat ($"NA", (-1)%Z) (height - length rows) in
  head :: map (fun '(v, r) => prep_entry (Z.of_nat (length head)) v r) (firstn height rows').
Fixpoint columns (w rem : Z) (height : nat) (values : list (str * list (str * Z))) : res (list (list str)) :=
  match values with
  | [] => Ok []
  | (title, rows) :: vs =>
    let* hr := heading w rem title in
    let* cs := columns w (snd hr) height vs in
    Ok (column height (fst hr) rows :: cs)
  end.
(** RCglimpse.py:75-77: one line from the entries with this index *)
Definition line_at (sep : str) (cs : list (list str)) (i : nat) : str := $"|" ++ join sep (map (fun c => nth i c []) cs) ++ $"|".
(** RCglimpse.py:51-83, compact; as a list of lines. The height can be -1: then there is no line for the headings *)
Definition table_compact (values : list (str * list (str * Z))) (height width : Z) : res (list str) :=
  match values with
  | [] => Raise ZeroDivisionError
  | _ =>
    let n := Z.of_nat (length values) in
    let* cs := columns (width / n - 1) (width mod n - 1) (Z.to_nat height) values in
    if (height <? 0)%Z then Raise IndexError
    else Ok (line_at $"+" cs 0 :: map (line_at $"|" cs) (seq 1 (Z.to_nat height)))
  end.
(** rows[:z] *)
Definition rows_upto {A} (z : Z) (l : list A) : list A := firstn (Z.to_nat (if (z <? 0)%Z then Z.of_nat (length l) + z else z)) l.
(** RCglimpse.py:78-82, not compact *)
Definition table_long (values : list (str * list (str * Z))) (height width : Z) : list str :=
  flat_map (fun '(title, rows) => [] :: title :: map (fun '(s, c) => dec_Z c ++ $" " ++ upto (width - Z.of_nat (length (dec_Z c)) - 1) s)
                                               (rows_upto (height / 2) rows)) values.
(** RCglimpse.py:37-49; [first] is the line with the class name and the time, [second] the one with the number of records and the name *)
Definition header (first second : str) (width : Z) (compact : bool) : list str :=
  if compact then
    let plus := pad_right 43%N in
    [$"+" ++ plus (width - 1)%Z first; $"|" ++ plus (width - 2)%Z second ++ $"|"]
    ++ if (width - 2 <? Z.of_nat (length description))%Z
       then [$"|" ++ plus (width - 2)%Z description1 ++ $"|"; $"|" ++ plus (width - 2)%Z description2 ++ $"|"]
       else [$"|" ++ plus (width - 2)%Z description ++ $"|"]
  else [first; second].
(** RCglimpse.py:18-35, as lines; [cols] and [trows] are the size of the terminal *)
Definition glimpse (first second : str) (values : list (str * list (str * Z))) (cols trows : Z) (compact : bool) : res (list str) :=
  let width := if (cols <? 55)%Z then 80%Z else cols in
  let trows := if (trows <? 6)%Z then 24%Z else trows in
  let height := (if (width <? Z.of_nat (length description))%Z then trows - 7 else trows - 6)%Z in
  if compact then let* t := table_compact values height width in Ok (header first second width true ++ t)
  else Ok (header first second width false ++ table_long values height width).

(** ** progressBar.py:78-88 *)
(** int(x / 2) for an integer x rounds towards zero, int(m/2 - 3) and int(m/2 - 2) likewise *)
Definition prep_string (s : str) (max : Z) : str :=
  let m := (max - 1)%Z in
  if (Z.of_nat (length s) <=? m)%Z then pad_right sp m s ++ $" "
  else upto (if Z.even m then Z.quot (m - 6) 2 else Z.quot (m - 4) 2)%Z s ++ $"..." ++ from (Z.quot (- m) 2) s ++ $" ".
