(** Model of metaknowledge/mkRecord.py 697-767 (bibString) and metaknowledge/recordCollection.py 373-418 (writeBib), and of
    recordCollection.py 420-434 (findProbableCopyright). *)
From Coq Require Import List ZArith Lia Bool Arith.
From Coq Require Import String.
From Verif Require Import Base PyStr RecordView TextModel.
Import ListNotations.
Local Open Scope list_scope.

(** str.title, of which nothing is assumed *)
Section Bib.
Variable title_case : str -> str.
(** What is read of a record: its flag and id; the authors, if any; year and month as texts and the title, if they are there and
    neither empty nor 0; all fields in order, and those of commonRecordFields that it has *)
Record brec := { b_bad : bool; b_id : str; b_authors : option (list str); b_year : option str; b_month : option str; b_title : option str;
                 b_items : list (str * bval); b_common : list (str * bval) }.
(** mkRecord.py:730-733 *)
Definition plain_name (s : str) : str := filter (fun c => negb (eqb c sp || eqb c 44%N || eqb c 46%N)) (title_case s).
(** mkRecord.py:741-742: the words from the longest on, until there are 35 characters *)
Fixpoint add_words (id : str) (ws : list str) : str :=
  match ws with
  | [] => id
  | w :: ws' => if length id <? 35 then add_words (id ++ $"-" ++ title_case w) ws' else id
  end.
(** mkRecord.py:738-742: sorted(..., key = len), of which the last one is taken each time *)
Definition title_words (t : str) : list str := rev (ssort (@length char) Nat.leb (split_char sp t)).
(** mkRecord.py:729-744 *)
Definition nice_id (r : brec) : str :=
  let id := match b_authors r with Some (a :: _) => plain_name a | _ => [] end in
  let id := match b_year r with Some y => id ++ $"-" ++ y | None => id end in
  let id := match b_month r with Some m => id ++ $"-" ++ m | None => id end in
  let id := match b_title r with
            | Some t => match title_words t with
                        | w :: ws => add_words (id ++ $"-" ++ title_case w) ws
                        | [] => id
                        end
            | None => id
            end in
  if length id <? 30 then id ++ b_id r else id.
(** mkRecord.py:729-748 *)
Definition bib_id (nice wos : bool) (r : brec) : str :=
  if nice then nice_id r else if wos then $"ISI:" ++ skipn 4 (b_id r) else b_id r.
(** mkRecord.py:749; self.get('authorsFull', ['None']) *)
Definition author_line (r : brec) : str :=
  $"author = {{" ++ join $" and " match b_authors r with Some l => l | None => [$"None"] end ++ $"}},".
(** mkRecord.py:754-759 *)
Definition wos_line (tv : str * bval) : str :=
  fst tv ++ $" = {{" ++ match snd tv with BList l => join (nl :: $"   ") l | BOne s => s end ++ $"}},".
(** mkRecord.py:762-763 *)
Fixpoint bib_lines (max : nat) (l : list (str * bval)) : res (list str) :=
  match l with
  | [] => Ok []
  | (t, v) :: l' => let* s := bib_format v max in let* ss := bib_lines max l' in Ok ((t ++ $" = " ++ s ++ $",") :: ss)
  end.
(** mkRecord.py:726-767 *)
Definition bib_string (max : nat) (wos restricted nice : bool) (r : brec) : res str :=
  if b_bad r then Raise BadRecord
  else
    let id := bib_id nice wos r in
    let items := if restricted then b_common r else b_items r in
    if wos then Ok ($"@misc{ " ++ id ++ [44%N; nl] ++ join [nl] (author_line r :: map wos_line items) ++ [nl; 125%N])
    else let* ls := bib_lines max items in
         Ok ($"@misc{ " ++ id ++ [44%N; nl] ++ $"    " ++ join (nl :: $"    ") (author_line r :: ls) ++ [nl; 125%N]).
Definition bib_head : str := join [nl] [$"%This file was generated by the metaknowledge Python package.";
  $"%The contents have been automatically generated and are likely to not work with"; $"%LaTeX without some human intervention. This file is meant for other automatic";
  $"%systems and not to be used directly for making citations"; []].
(** recordCollection.py:405-415: the text written and the exception that ends the function, if any; only a BadWOSRecord is
    passed over, an AttributeError is changed *)
Fixpoint write_entries (max : nat) (wos restricted nice : bool) (rs : list brec) (text : str) : str * option exn :=
  match rs with
  | [] => (text, None)
  | r :: rs' =>
    let text := text ++ [nl; nl] in
    match bib_string max wos restricted nice r with
    | Ok s => write_entries max wos restricted nice rs' (text ++ s)
    | Raise BadWOSRecord => write_entries max wos restricted nice rs' text
    | Raise AttributeError => (text, Some RecordsNotCompatible)
    | Raise e => (text, Some e)
    end
  end.
Definition write_bib (max : nat) (wos restricted nice : bool) (rs : list brec) : str * option exn :=
  write_entries max wos restricted nice rs bib_head.
End Bib.

(** recordCollection.py:429-434; the abstracts, empty for a record without one *)
Definition probable_copyrights (num : char -> bool) (abstracts : list str) : list str :=
  fold_left (fun l a => let c := snd (find_copyright num a) in if eqb c [] || mem c l then l else l ++ [c]) abstracts [].
