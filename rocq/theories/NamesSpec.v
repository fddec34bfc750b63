(** Specification for C106: a table of names as a csv file. *)
From Coq Require Import List ZArith Bool Arith.
From Coq Require Import String.
From Verif Require Import Base PyStr.
Import ListNotations.
Local Open Scope list_scope.

(** A cell is written as it is, or in double quotes with each double quote in it doubled. *)
Record cell := Cell { in_quotes : bool; content : str }.
Definition cell_text (c : cell) : str :=
  if in_quotes c then [34%N] ++ flat_map (fun x => if eqb x 34%N then [34%N; 34%N] else [x]) (content c) ++ [34%N] else content c.
(** no NUL and no carriage return, at most as long as the csv module takes, and as it is only without comma, double quote and end of line *)
Definition good_cell (c : cell) : Prop :=
  ~ In 0%N (content c) /\ ~ In cr (content c) /\ (N.of_nat (length (content c)) <= 131072)%N /\
  (in_quotes c = false -> ~ In 44%N (content c) /\ ~ In 34%N (content c) /\ ~ In nl (content c)).
(** a row of at least two cells, with either end of line *)
Record row := Row { cells : list cell; windows : bool }.
Definition row_text (r : row) : str := join $"," (map cell_text (cells r)) ++ (if windows r then [cr; nl] else [nl]).
Definition good_row (r : row) : Prop := 2 <= length (cells r) /\ Forall good_cell (cells r).
(** the first cell is the name, the fifth the gender *)
Definition name_in (r : row) : str := match cells r with c :: _ => content c | [] => [] end.
Definition gender_in (r : row) : option str := match cells r with _ :: _ :: _ :: _ :: c :: _ => Some (content c) | _ => None end.
(** a file of a heading and rows *)
Definition file_of (heading : row) (rows : list row) : str := row_text heading ++ flat_map row_text rows.
(** The gender of a first name is that of the last row with this name, letters being written as in a title; without such a row it is Unknown. *)
Definition gender_of (title : str -> str) (rows : list row) (first : str) : option str :=
  match find (fun r => eqb (title (name_in r)) (title first)) (rev rows) with Some r => gender_in r | None => Some $"Unknown" end.
(** family name, comma, space, first name, and nothing or something after a space or another comma *)
Definition full_name (s first : str) : Prop :=
  exists family rest, s = family ++ $", " ++ first ++ rest /\ ~ In 44%N family /\ ~ In 44%N first /\ ~ In 32%N first /\
    (rest = [] \/ (exists r, rest = $" " ++ r) \/ (exists r, rest = $", " ++ r)).
