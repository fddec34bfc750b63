(** Specification for C82: csv tables as text, and the grants their rows stand for. *)
From Coq Require Import List ZArith Lia Bool Arith.
From Coq Require Import String.
From Verif Require Import Base PyStr GrantModel.
Import ListNotations.
Local Open Scope list_scope.

(** ** Tables as text *)
(** each double quote twice *)
Definition doubled (v : str) : str := flat_map (fun c => if N.eqb c 34 then [34; 34]%N else [c]) v.
(** how a value can be written: as it is, if it has no line end, double quote, comma or NUL, or in double quotes. Values are not longer than csv.field_size_limit() *)
Inductive written : str -> str -> Prop :=
| as_it_is v : (forall c, In c v -> ~ In c [10; 13; 34; 44; 0]%N) -> (N.of_nat (length v) <= 131072)%N -> written v v
| in_quotes v : ~ In 13%N v -> ~ In 0%N v -> (N.of_nat (length v) <= 131072)%N -> written v ([34%N] ++ doubled v ++ [34%N]).
(** a row: its values, its text, the end of its last line *)
Record row := { values : list str; body : str; eol : str }.
Definition row_written (r : row) : Prop :=
  (exists ts, Forall2 written (values r) ts /\ body r = join $"," ts) /\ body r <> [] /\ (eol r = [10%N] \/ eol r = [13; 10]%N).
Definition written_out (rs : list row) : str := concat (map (fun r => body r ++ eol r) rs).
(** the number of the last line of each row, when [n] lines came before, and the line *)
Definition breaks (s : str) : N := N.of_nat (count 10%N s).
Definition last_line (s : str) : str := last (split_char 10%N s) [] ++ [10%N].
Fixpoint row_ends (n : N) (rs : list row) : list (N * str) :=
  match rs with [] => [] | r :: rs' => let k := (n + breaks (body r) + 1)%N in (k, last_line (body r)) :: row_ends k rs' end.

(** ** Grants *)
(** a grant has the values of a row under the names of the columns; None if the row is too short *)
Definition has_values (columns vs : list str) (d : gfields) : Prop :=
  dkeys d = columns /\ forall i c, nth_error columns i = Some c -> dget c d = Some (match nth_error vs i with Some v => GText v | None => GNone end).
(** a number with at least 20 characters: zeros are put after the sign *)
Definition wide (z : Z) (w : str) : Prop :=
  exists zeros, (forall c, In c zeros -> c = 48%N) /\ w = (if (z <? 0)%Z then $"-" else []) ++ zeros ++ dec_N (Z.abs_N z) /\
    (length w = 20 \/ 20 < length w /\ zeros = []).
(** the identifier: name of the file, number of the line, hash of the line *)
Definition placed (hash : str -> Z) (name : str) (at_ : N * str) (g : grant) : Prop :=
  exists w, wide (hash (snd at_)) w /\ g_id g = name ++ $"-l:" ++ dec_N (fst at_) ++ $"-" ++ w.
(** one grant for each row, in order *)
Inductive one_for_each {A B C} (P : A -> B -> C -> Prop) : list A -> list B -> list C -> Prop :=
| each_nil : one_for_each P [] [] []
| each_cons a b c la lb lc : P a b c -> one_for_each P la lb lc -> one_for_each P (a :: la) (b :: lb) (c :: lc).
(** the name of a file: what follows the last slash *)
Definition file_name (path name : str) : Prop := ~ In 47%N name /\ (path = name \/ exists d, path = d ++ [47%N] ++ name).
Definition ends_with (e s : str) : Prop := exists b, s = b ++ e.
Definition begins_with (b s : str) : Prop := exists e, s = b ++ e.
(** the columns of a Scopus file *)
Definition of_scopus (columns : list str) : Prop :=
  forall c, In c [$"Conference location"; $"Conference code"; $"ISSN"; $"ISBN"; $"CODEN"; $"PubMed ID"; $"Language of Original Document"; $"Abbreviated Source Title";
    $"Document Type"; $"Source"; $"EID"] -> In c columns.
(** a table whose first row has the names of the columns *)
Definition good_table (columns : list str) (h : row) (rs : list row) : Prop :=
  row_written h /\ values h = columns /\ NoDup columns /\ Forall (fun r => row_written r /\ length (values r) <= length columns) rs.
(** The first lines of a file of CIHR *)
Definition cihr_head (head : str) : Prop := exists l1 l2 l3 e1 e2 e3, head = l1 ++ e1 ++ l2 ++ e2 ++ l3 ++ e3 /\
  (forall l, In l [l1; l2; l3] -> ~ In 10%N l /\ ~ In 13%N l) /\ (forall e, In e [e1; e2; e3] -> e = [10%N] \/ e = [13; 10]%N) /\
  begins_with $"Search Criteria" l1 /\ ends_with $",,,,,,,,," l2 /\ ends_with $",,,,,,,,," l3.
