(** Specification for C25: Scopus records. *)
From Coq Require Import List Lia Bool Arith.
From Coq Require Import String.
From Verif Require Import Base PyStr.
Import ListNotations.
Local Open Scope list_scope.

(** the number of quotes a text begins with *)
Fixpoint lead (s : str) : nat := match s with 34%N :: s' => S (lead s') | _ => 0 end.
(** the first character that is not a quote *)
Definition first_other (s : str) : option char := hd_error (skipn (lead s) s).
(** text whose quotes are all doubled *)
Inductive doubled : str -> Prop :=
| doubled_nil : doubled []
| doubled_char c s : c <> 34%N -> doubled s -> doubled (c :: s)
| doubled_pair s : doubled s -> doubled ($"""""" ++ s).
(** what comes before the first comma or after a comma begins with an even number of quotes *)
Definition even_parts (v : str) : Prop := Nat.even (lead v) = true /\ forall a b, v = a ++ $"," ++ b -> Nat.even (lead b) = true.
(** with a comma, the first character other than a quote is not a comma, a bar or a dollar sign *)
Definition opens_well (v : str) : Prop := In 44%N v -> exists c, first_other v = Some c /\ ~ In c $",|$".
Definition value_ok (v : str) : Prop := even_parts v /\ opens_well v.

(** a cell of a line: a plain text without comma that does not end in a quote, or a quoted value *)
Inductive cell := Plain (s : str) | Quoted (v : str).
Definition cell_ok (c : cell) : Prop :=
  match c with Plain s => ~ In 44%N s /\ (forall t, s <> t ++ $"""") | Quoted v => value_ok v end.
Definition cell_text (c : cell) : str := match c with Plain s => s | Quoted v => $"""" ++ v ++ $"""" end.
(** its value; an empty plain cell has none *)
Definition cell_value (c : cell) : option str := match c with Plain [] => None | Plain s => Some s | Quoted v => Some v end.
(** the line of a record with these texts in its cells *)
Definition line_of (ts : list str) : str := join $"," ts ++ [nl].
(** the i-th column has the i-th cell's value, and there are no other columns *)
Definition has_cells (hs : list str) (cs : list cell) (d : dict str str) : Prop :=
  (forall i h c, nth_error hs i = Some h -> nth_error cs i = Some c -> dget h d = cell_value c) /\ forall h, ~ In h hs -> dget h d = None.
