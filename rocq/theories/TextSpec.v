(** Specification for C44, C49, C52 and C60: layouts of text. *)
From Coq Require Import List ZArith Lia Bool Arith.
From Coq Require Import String.
From Verif Require Import Base PyStr.
Import ListNotations.
Local Open Scope list_scope.

(** white space only *)
Definition blank_text (s : str) : Prop := forall c, In c s -> ws_char c = true.
(** the line has this many characters *)
Definition wide (w : Z) (s : str) : Prop := Z.of_nat (length s) = w.
(** [b] begins with [a] *)
Definition begins (a b : str) : Prop := exists t, b = a ++ t.
Definition ends (a b : str) : Prop := exists t, b = t ++ a.

(** the phrases looked for, the first of this list found in the text counts *)
Definition phrases : list str := [$". &COPY; "; $". Crown Copyright"; $" Elsevier Ltd. "; $". Copyright"; $". Published by Els"; $". (c) "; $". (C) "].
(** drop the character before every brace *)
Fixpoint unbrace (s : str) : str :=
  match s with
  | x :: (y :: t) as r => if (y =? 123)%N || (y =? 125)%N then y :: unbrace t else x :: unbrace r
  | _ => s
  end.
(** [s] is [whole] without its quotation marks *)
Definition no_quotes (whole s : str) : Prop := s = filter (fun c => negb (c =? 34)%N) whole.
(** what a BibTeX reader joins: quoted pieces, with # between them *)
Fixpoint quoted (ps : list str) : str :=
  match ps with
  | [] => $""""""
  | [p] => [34%N] ++ p ++ [34%N]
  | p :: ps' => [34%N] ++ p ++ $""" # " ++ quoted ps'
  end.
(** the dated forms, with [digit] telling the decimal digits: ". (c) 2014 ", with or without either bracket, and ". 2014 Elsevier" *)
Definition four_digits (digit : char -> bool) (y : str) : Prop := length y = 4 /\ forall c, In c y -> digit c = true.
Definition dated (digit : char -> bool) (t : str) : Prop :=
  exists y, four_digits digit y /\
    ((exists o c e, (o = $"" \/ o = $"(") /\ (c = $"c" \/ c = $"C") /\ (e = $"" \/ e = $")") /\ t = $". " ++ o ++ c ++ e ++ $" " ++ y ++ $" ")
     \/ t = $". " ++ y ++ $" Elsevier").
