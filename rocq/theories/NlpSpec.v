(** Specification for C65 - C67. *)
From Coq Require Import List ZArith Lia Bool Arith.
From Coq Require Import String.
From Verif Require Import Base PyStr.
Import ListNotations.
Local Open Scope list_scope.

(** [t] is [s] with a space in the place of each longest run of characters of the kind [space] *)
Inductive spaced (space : char -> bool) : str -> str -> Prop :=
| spaced_nil : spaced space [] []
| spaced_char c s t : space c = false -> spaced space s t -> spaced space (c :: s) (c :: t)
| spaced_run w s t : w <> [] -> forallb space w = true -> match s with [] => True | c :: _ => space c = false end ->
    spaced space s t -> spaced space (w ++ s) (sp :: t).
(** no two characters of a kind next to each other *)
Fixpoint no_neighbours {A} (p : A -> bool) (l : list A) : Prop :=
  match l with
  | x :: ((y :: _) as l') => (p x && p y = false) /\ no_neighbours p l'
  | _ => True
  end.
(** which words are left when [w] is dropped from a list of words: the one after a dropped word stays *)
Fixpoint thinned (w : str) (ws : list str) : list str :=
  match ws with
  | [] => []
  | x :: ws' => if list_eq_dec N.eq_dec x w then match ws' with [] => [] | y :: ws'' => y :: thinned w ws'' end else x :: thinned w ws'
  end.
(** what is to be deleted: numbers, and what is no character of a word, as asked for *)
Definition unwanted (isw isd : char -> bool) (numbers nonwords : bool) (c : char) : Prop :=
  (numbers = true /\ isd c = true) \/ (nonwords = true /\ isw c = false).
