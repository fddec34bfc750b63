(** Specification for C95: what is counted for an author. *)
From Coq Require Import String.
From Verif Require Import Base PyStr SeriesSpec.
Set Implicit Arguments.

Section Spec.
Context {I R C J : Type} `{EqDec I} `{EqDec J}.
Variable cite_id : C -> J.
Variable cite_str : C -> str.
Variable authors : R -> list I.
Variable cites : R -> list C.
(** the number of the first record that lists [n], from [k] *)
Fixpoint first_from (k : nat) (n : I) (rs : list R) : option nat :=
  match rs with [] => None | r :: rs' => if mem n (authors r) then Some k else first_from (S k) n rs' end.
(** both are first listed by the same record *)
Definition together (rs : list R) (n m : I) : bool := eqb (first_from 0 n rs) (first_from 0 m rs).
(** the sum of the positions (from [k]) of those with [p] *)
Fixpoint positions_of (p : I -> bool) (k : nat) (l : list I) : nat :=
  match l with [] => 0 | x :: l' => (if p x then k else 0) + positions_of p (S k) l' end.
(** the citations of records, each record taken so many times *)
Definition cites_taken (times : R -> nat) (rs : list R) : list C := flat_map (fun r => if times r =? 0 then [] else cites r) rs.
Definition times_cited (times : R -> nat) (rs : list R) (x : J) : nat := total (fun r => times r * count x (map cite_id (cites r))) rs.
(** the different ones in the order of their first occurrence, the text of the first, and how often they were taken *)
Definition shown_ids (times : R -> nat) (rs : list R) : list J := first_seen (map cite_id (cites_taken times rs)).
Definition shown_text (times : R -> nat) (rs : list R) (x : J) : str :=
  match find (fun c => eqb x (cite_id c)) (cites_taken times rs) with Some c => cite_str c | None => [] end.
(** the two texts that are shown *)
Definition shown_cites (times : R -> nat) (rs : list R) : str := join $"|" (map (shown_text times rs) (shown_ids times rs)).
Definition shown_counts (times : R -> nat) (rs : list R) : str := join $"|" (map (fun x => dec_nat (times_cited times rs x)) (shown_ids times rs)).
(** what should be taken for an author: each record that lists them, once *)
Definition listed_once (n : I) (r : R) : nat := if mem n (authors r) then 1 else 0.
(** what is taken: the records that list anybody who was first listed together with them, as often as the sum of the positions of these *)
Definition listed_together (rs : list R) (n : I) (r : R) : nat := positions_of (together rs n) 1 (authors r).
End Spec.
