(** Specification for C79: the member in which a node is met for the first time. *)
From Coq Require Import String.
From Verif Require Import Base.
(** [r] is the member at position [i] and the first one whose values contain [n] *)
Definition met_first {R N} (values : R -> list N) (rs : list R) (n : N) (i : nat) : Prop :=
  (exists r, nth_error rs i = Some r /\ In n (values r)) /\ forall j r, j < i -> nth_error rs j = Some r -> ~ In n (values r).
