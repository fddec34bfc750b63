(** Specification for C80: the names that come after a known one in the list of a record. *)
From Coq Require Import String.
From Verif Require Import Base.
Definition after {I} (c n : I) (l : list I) : Prop := exists a b d, l = a ++ c :: b ++ n :: d.
(** the names known once the records have been gone through *)
Fixpoint reached {I R} (names : R -> list I) (rs : list R) (known : I -> Prop) : I -> Prop :=
  match rs with
  | [] => known
  | r :: rs' => reached names rs' (fun n => known n \/ exists c, known c /\ after c n (names r))
  end.
