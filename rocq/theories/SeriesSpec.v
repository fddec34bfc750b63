(** Specification for C11 - C13: what is counted, without any dictionary. *)
From Coq Require Import String.
From Verif Require Import Base PyStr RecordView.
Set Implicit Arguments.

(** the sum of [f] over a list *)
Definition total {A} (f : A -> nat) (l : list A) : nat := fold_right (fun x n => f x + n) 0 l.
(** distinct elements in the order of their first occurrence *)
Fixpoint first_seen {A} `{EqDec A} (l : list A) : list A :=
  match l with [] => [] | x :: l' => x :: filter (fun y => negb (eqb y x)) (first_seen l') end.

Section Spec.
Context {R V : Type} `{EqDec V}.
Variable lookup : R -> str -> res (fval V).
(** the values a member has under a tag; none if it does not have the tag *)
Definition values_of (tag : str) (r : R) : list V := match lookup r tag with Ok f => entries f | Raise _ => [] end.
(** looking a tag up never fails otherwise than by saying that it is missing *)
Definition readable (tag : str) (rs : list R) : Prop := forall r e, In r rs -> lookup r tag = Raise e -> e = KeyError.
(** an empty limit means no limit *)
Definition permitted (limit : list V) (v : V) : Prop := limit = [] \/ In v limit.
(** how often [v] occurs in the whole collection *)
Definition occurrences (tag : str) (rs : list R) (v : V) : nat := total (fun r => count v (values_of tag r)) rs.
(** all values in the order they are met *)
Definition stream (tag : str) (rs : list R) : list V := flat_map (values_of tag) rs.
(** one more than the number of different counts that are greater than [n] *)
Definition dense_rank (counts : list nat) (n : nat) : nat :=
  S (length (first_seen (filter (fun m => n <? m) counts))).

Variable year_of : R -> res Z.
Definition dated (r : R) (y : Z) : Prop := year_of r = Ok y.
Definition in_year (y : Z) (r : R) : bool := match year_of r with Ok z => Z.eqb z y | Raise _ => false end.
Definition has_year (r : R) : bool := match year_of r with Ok _ => true | Raise _ => false end.
Definition occurrences_in (tag : str) (rs : list R) (y : Z) (v : V) : nat := occurrences tag (filter (in_year y) rs) v.
Definition years_readable (rs : list R) : Prop := forall r e, In r rs -> year_of r = Raise e -> e = KeyError.

(** the values under a tag, None counting as missing *)
Variable none : V.
Definition shown (tag : str) (r : R) : list V :=
  match lookup r tag with Ok (One v) => if eqb v none then [] else [v] | Ok (Many l) => l | Raise _ => [] end.
(** pairs of an occurrence of [a] under [t] and one of [b] under [u] in the same member *)
Definition together (rs : list R) (t u : str) (a b : V) : nat :=
  total (fun r => count a (shown t r) * count b (shown u r)) rs.
End Spec.

(** [v] comes before [w] *)
Definition before {A} (l : list A) (v w : A) : Prop := exists a b c, l = a ++ v :: b ++ w :: c.
