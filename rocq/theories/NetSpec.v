(** Specification for the network builders (C14 - C20): numbers of occurrences and of pairs. *)
From Coq Require Import String.
From Verif Require Import Base RecordView Nx SeriesSpec.
Set Implicit Arguments.

Section Spec.
Context {N : Type} `{EqDec N}.
(** how often [n] occurs in the lists of all records *)
Definition occurs {R} (values : R -> list N) (rs : list R) (n : N) : nat := total (fun r => count n (values r)) rs.
(** pairs of positions i < j in one list carrying [u] and [v] *)
Definition pairs_within (u v : N) (l : list N) : nat :=
  if eqb u v then count u l * (count u l - 1) / 2 else count u l * count v l.
(** pairs of a position in [a] and one in [b] carrying [u] and [v], in that order *)
Definition pairs_from_to (u v : N) (a b : list N) : nat := count u a * count v b.
(** the same in any order *)
Definition pairs_between (u v : N) (a b : list N) : nat :=
  if eqb u v then count u a * count u b else count u a * count v b + count v a * count u b.
(** the same over any two different lists of a family *)
Fixpoint pairs_across (u v : N) (ls : list (list N)) : nat :=
  match ls with [] => 0 | l :: ls' => total (pairs_between u v l) ls' + pairs_across u v ls' end.

(** what is observed of a graph *)
Definition node_attr (g : graph N) (n : N) (k : str) : option val := match nd g n with Some a => dget k a | None => None end.
Definition edge_attr (g : graph N) (u v : N) (k : str) : option val := match ed g u v with Some a => dget k a | None => None end.
Definition is_edge (g : graph N) (u v : N) : Prop := ed g u v <> None.
Definition is_node (g : graph N) (n : N) : Prop := In n (nodes g).
(** [Some n] unless it is 0 *)
Definition positive_count (n : nat) : option val := if n =? 0 then None else Some (VInt (Z.of_nat n)).
End Spec.
(** the attributes of an edge that was met [n] times; no edge if it was not met *)
Definition edge_value (weighted : bool) (n : nat) : option attrs :=
  if n =? 0 then None else Some (if weighted then [($"weight", VInt (Z.of_nat n))] else []).
(** the attributes of a node that was met [n] times; no node if it was not met *)
Definition node_value (counted : bool) (n : nat) : option attrs :=
  if n =? 0 then None else Some (if counted then [($"count", VInt (Z.of_nat n))] else []).

(** the values a member has under a tag; [missing v] tells that a lone value counts as no value *)
Definition values_under {R V} (get : R -> str -> option (fval V)) (missing : V -> bool) (tag : str) (r : R) : list V :=
  match get r tag with
  | None => []
  | Some (One v) => if missing v then [] else [v]
  | Some (Many l) => l
  end.
(** the tags under which a member has values, each with the names of its values *)
Definition tag_lists {R V N} (get : R -> str -> option (fval V)) (missing : V -> bool) (name : V -> N) (tags : list str) (r : R) : list (str * list N) :=
  filter (fun tv => negb (length (snd tv) =? 0)) (map (fun t => (t, map name (values_under get missing t r))) tags).
