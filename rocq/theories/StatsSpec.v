(** What the statistics of a graph are, in terms of its nodes and edges only. *)
From Coq Require Import List ZArith Lia Bool Arith QArith.
From Coq Require Import String.
From Verif Require Import Base PyStr Nx StatsModel.
Import ListNotations.
Local Open Scope list_scope.
Local Open Scope nat_scope.
Set Implicit Arguments.

(** the value of a number *)
Definition number_Q (x : number) : Q := match x with Int n => inject_Z (Z.of_nat n) | Float q => q end.
(** there are exactly [n] things satisfying [P] *)
Definition counts {A : Type} (P : A -> Prop) (n : nat) : Prop :=
  exists l, NoDup l /\ (forall x, In x l <-> P x) /\ length l = n.

Section Spec.
  Context {V : Type} `{EqDec V}.
  Implicit Types g : graph V.

  Definition is_node g (x : V) : Prop := nd g x <> None.
  (** there is an edge from [u] to [v] *)
  Definition linked g (u v : V) : Prop := ed g u v <> None.

  Definition nodes_count g (n : nat) : Prop := counts (is_node g) n.
  (** each edge is counted once: in an undirected graph, from one of its ends *)
  Definition edges_count g (m : nat) : Prop :=
    exists l, NoDup l /\ length l = m
      /\ (forall u v, In (u, v) l -> linked g u v)
      /\ (forall u v, linked g u v -> In (u, v) l \/ (gdir g = false /\ In (v, u) l))
      /\ (gdir g = false -> forall u v, In (u, v) l -> In (v, u) l -> u = v).
  Definition isolates_count g (n : nat) : Prop :=
    counts (fun x => is_node g x /\ forall y, ~ linked g x y /\ ~ linked g y x) n.
  Definition loops_count g (n : nat) : Prop := counts (fun x => linked g x x) n.
  (** three different nodes [(v, w, x)] with edges from [v] to [w] and from [v] to [x] ... *)
  Definition triads_count g (n : nat) : Prop :=
    counts (fun t : V * V * V => let '(v, w, x) := t in v <> w /\ v <> x /\ w <> x /\ linked g v w /\ linked g v x) n.
  (** ... and those in which there also is an edge from [w] to [x] *)
  Definition closed_count g (n : nat) : Prop :=
    counts (fun t : V * V * V => let '(v, w, x) := t in v <> w /\ v <> x /\ w <> x /\ linked g v w /\ linked g v x /\ linked g w x) n.

  (** the number of edges over the number of edges there could be without loops, zero if there could be none *)
  Definition density_is g (q : Q) : Prop :=
    exists n m, nodes_count g n /\ edges_count g m
      /\ if n <=? 1 then q == 0 else q * inject_Z (Z.of_nat (n * (n - 1))) == inject_Z (Z.of_nat (if gdir g then m else 2 * m)).
  (** the proportion of closed triads, zero if there is no triad *)
  Definition transitivity_is g (q : Q) : Prop :=
    exists c t, closed_count g c /\ triads_count g t
      /\ if t =? 0 then q == 0 else q * inject_Z (Z.of_nat t) == inject_Z (Z.of_nat c).

  (** the value of the statistic called [name] *)
  Definition stat_is g (name : str) (x : number) : Prop :=
    (name = $"nodes" /\ exists n, x = Int n /\ nodes_count g n)
    \/ (name = $"edges" /\ exists n, x = Int n /\ edges_count g n)
    \/ (name = $"isolates" /\ exists n, x = Int n /\ isolates_count g n)
    \/ (name = $"loops" /\ exists n, x = Int n /\ loops_count g n)
    \/ (name = $"density" /\ density_is g (number_Q x))
    \/ (name = $"transitivity" /\ transitivity_is g (number_Q x)).
End Spec.

(** the six names, in the order in which the text gives the statistics *)
Definition six : list str := [$"nodes"; $"edges"; $"isolates"; $"loops"; $"density"; $"transitivity"].
(** how a line and how a part of the sentence gives a statistic *)
Definition line_of (name shown : str) : str :=
  (if eqb name $"nodes" then $"Nodes: " else if eqb name $"edges" then $"Edges: "
   else if eqb name $"isolates" then $"Isolates: " else if eqb name $"loops" then $"Self loops: "
   else if eqb name $"density" then $"Density: " else $"Transitivity: ") ++ shown.
Definition phrase_of (name shown : str) : str :=
  if eqb name $"density" then $"a density of " ++ shown
  else if eqb name $"transitivity" then $"a transitivity of " ++ shown
  else shown ++ $" " ++ (if eqb name $"loops" then $"self loops" else name).
