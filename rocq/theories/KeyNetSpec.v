(** Specification for C78: the edges of a graph that have keys. An edge is given by its ends, its key and its weight, if it has one. *)
From Coq Require Import String.
From Verif Require Import Base.
Section Spec.
Context {N K : Type}.
Definition is_between (directed : bool) (u v : N) (k : K) (e : N * N * K * option Z) : Prop :=
  let '(x, y, k', _) := e in k' = k /\ ((x = u /\ y = v) \/ (directed = false /\ x = v /\ y = u)).
(** [n u v k] times [u] and [v] were met together with the key [k]: if ever, there is exactly one edge for that, and its weight is that number *)
Definition edges_are (directed weighted : bool) (l : list (N * N * K * option Z)) (n : N -> N -> K -> nat) : Prop :=
  forall u v k,
    (n u v k = 0 -> forall e, In e l -> ~ is_between directed u v k e) /\
    (0 < n u v k -> exists a e b, l = a ++ e :: b /\ is_between directed u v k e /\ snd e = (if weighted then Some (Z.of_nat (n u v k)) else None) /\
       forall e', In e' (a ++ b) -> ~ is_between directed u v k e').
End Spec.
