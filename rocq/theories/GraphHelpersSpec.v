(** What the graph helpers are meant to do, in terms of a graph's nodes and edges only. *)
From Coq Require Import String.
From Verif Require Import Base PyStr PyInt Nx GraphHelpersModel.
Set Implicit Arguments.

(** lo <= z <= hi *)
Definition in_range (lo : ext) (z : Z) (hi : ext) : Prop :=
  match lo with MInf => True | Fin l => (l <= z)%Z | PInf => False end /\
  match hi with PInf => True | Fin h => (z <= h)%Z | MInf => False end.

Fixpoint zsum (l : list Z) : Z := match l with [] => 0 | x :: l' => x + zsum l' end.

(** attribute [k] is the integer [z] *)
Definition int_attr (k : str) (a : attrs) (z : Z) : Prop :=
  exists x, dget k a = Some x /\ as_int x = Some z.

Section Spec.
  Context {V : Type} `{EqDec V}.

  (** the edge is one of [n]'s *)
  Definition touches (n : V) (e : V * V * attrs) : bool := eqb (fst (fst e)) n || eqb (snd (fst e)) n.
  Definition leaves (n : V) (e : V * V * attrs) : bool := eqb (fst (fst e)) n.
  (** weight of an edge: the attribute, or 1 without it *)
  Definition weight_or_1 (k : str) (e : V * V * attrs) : Z :=
    match dget k (snd e) with Some x => match as_int x with Some z => z | None => 0 end | None => 1 end.
  Definition one (e : V * V * attrs) : Z := 1.
End Spec.

Section Spec2.
  Context {V : Type} `{EqDec V}.

  (** the value getNodeDegrees gives an edge: 1 when no attribute name is given or the
      attribute is missing, else the attribute as an int *)
  Definition edge_weight (wname : option str) (e : V * V * attrs) : Z :=
    match wname with
    | None => 1
    | Some k => match dget k (snd e) with
                | None => 1
                | Some x => match to_int x with Ok z => z | Raise _ => 0 end
                end
    end.
  (** how often the edge is counted for [n] *)
  Definition incidence (t : etype) (n : V) (e : V * V * attrs) : Z :=
    let src := if eqb (fst (fst e)) n then 1%Z else 0%Z in
    let tgt := if eqb (snd (fst e)) n then 1%Z else 0%Z in
    match t with Bi => src + tgt | In_ => tgt | Out_ => src | Other => 0 end.

  (** the number stored under [k], 0 when there is no such node, edge or attribute *)
  Definition num (k : str) (o : option attrs) : Z :=
    match o with
    | Some a => match dget k a with Some x => match as_int x with Some z => z | None => 0 end | None => 0 end
    | None => 0
    end.
  (** an attribute of a node or edge that may be missing *)
  Definition attr (o : option attrs) (k : str) : option val := match o with Some a => dget k a | None => None end.
End Spec2.
