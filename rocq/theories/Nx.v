(** The networkx classes the repository uses: [networkx.Graph] and
    [networkx.DiGraph] as of networkx 2.0-2.3 (the only versions that have both
    [grph.node] and [nx.selfloop_edges], both used by graphHelpers.py).
    Nothing here models repository code; it is part of the trusted reading of
    the library.

    A graph is the pair of dictionaries networkx keeps: node -> attributes and
    node -> neighbour -> attributes.  For an undirected graph networkx stores
    the same attribute dictionary object under [adj[u][v]] and [adj[v][u]]; the
    model stores two equal copies and updates both.  The [pred] table of a
    [DiGraph] is not stored: it holds the same edges as [adj]. *)
From Coq Require Import String.
From Verif Require Import Base.
Set Implicit Arguments.

(** Attribute values: the ones the repository writes in graphs. *)
Inductive val := VInt (z : Z) | VStr (s : str) | VBool (b : bool) | VNone.
#[global] Instance EqDec_val : EqDec val.
Proof.
  intros x y; destruct x as [z|s|b|], y as [z'|s'|b'|]; try (right; congruence).
  - destruct (eq_dec z z') as [->|N]; [left; reflexivity | right; congruence].
  - destruct (eq_dec s s') as [->|N]; [left; reflexivity | right; congruence].
  - destruct (eq_dec b b') as [->|N]; [left; reflexivity | right; congruence].
  - left; reflexivity.
Defined.

(** the integer a value counts as in arithmetic ([True] is 1) *)
Definition as_int (v : val) : option Z :=
  match v with
  | VInt z => Some z
  | VBool b => Some (if b then 1%Z else 0%Z)
  | _ => None
  end.

(** python [a + b] on these values *)
Definition vadd (a b : val) : res val :=
  match a, b with
  | VStr s, VStr t => Ok (VStr (s ++ t))
  | _, _ => match as_int a, as_int b with
            | Some x, Some y => Ok (VInt (x + y))
            | _, _ => Raise TypeError
            end
  end.

Definition attrs := dict str val.

Section Nx.
  Context {V : Type} `{EqDec V}.

  Record graph := mkG {
    gdir : bool;                     (* DiGraph? *)
    gnodes : dict V attrs;
    gadj : dict V (dict V attrs)
  }.

  Definition empty_graph (d : bool) : graph := mkG d [] [].

  (** [G.node.get(n)] *)
  Definition nd (g : graph) (n : V) : option attrs := dget n (gnodes g).
  (** [G.adj[u].get(v)] *)
  Definition ed (g : graph) (u v : V) : option attrs :=
    match dget u (gadj g) with Some r => dget v r | None => None end.
  (** [G.nodes()] *)
  Definition nodes (g : graph) : list V := dkeys (gnodes g).

  Definition has_node (g : graph) (n : V) : bool := dhas n (gnodes g).
  Definition has_edge (g : graph) (u v : V) : bool :=
    match ed g u v with Some _ => true | None => false end.

  (** [G.add_node(n, **a)] *)
  Definition add_node (n : V) (a : attrs) (g : graph) : graph :=
    match nd g n with
    | None => mkG (gdir g) (dset n (dupdate [] a) (gnodes g)) (dset n [] (gadj g))
    | Some old => mkG (gdir g) (dset n (dupdate old a) (gnodes g)) (gadj g)
    end.

  (** node created by [add_edge] when missing *)
  Definition ensure_node (n : V) (g : graph) : graph :=
    match nd g n with
    | None => mkG (gdir g) (dset n [] (gnodes g)) (dset n [] (gadj g))
    | Some _ => g
    end.

  (** [adj[u][v] = a] when [u] has a row *)
  Definition set_row (u v : V) (a : attrs) (t : dict V (dict V attrs)) : dict V (dict V attrs) :=
    match dget u t with Some r => dset u (dset v a r) t | None => t end.
  Definition del_row (u v : V) (t : dict V (dict V attrs)) : dict V (dict V attrs) :=
    match dget u t with Some r => dset u (ddel v r) t | None => t end.

  (** store [a] as the attributes of the edge u-v, in both directions if undirected *)
  Definition put_edge (u v : V) (a : attrs) (g : graph) : graph :=
    let t := set_row u v a (gadj g) in
    mkG (gdir g) (gnodes g) (if gdir g then t else set_row v u a t).

  (** [G.add_edge(u, v, **a)] *)
  Definition add_edge (u v : V) (a : attrs) (g : graph) : graph :=
    let g1 := ensure_node v (ensure_node u g) in
    put_edge u v (dupdate (match ed g1 u v with Some old => old | None => [] end) a) g1.

  (** [G.node[n][k] = x]; KeyError when the node is missing *)
  Definition node_set (n : V) (k : str) (x : val) (g : graph) : res graph :=
    match nd g n with
    | None => Raise KeyError
    | Some a => Ok (mkG (gdir g) (dset n (dset k x a) (gnodes g)) (gadj g))
    end.
  (** [G.node[n][k] += x]; KeyError when the node or the attribute is missing *)
  Definition node_incr (n : V) (k : str) (x : val) (g : graph) : res graph :=
    match nd g n with
    | None => Raise KeyError
    | Some a => match dget k a with
                | None => Raise KeyError
                | Some y => let* z := vadd y x in node_set n k z g
                end
    end.
  (** [G.edges[u, v][k] += x]; KeyError when the edge or the attribute is missing *)
  Definition edge_incr (u v : V) (k : str) (x : val) (g : graph) : res graph :=
    match ed g u v with
    | None => Raise KeyError
    | Some a => match dget k a with
                | None => Raise KeyError
                | Some y => let* z := vadd y x in Ok (put_edge u v (dset k z a) g)
                end
    end.

  (** [G.remove_edges_from]: missing edges are ignored *)
  Definition remove_edge (u v : V) (g : graph) : graph :=
    let t := del_row u v (gadj g) in
    mkG (gdir g) (gnodes g) (if gdir g then t else if eqb u v then t else del_row v u t).
  Definition remove_edges_from (l : list (V * V)) (g : graph) : graph :=
    fold_left (fun g e => remove_edge (fst e) (snd e) g) l g.

  (** [G.remove_nodes_from]: missing nodes are ignored *)
  Definition remove_node (n : V) (g : graph) : graph :=
    mkG (gdir g) (ddel n (gnodes g))
        (map (fun row => (fst row, ddel n (snd row))) (ddel n (gadj g))).
  Definition remove_nodes_from (l : list V) (g : graph) : graph :=
    fold_left (fun g n => remove_node n g) l g.

  Definition edge := (V * V * attrs)%type.
  (** edges of one row *)
  Definition row_edges (u : V) (r : dict V attrs) : list edge :=
    map (fun va => (u, fst va, snd va)) r.
  (** [G.edges(data = True)] of an undirected graph: an edge is reported from
      the end that comes first in node order *)
  Fixpoint und_edges (seen : list V) (t : dict V (dict V attrs)) : list edge :=
    match t with
    | [] => []
    | (u, r) :: t' =>
      row_edges u (filter (fun va => negb (mem (fst va) seen)) r) ++ und_edges (u :: seen) t'
    end.
  Definition edges (g : graph) : list edge :=
    if gdir g then flat_map (fun ur => row_edges (fst ur) (snd ur)) (gadj g)
    else und_edges [] (gadj g).
  (** [G.edges(n, data = True)]: the edges leaving [n] *)
  Definition edges_of (g : graph) (n : V) : list edge :=
    match dget n (gadj g) with Some r => row_edges n r | None => [] end.
  (** [nx.selfloop_edges(G)] *)
  Definition selfloops (g : graph) : list (V * V) :=
    flat_map (fun ur => if dhas (fst ur) (snd ur) then [(fst ur, fst ur)] else []) (gadj g).

  (** The invariant networkx keeps. *)
  Record WF (g : graph) : Prop := {
    wf_keys : dkeys (gadj g) = dkeys (gnodes g);
    wf_nodup : NoDup (dkeys (gnodes g));
    wf_row : forall u r, dget u (gadj g) = Some r -> NoDup (dkeys r);
    wf_ends : forall u v a, ed g u v = Some a -> In v (nodes g);
    wf_sym : gdir g = false -> forall u v, ed g u v = ed g v u;
    wf_nattr : forall n a, nd g n = Some a -> NoDup (dkeys a);
    wf_eattr : forall u v a, ed g u v = Some a -> NoDup (dkeys a)
  }.
End Nx.
Arguments graph V : clear implicits.
Arguments empty_graph {V} d.
