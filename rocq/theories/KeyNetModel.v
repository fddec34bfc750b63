(** metaknowledge/mkCollection.py: networkMultiLevel, networkOneMode, networkTwoMode and networkMultiMode with an [edgeAttribute].
    The graph is then a networkx MultiGraph or MultiDiGraph (of networkx 2.0-2.3, see Nx.v): there is an edge between two nodes for each key.
    add_edge(u, v, key = k, weight = 1) makes the edge with the key [k]; its only attribute is the weight.
    Simplified: the nodes are kept in a graph without edges (Nx.v) and the edges in one list, with their key and their weight, if they have one, so
    that the order in which networkx gives them is not modelled. Values are not None and can be hashed. *)
From Coq Require Import String.
From Verif Require Import Base PyStr Nx RecordView NetModel.
Set Implicit Arguments.

Section Net.
Context {N K : Type} `{EqDec N} `{EqDec K}.
Record mgraph := mkM { base : graph N; keyed : list (N * N * K * option Z) }.
Definition empty_mgraph (directed : bool) : mgraph := mkM (empty_graph directed) [].
(** is the edge one between [u] and [v] with the key [k] *)
Definition at_key (directed : bool) (u v : N) (k : K) (e : N * N * K * option Z) : bool :=
  let '(x, y, k', _) := e in eqb k k' && ((eqb u x && eqb v y) || (negb directed && eqb u y && eqb v x)).
(** has_edge(u, v, key = k) *)
Definition has_key (u v : N) (k : K) (g : mgraph) : bool := existsb (at_key (gdir (base g)) u v k) (keyed g).
(** add_edge(u, v, key = k, weight = w), the edge being new *)
Definition add_key (u v : N) (k : K) (w : option Z) (g : mgraph) : mgraph :=
  mkM (ensure_node v (ensure_node u (base g))) (keyed g ++ [(u, v, k, w)]).
(** grph.edges[u, v, k]['weight'] += 1 *)
Fixpoint incr_key (directed : bool) (u v : N) (k : K) (l : list (N * N * K * option Z)) : res (list (N * N * K * option Z)) :=
  match l with
  | [] => Raise KeyError
  | e :: l' =>
    if at_key directed u v k e then match snd e with Some z => Ok ((fst e, Some (z + 1)%Z) :: l') | None => Raise KeyError end
    else let* m := incr_key directed u v k l' in Ok (e :: m)
  end.
(** lines 886-897: grph.edges[node1, node2] asks a multigraph for an edge without its key and raises a ValueError *)
Definition touch_level (weighted : bool) (u v : N) (k : K) (g : mgraph) : res mgraph :=
  if has_key u v k g then (if weighted then Raise ValueError else Ok g)
  else Ok (add_key u v k (if weighted then Some 1%Z else None) g).
(** lines 1110-1119 *)
Definition touch_two (weighted : bool) (u v : N) (k : K) (g : mgraph) : res mgraph :=
  if has_key u v k g then (if weighted then let* l := incr_key (gdir (base g)) u v k (keyed g) in Ok (mkM (base g) l) else Ok g)
  else Ok (add_key u v k (if weighted then Some 1%Z else None) g).
(** a step that changes only nodes *)
Definition on_base (f : graph N -> res (graph N)) (g : mgraph) : res mgraph := let* b := f (base g) in Ok (mkM b (keyed g)).

(** lines 882-912, 921-929 *)
Fixpoint level_nodes_k (nodeCount edgeWeight : bool) (ks : list K) (l : list N) (g : mgraph) : res mgraph :=
  match l with
  | [] => Ok g
  | n1 :: rest =>
    let* g1 := iter (fun n2 => iter (touch_level edgeWeight n1 n2) ks) rest g in
    let* g2 := on_base (bump nodeCount n1) g1 in
    level_nodes_k nodeCount edgeWeight ks rest g2
  end.
Definition level_record_k (nodeCount edgeWeight : bool) (ks : list K) (l : list N) (g : mgraph) : res mgraph :=
  match l with
  | [] => Ok g
  | [n] => on_base (bump_single nodeCount n) g
  | _ => level_nodes_k nodeCount edgeWeight ks l g
  end.
(** lines 1107-1172 *)
Definition two_record_k (nodeCount recordType edgeWeight : bool) (tag1 tag2 : str) (ks : list K) (c1 c2 : list N) (g : mgraph) : res mgraph :=
  let* g1 := iter (fun n1 g => let* g' := iter (fun n2 => iter (touch_two edgeWeight n1 n2) ks) c2 g in on_base (tick_first nodeCount recordType tag1 n1) g') c1 g in
  iter (fun n2 => on_base (tick_second nodeCount recordType tag2 n2)) c2 g1.
(** lines 1256-1305: edgeVals is not defined in this function *)
Fixpoint multi_lists_k (nodeCount recordType : bool) (contents : list (str * list N)) (g : mgraph) : res mgraph :=
  match contents with
  | [] => Ok g
  | (tag, vs) :: rest =>
    let* g1 := iter (fun n1 g =>
        let* g' := iter (fun tvs => iter (fun n2 g => Raise NameError) (snd tvs)) rest g in
        on_base (tick_multi nodeCount recordType tag n1) g') vs g in
    multi_lists_k nodeCount recordType rest g1
  end.
End Net.
Arguments mgraph N K : clear implicits.

Section Collections.
Context {N K R V : Type} `{EqDec N} `{EqDec K}.
Variable get : R -> str -> option (fval V).
Variables (str_of str_of2 : V -> N) (is_none truthy : V -> bool).
(** [key] is str for networkMultiLevel and nothing for networkTwoMode *)
Variable key : V -> K.
(** what comes of iterating over a value that is not a list: the characters of a str, a TypeError for a number *)
Variable iterate : V -> res (list K).
(** line 865 *)
Definition level_keys (attribute : str) (r : R) : res (list K) :=
  match get r attribute with None => Ok [] | Some (Many l) => Ok (map key l) | Some (One v) => iterate v end.
(** lines 855-938 *)
Definition multi_level_k (modes : list str) (attribute : str) (nodeCount edgeWeight : bool) (rs : list R) : res (mgraph N K) :=
  iter (fun r g => let* ks := level_keys attribute r in level_record_k nodeCount edgeWeight ks (level_contents get str_of modes r) g) rs (empty_mgraph false).
(** lines 1089-1092 *)
Definition two_keys (attribute : str) (r : R) : list K := match get r attribute with None => [] | Some f => map key (entries f) end.
(** lines 1075-1172 *)
Definition two_mode_k (tag1 tag2 attribute : str) (directed recordType nodeCount edgeWeight : bool) (rs : list R) : res (mgraph N K) :=
  iter (fun r => two_record_k nodeCount recordType edgeWeight tag1 tag2 (two_keys attribute r) (two_contents get is_none str_of tag1 r) (two_contents get is_none str_of2 tag2 r))
       rs (empty_mgraph directed).
(** lines 1231-1305 *)
Definition multi_mode_k (tags : list str) (recordType nodeCount : bool) (rs : list R) : res (mgraph N K) :=
  iter (fun r => multi_lists_k nodeCount recordType (multi_contents get str_of truthy tags r)) rs (empty_mgraph false).
End Collections.
