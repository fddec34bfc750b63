(** metaknowledge/mkCollection.py: networkMultiLevel, networkOneMode, networkTwoMode, networkMultiMode.
    A collection is the list of its members in iteration order.  [get r t] is [R.get(t)] ([None] when the tag is
    missing; any other failure leaves the method, there is no graph then, and is not modelled).  [V] is the type of
    the values, [str_of] is [str] followed by the stemmer; node names are of the type [N].
    Not modelled: progress bar, [edgeAttribute] (a multigraph), [nodeAttribute], the checks of the argument types. *)
From Coq Require Import String.
From Verif Require Import Base PyStr Nx RecordView.
Set Implicit Arguments.

(** [for x in l: ...], the body changing a graph and possibly raising *)
Definition iter {A G} (f : A -> G -> res G) : list A -> G -> res G :=
  fix iter l g := match l with [] => Ok g | x :: l' => let* g' := f x g in iter l' g' end.

Definition weight := $"weight".
Definition cnt_ := $"count".
Definition type_ := $"type".

Section Net.
Context {N : Type} `{EqDec N}.

(** lines 898-905, 1120-1127, 1274-1281: count an edge, or just make it *)
Definition touch (weighted : bool) (u v : N) (g : graph N) : res (graph N) :=
  if weighted then
    match edge_incr u v weight (VInt 1) g with
    | Raise KeyError => Ok (add_edge u v [(weight, VInt 1)] g)
    | r => r
    end
  else if has_edge g u v then Ok g else Ok (add_edge u v [] g).

(** networkMultiLevel, lines 906-912 *)
Definition bump (nodeCount : bool) (n : N) (g : graph N) : res (graph N) :=
  let g1 := if has_node g n then g else add_node n [] g in
  if nodeCount then
    match node_incr n cnt_ (VInt 1) g1 with
    | Raise KeyError => node_set n cnt_ (VInt 1) g1
    | r => r
    end
  else Ok g1.
(** lines 922-929: the record has one value only *)
Definition bump_single (nodeCount : bool) (n : N) (g : graph N) : res (graph N) :=
  if nodeCount then
    match node_incr n cnt_ (VInt 1) g with
    | Raise KeyError => Ok (add_node n [(cnt_, VInt 1)] g)
    | r => r
    end
  else Ok (if has_node g n then g else add_node n [] g).
(** lines 882-912: edges from each node to the ones after it *)
Fixpoint level_nodes (nodeCount edgeWeight : bool) (l : list N) (g : graph N) : res (graph N) :=
  match l with
  | [] => Ok g
  | n1 :: rest =>
    let* g1 := iter (touch edgeWeight n1) rest g in
    let* g2 := bump nodeCount n1 g1 in
    level_nodes nodeCount edgeWeight rest g2
  end.
(** lines 881, 921, 938 *)
Definition level_record (nodeCount edgeWeight : bool) (l : list N) (g : graph N) : res (graph N) :=
  match l with
  | [] => Ok g
  | [n] => bump_single nodeCount n g
  | _ => level_nodes nodeCount edgeWeight l g
  end.

(** networkTwoMode, lines 1128-1149 *)
Definition tick_first (nodeCount recordType : bool) (tag : str) (n : N) (g : graph N) : res (graph N) :=
  if nodeCount then
    match node_incr n cnt_ (VInt 1) g with
    | Raise KeyError =>
      match node_set n cnt_ (VInt 1) g with
      | Raise KeyError => Ok (add_node n (if recordType then [(type_, VStr tag)] else []) g)
      | Raise e => Raise e
      | Ok g1 => if recordType then node_set n type_ (VStr tag) g1 else Ok g1
      end
    | r => r
    end
  else if has_node g n then
    (if recordType then
       match nd g n with
       | Some a => if dhas type_ a then Ok g else node_set n type_ (VStr tag) g
       | None => Raise KeyError
       end
     else Ok g)
  else Ok (add_node n (if recordType then [(type_, VStr tag)] else []) g).
(** lines 1152-1172 *)
Definition tick_second (nodeCount recordType : bool) (tag : str) (n : N) (g : graph N) : res (graph N) :=
  if nodeCount then
    match node_incr n cnt_ (VInt 1) g with
    | Raise KeyError =>
      match node_set n cnt_ (VInt 1) g with
      | Raise KeyError =>
        let g1 := add_node n [(cnt_, VInt 1)] g in
        if recordType then node_set n type_ (VStr tag) g1 else Ok g1
      | Raise e => Raise e
      | Ok g1 => if recordType then node_set n type_ (VStr tag) g1 else Ok g1
      end
    | r => r
    end
  else tick_first false recordType tag n g.                                   (* 1165-1172 are 1142-1149 again *)
(** lines 1107-1172, [c1] and [c2] being the values of the two tags *)
Definition two_record (nodeCount recordType edgeWeight : bool) (tag1 tag2 : str) (c1 c2 : list N) (g : graph N) : res (graph N) :=
  let* g1 := iter (fun n1 g => let* g' := iter (touch edgeWeight n1) c2 g in tick_first nodeCount recordType tag1 n1 g') c1 g in
  iter (tick_second nodeCount recordType tag2) c2 g1.

(** networkMultiMode, lines 1282-1305 *)
Definition tick_multi (nodeCount recordType : bool) (tag : str) (n : N) (g : graph N) : res (graph N) :=
  if nodeCount then tick_first true recordType tag n g                         (* 1283-1294 are 1129-1140 again *)
  else if has_node g n then
    (if recordType then
       match node_incr n type_ (VStr tag) g with
       | Raise KeyError => node_set n type_ (VStr tag) g
       | r => r
       end
     else Ok g)
  else Ok (add_node n (if recordType then [(type_, VStr tag)] else []) g).
(** lines 1256-1305 *)
Fixpoint multi_lists (nodeCount recordType edgeWeight : bool) (contents : list (str * list N)) (g : graph N) : res (graph N) :=
  match contents with
  | [] => Ok g
  | (tag, vs) :: rest =>
    let* g1 := iter (fun n1 g =>
        let* g' := iter (fun tvs => iter (touch edgeWeight n1) (snd tvs)) rest g in
        tick_multi nodeCount recordType tag n1 g') vs g in
    multi_lists nodeCount recordType edgeWeight rest g1
  end.

Section Collections.
Context {R V : Type}.
Variable get : R -> str -> option (fval V).
Variables (str_of str_of2 : V -> N).
(** [v == None] and [bool(v)] for a value that is not a list *)
Variables (is_none truthy : V -> bool).

(** lines 868-880 *)
Definition level_contents (modes : list str) (r : R) : list N :=
  map str_of (flat_map (fun t => match get r t with Some f => entries f | None => [] end) modes).
Definition multi_level (modes : list str) (nodeCount edgeWeight : bool) (rs : list R) : res (graph N) :=
  iter (fun r => level_record nodeCount edgeWeight (level_contents modes r)) rs (empty_graph false).
(** networkOneMode, line 1001 *)
Definition one_mode (mode : str) := multi_level [mode].

(** lines 1093-1106 *)
Definition two_contents (s : V -> N) (tag : str) (r : R) : list N :=
  match get r tag with
  | Some (Many l) => map s l
  | Some (One v) => if is_none v then [] else [s v]
  | None => []
  end.
(** lines 1081-1084, 1085 *)
Definition two_mode (tag1 tag2 : str) (directed recordType nodeCount edgeWeight : bool) (rs : list R) : res (graph N) :=
  iter (fun r => two_record nodeCount recordType edgeWeight tag1 tag2 (two_contents str_of tag1 r) (two_contents str_of2 tag2 r))
       rs (empty_graph directed).

(** lines 1241-1255: a tag without value, or with an empty one, is left out *)
Definition multi_contents (tags : list str) (r : R) : list (str * list N) :=
  flat_map (fun t => match get r t with
                     | Some (Many []) => []
                     | Some (Many l) => [(t, map str_of l)]
                     | Some (One v) => if truthy v then [(t, [str_of v])] else []
                     | None => []
                     end) tags.
Definition multi_mode (tags : list str) (recordType nodeCount edgeWeight : bool) (rs : list R) : res (graph N) :=
  iter (fun r => multi_lists nodeCount recordType edgeWeight (multi_contents tags r)) rs (empty_graph false).
End Collections.
End Net.
