(** metaknowledge/graphHelpers.py: getWeight, getNodeDegrees, getDegreeDistribution, dropEdges,
    dropNodesByDegree, dropNodesByCount, mergeGraphs, writeTnetFile, graphStats.

    Functions that modify their graph return the pair of the graph afterwards and the exception
    that ended the call, if any.  Weights and counts are python ints (floats are not modelled);
    limits are ints or infinities.  Progress bars are left out: they only print. *)
From Coq Require Import String.
From Verif Require Import Base PyStr PyInt Nx.
Set Implicit Arguments.

(** an int or one of the infinities *)
Inductive ext := MInf | Fin (z : Z) | PInf.
#[global] Instance EqDec_ext : EqDec ext.
Proof.
  intros [|z|] [|z'|]; try (right; congruence); try (left; reflexivity).
  destruct (eq_dec z z') as [->|N]; [left; reflexivity | right; congruence].
Defined.
(** int < limit, int > limit *)
Definition ext_gt (z : Z) (e : ext) : bool := match e with MInf => true | Fin y => (y <? z)%Z | PInf => false end.
Definition ext_lt (z : Z) (e : ext) : bool := match e with MInf => false | Fin y => (z <? y)%Z | PInf => true end.

Definition out (V : Type) := (graph V * option exn)%type.

Section GH.
  Context {V : Type} `{EqDec V}.

  (** [returnType(v)] with the default [returnType = int] *)
  Definition to_int (v : val) : res Z :=
    match v with
    | VInt z => Ok z
    | VBool b => Ok (if b then 1 else 0)%Z
    | VStr s => match py_int s with Some z => Ok z | None => Raise ValueError end
    | VNone => Raise TypeError
    end.

  (** getWeight, lines 447-455, with [returnType = int] *)
  Definition get_weight (g : graph V) (u v : V) (wname : option str) : res Z :=
    match wname with
    | None => Ok 1%Z
    | Some k => match ed g u v with
                | None => Raise KeyError
                | Some a => match dget k a with None => Raise KeyError | Some x => to_int x end
                end
    end.

  (** the value of one edge in getNodeDegrees, lines 467-476 *)
  Definition edge_val (wname : option str) (strict : bool) (a : attrs) : res Z :=
    match wname with
    | None => Ok 1%Z
    | Some k => match dget k a with
                | Some x => to_int x
                | None => if strict then Raise KeyError else Ok 1%Z
                end
    end.
  Inductive etype := Bi | In_ | Out_ | Other.
  (** [ndsDict[n] += z]; the key is present: networkx lists the ends of every edge as nodes *)
  Definition zadd (n : V) (z : Z) (d : dict V Z) : res (dict V Z) :=
    match dget n d with None => Raise KeyError | Some y => Ok (dset n (y + z)%Z d) end.
  Fixpoint degrees_loop (wname : option str) (strict : bool) (t : etype) (es : list (V * V * attrs)) (d : dict V Z)
    : res (dict V Z) :=
    match es with
    | [] => Ok d
    | (u, v, a) :: es' =>
      let* z := edge_val wname strict a in
      let* d' := match t with
                 | Bi => let* d1 := zadd u z d in zadd v z d1      (* 477-479 *)
                 | In_ => zadd v z d                               (* 480-481 *)
                 | Out_ => zadd u z d                              (* 482-483 *)
                 | Other => Raise ValueError                       (* 484-485 *)
                 end in
      degrees_loop wname strict t es' d'
    end.
  (** getNodeDegrees, lines 457-486, with [returnType = int] *)
  Definition get_node_degrees (g : graph V) (wname : option str) (strict : bool) (t : etype) : res (dict V Z) :=
    degrees_loop wname strict t (edges g) (fold_left (fun d n => dset n 0%Z d) (nodes g) []).

  (** python [l[i] += 1]: a negative index counts from the end *)
  Fixpoint bump (l : list Z) (i : nat) : list Z :=
    match l, i with
    | [], _ => []
    | x :: l', O => (x + 1)%Z :: l'
    | x :: l', S i' => x :: bump l' i'
    end.
  Definition py_bump (l : list Z) (i : Z) : res (list Z) :=
    let n := Z.of_nat (length l) in
    let j := if (i <? 0)%Z then (n + i)%Z else i in
    if ((0 <=? j) && (j <? n))%Z then Ok (bump l (Z.to_nat j)) else Raise IndexError.
  Fixpoint zmax (l : list Z) : option Z :=
    match l with
    | [] => None
    | x :: l' => match zmax l' with None => Some x | Some y => Some (Z.max x y) end
    end.
  Fixpoint dist_loop (vs : list Z) (l : list Z) : res (list Z) :=
    match vs with [] => Ok l | v :: vs' => let* l' := py_bump l v in dist_loop vs' l' end.
  (** getDegreeDistribution, lines 488-495 (weightType = int) *)
  Definition get_degree_distribution (g : graph V) (wname : option str) (strict : bool) (t : etype) : res (list Z) :=
    let* d := get_node_degrees g wname strict t in
    match zmax (dvals d) with
    | None => Raise ValueError                                      (* max() of an empty sequence *)
    | Some m => dist_loop (dvals d) (repeat 0%Z (Z.to_nat (m + 1)))
    end.

  (** the edges dropEdges collects for removal, lines 541-559 *)
  Fixpoint drop_edges_scan (lo hi : ext) (k : str) (ignore : bool) (es : list (V * V * attrs)) : res (list (V * V)) :=
    match es with
    | [] => Ok []
    | (u, v, a) :: es' =>
      match dget k a with
      | None => if ignore then drop_edges_scan lo hi k ignore es' else Raise KeyError
      | Some x =>
        match as_int x with
        | None => Raise TypeError                                   (* comparing with a number *)
        | Some z =>
          let* r := drop_edges_scan lo hi k ignore es' in
          Ok (if ext_gt z hi || ext_lt z lo then (u, v) :: r else r)
        end
      end
    end.
  (** dropEdges, lines 497-561 *)
  Definition drop_edges (lo hi : ext) (k : str) (ignore loops : bool) (g : graph V) : out V :=
    let g1 := if loops then remove_edges_from (selfloops g) g else g in          (* 534-539 *)
    if negb (eqb lo MInf) || negb (eqb hi PInf) then                             (* 541 *)
      match drop_edges_scan lo hi k ignore (edges g1) with
      | Raise e => (g1, Some e)
      | Ok l => (remove_edges_from l g1, None)                                   (* 560 *)
      end
    else (g1, None).

  (** the degree of one node in dropNodesByDegree, lines 609-620 *)
  Fixpoint degree_loop (k : str) (incl_unw : bool) (es : list (V * V * attrs)) (v : val) : res val :=
    match es with
    | [] => Ok v
    | (_, _, a) :: es' =>
      match dget k a with
      | Some x => let* v' := vadd v x in degree_loop k incl_unw es' v'
      | None => if incl_unw then let* v' := vadd v (VInt 1) in degree_loop k incl_unw es' v' else Raise KeyError
      end
    end.
  Definition node_degree (use_weight : bool) (k : str) (incl_unw : bool) (g : graph V) (n : V) : res val :=
    if use_weight then degree_loop k incl_unw (edges_of g n) (VInt 0)
    else Ok (VInt (Z.of_nat (length (edges_of g n)))).
  Fixpoint bad_by_degree (lo hi : ext) (use_weight : bool) (k : str) (incl_unw : bool) (g : graph V) (ns : list V)
    : res (list V) :=
    match ns with
    | [] => Ok []
    | n :: ns' =>
      let* v := node_degree use_weight k incl_unw g n in
      match as_int v with
      | None => Raise TypeError
      | Some z =>
        let* r := bad_by_degree lo hi use_weight k incl_unw g ns' in
        Ok (if ext_lt z lo || ext_gt z hi then n :: r else r)                    (* 621-622 *)
      end
    end.
  (** dropNodesByDegree, lines 563-628 *)
  Definition drop_nodes_by_degree (lo hi : ext) (use_weight : bool) (k : str) (incl_unw : bool) (g : graph V) : out V :=
    match bad_by_degree lo hi use_weight k incl_unw g (nodes g) with
    | Raise e => (g, Some e)
    | Ok l => (remove_nodes_from l g, None)
    end.

  Fixpoint bad_by_count (lo hi : ext) (k : str) (ignore : bool) (ns : list (V * attrs)) : res (list V) :=
    match ns with
    | [] => Ok []
    | (n, a) :: ns' =>
      match dget k a with
      | None => if ignore then bad_by_count lo hi k ignore ns' else Raise KeyError
      | Some x =>
        match as_int x with
        | None => Raise TypeError
        | Some z =>
          let* r := bad_by_count lo hi k ignore ns' in
          Ok (if ext_lt z lo || ext_gt z hi then n :: r else r)                  (* 682-683 *)
        end
      end
    end.
  (** dropNodesByCount, lines 631-689 *)
  Definition drop_nodes_by_count (lo hi : ext) (k : str) (ignore : bool) (g : graph V) : out V :=
    match bad_by_count lo hi k ignore (gnodes g) with
    | Raise e => (g, Some e)
    | Ok l => (remove_nodes_from l g, None)
    end.

  (** [x[k] += attribs[k]] with KeyError caught, lines 717-720 and 726-729; the look-up of the
      target happens before the one of the added attributes, both KeyErrors are caught alike *)
  Definition merge_node (k : option str) (n : V) (a : attrs) (g : graph V) : out V :=
    match k with
    | Some k =>
      match dget k a with
      | Some x => match node_incr n k x g with
                  | Ok g' => (g', None)
                  | Raise KeyError => (add_node n a g, None)
                  | Raise e => (g, Some e)
                  end
      | None => (add_node n a g, None)
      end
    | None => (if has_node g n then g else add_node n a g, None)                 (* 721-723 *)
    end.
  Definition merge_edge (k : option str) (u v : V) (a : attrs) (g : graph V) : out V :=
    match k with
    | Some k =>
      match dget k a with
      | Some x => match edge_incr u v k x g with
                  | Ok g' => (g', None)
                  | Raise KeyError => (add_edge u v a g, None)
                  | Raise e => (g, Some e)
                  end
      | None => (add_edge u v a g, None)
      end
    | None => (g, Some AttributeError)                                           (* 731: targetGraph.Graph *)
    end.
  Fixpoint merge_nodes (k : option str) (ns : list (V * attrs)) (g : graph V) : out V :=
    match ns with
    | [] => (g, None)
    | (n, a) :: ns' => match merge_node k n a g with
                       | (g', None) => merge_nodes k ns' g'
                       | r => r
                       end
    end.
  Fixpoint merge_edges (k : option str) (es : list (V * V * attrs)) (g : graph V) : out V :=
    match es with
    | [] => (g, None)
    | (u, v, a) :: es' => match merge_edge k u v a g with
                          | (g', None) => merge_edges k es' g'
                          | r => r
                          end
    end.
  (** mergeGraphs, lines 691-732.  The two graphs are different objects. *)
  Definition merge_graphs (nk ek : option str) (added target : graph V) : out V :=
    match merge_nodes nk (gnodes added) target with
    | (g, None) => merge_edges ek (edges added) g
    | r => r
    end.

  (** ** writeTnetFile, lines 344-445, for [timeString = None] *)
  (** the loop over the nodes, 398-414; [i] is the index of the next node.  The list [ns] is
      the node list when the loop starts; the loop only sets attributes of nodes it has reached. *)
  Fixpoint tnet_nodes (mk ik : str) (i : Z) (ns : list (V * attrs)) (modes : list val) (mode1 : list V) (g : graph V)
    : graph V * res (list val * list V) :=
    match ns with
    | [] => (g, Ok (modes, mode1))
    | (n, a) :: ns' =>
      let (modes, nmode) := match dget mk a with
                            | Some m => (modes, m)
                            | None => ([VInt 1; VInt 2; VInt 3], VInt 4)         (* 403-404 *)
                            end in
      let ok (modes : list val) :=
        let mode1' := match modes with
                      | m0 :: _ => if eqb nmode m0 then mode1 ++ [n] else mode1
                      | [] => mode1
                      end in
        match node_set n ik (VInt i) g with
        | Ok g' => tnet_nodes mk ik (i + 1) ns' modes mode1' g'
        | Raise e => (g, Raise e)
        end in
      if mem nmode modes then ok modes
      else if length modes <? 2 then ok (modes ++ [nmode])
      else (g, Raise RCValueError)
    end.
  (** one line of the file: the two ids and the weight *)
  Definition tnet_line := (val * val * option val)%type.
  (** the loop over the edges, 423-444; the lines written so far are returned with the exception *)
  Fixpoint tnet_edges (weighted : bool) (ik wk : str) (mode1 : list V) (g : graph V) (es : list (V * V * attrs))
    : list tnet_line * option exn :=
    match es with
    | [] => ([], None)
    | (u, v, a) :: es' =>
      let oriented := if mem u mode1 then if mem v mode1 then None else Some (u, v)
                      else if mem v mode1 then Some (v, u) else None in
      match oriented with
      | None => ([], Some RCValueError)
      | Some (s, t) =>
        match nd g s, nd g t with
        | Some sa, Some ta =>
          match dget ik sa, dget ik ta with
          | Some i, Some j =>
            let w := if weighted then match dget wk a with Some x => Ok (Some x) | None => Raise KeyError end
                     else Ok None in
            match w with
            | Ok w => let (ls, e) := tnet_edges weighted ik wk mode1 g es' in ((i, j, w) :: ls, e)
            | Raise e => ([], Some e)
            end
          | _, _ => ([], Some KeyError)
          end
        | _, _ => ([], Some KeyError)
        end
      end
    end.
  (** returns the modified graph, the lines of the file (None: the file was not opened) and the exception *)
  Definition write_tnet (weighted : bool) (mk ik wk : str) (source : option val) (g : graph V)
    : graph V * option (list tnet_line) * option exn :=
    match tnet_nodes mk ik 1 (gnodes g) (match source with Some m => [m] | None => [] end) [] g with
    | (g', Raise e) => (g', None, Some e)
    | (g', Ok (modes, mode1)) =>
      if length modes =? 2 then
        let (ls, e) := tnet_edges weighted ik wk mode1 g' (edges g') in (g', Some ls, e)
      else (g', None, Some RCValueError)
    end.
End GH.
