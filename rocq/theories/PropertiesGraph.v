(** Property theorems about the graph helpers (C30 - C35).
    [WF g] says that [g] is a graph networkx can hold (see Nx.v; every graph made with the networkx
    operations is, NxFacts.v); [nd g n] is the attribute dictionary of node [n] or None, [ed g u v] that of
    the edge u-v or None, [edges g] what [G.edges(data = True)] lists. *)
From Coq Require Import String.
From Verif Require Import Base PyStr PyInt Nx NxFacts GraphHelpersModel GraphHelpersSpec GraphHelpersProofs GraphHelpersProofs2.

(** A concrete graph for the examples: a-b (weight 2), b-c (weight 5), c-c (weight 1), d alone. *)
Definition w (z : Z) : attrs := [($"weight", VInt z)].
Definition c (z : Z) : attrs := [($"count", VInt z)].
Definition g0 (d : bool) : graph str :=
  add_node $"d" (c 4) (add_edge $"c" $"c" (w 1) (add_edge $"b" $"c" (w 5) (add_edge $"a" $"b" (w 2)
    (add_node $"c" (c 3) (add_node $"b" (c 2) (add_node $"a" (c 1) (empty_graph d))))))).
Lemma WF_g0 d : WF (g0 d).
Proof. unfold g0. repeat first [apply WF_add_node | apply WF_add_edge]. apply WF_empty. Qed.

(** C30: after dropEdges the graph has exactly the edges of before whose weight is within the limits (an edge
    without weight only if those were to be ignored), less the self loops if asked; edges keep their attributes
    and no node changes.  Without limits no weight is looked at. *)
Theorem C30_dropEdges :
  forall (V : Type) (E : EqDec V) (lo hi : ext) (k : str) (ignore loops : bool) (g g' : graph V),
    WF g -> drop_edges lo hi k ignore loops g = (g', None) ->
    (forall n, nd g' n = nd g n) /\
    forall u v a, ed g' u v = Some a <->
      ed g u v = Some a /\ (loops = true -> u <> v) /\
      ((lo = MInf /\ hi = PInf) \/ dget k a = None \/ exists z, int_attr k a z /\ in_range lo z hi).
Proof.
  intros V E lo hi k ignore loops g g' W Q. destruct (drop_edges_ok _ _ _ _ _ W Q) as (_ & _ & N & D).
  split; [|exact D]. intros n. unfold nd. rewrite N. reflexivity.
Qed.
Print Assumptions C30_dropEdges.

(** C30: it raises only KeyError for an edge without weight that was not to be ignored, or TypeError for a weight
    that is no number; then nothing but the self loops (if asked) has been removed. *)
Theorem C30_dropEdges_raises :
  forall (V : Type) (E : EqDec V) (lo hi : ext) (k : str) (ignore loops : bool) (g g' : graph V) (e : exn),
    WF g -> drop_edges lo hi k ignore loops g = (g', Some e) ->
    (forall n, nd g' n = nd g n) /\
    (forall u v a, ed g' u v = Some a <-> ed g u v = Some a /\ (loops = true -> u <> v)) /\
    ~ (lo = MInf /\ hi = PInf) /\
    ((e = KeyError /\ ignore = false /\ exists u v a, ed g u v = Some a /\ dget k a = None) \/
     (e = TypeError /\ exists u v a x, ed g u v = Some a /\ dget k a = Some x /\ as_int x = None)).
Proof.
  intros V E lo hi k ignore loops g g' e W Q. destruct (drop_edges_raises _ _ _ _ _ W Q) as ((N & _ & D) & B & R).
  split; [|split; [exact D|split; [exact B|exact R]]]. intros n. unfold nd. rewrite N. reflexivity.
Qed.
Print Assumptions C30_dropEdges_raises.

(** C30: it does not raise when every edge has a number as weight, or none where those are ignored. *)
Theorem C30_dropEdges_succeeds :
  forall (V : Type) (E : EqDec V) (lo hi : ext) (k : str) (ignore loops : bool) (g : graph V),
    WF g ->
    (forall u v a, ed g u v = Some a -> (dget k a = None /\ ignore = true) \/ exists z, int_attr k a z) ->
    exists g', drop_edges lo hi k ignore loops g = (g', None).
Proof. intros V E lo hi k ignore loops g W T. apply drop_edges_total; assumption. Qed.
Print Assumptions C30_dropEdges_succeeds.

(** C30 on the example graph, directed or not: between 2 and 4 only a-b is left; only loops dropped; a missing
    attribute raises. *)
Example C30_example : forall d,
  (exists g', drop_edges (Fin 2) (Fin 4) $"weight" false false (g0 d) = (g', None) /\
     map fst (edges g') = [($"a", $"b")] /\ nodes g' = [$"a"; $"b"; $"c"; $"d"]) /\
  (exists g', drop_edges MInf PInf $"weight" false true (g0 d) = (g', None) /\
     map fst (edges g') = [($"a", $"b"); ($"b", $"c")]) /\
  (exists g', drop_edges (Fin 2) PInf $"strength" false true (g0 d) = (g', Some KeyError)).
Proof.
  intros [|]; (split; [|split]); eexists; vm_compute; (try (split; [reflexivity|split; reflexivity])); (try (split; reflexivity)); reflexivity.
Qed.

(** C31: after dropNodesByDegree on an undirected graph exactly the nodes whose degree is within the limits are
    left, with their attributes and all the edges between them.  The degree is the sum of the weights (1 without
    weight) of the edges touching the node, or their number if weights are not used. *)
Theorem C31_dropNodesByDegree_partial :
  forall (V : Type) (E : EqDec V) (lo hi : ext) (use_weight : bool) (k : str) (include_unweighted : bool) (g g' : graph V),
    WF g -> gdir g = false ->
    drop_nodes_by_degree lo hi use_weight k include_unweighted g = (g', None) ->
    let degree n := zsum (map (if use_weight then weight_or_1 k else one) (filter (touches n) (edges g))) in
    (forall n a, nd g' n = Some a <-> nd g n = Some a /\ in_range lo (degree n) hi) /\
    (forall u v a, ed g' u v = Some a <->
       ed g u v = Some a /\ in_range lo (degree u) hi /\ in_range lo (degree v) hi).
Proof.
  intros V E lo hi uw k inc g g' W D Q degree. destruct (drop_nodes_by_degree_ok _ _ _ _ _ W Q) as (_ & _ & N & Ed).
  assert (X : forall n, degree n = deg uw k g n) by (intros n; unfold degree, deg; rewrite D; reflexivity).
  split; [intros n a; rewrite X; apply N | intros u v a; rewrite !X; apply Ed].
Qed.
Print Assumptions C31_dropNodesByDegree_partial.

(** C31: on a directed graph only the edges leaving the node are counted. *)
Theorem C31_directed_partial :
  forall (V : Type) (E : EqDec V) (lo hi : ext) (use_weight : bool) (k : str) (include_unweighted : bool) (g g' : graph V),
    WF g -> gdir g = true ->
    drop_nodes_by_degree lo hi use_weight k include_unweighted g = (g', None) ->
    let degree n := zsum (map (if use_weight then weight_or_1 k else one) (filter (leaves n) (edges g))) in
    (forall n a, nd g' n = Some a <-> nd g n = Some a /\ in_range lo (degree n) hi) /\
    (forall u v a, ed g' u v = Some a <->
       ed g u v = Some a /\ in_range lo (degree u) hi /\ in_range lo (degree v) hi).
Proof.
  intros V E lo hi uw k inc g g' W D Q degree. destruct (drop_nodes_by_degree_ok _ _ _ _ _ W Q) as (_ & _ & N & Ed).
  assert (X : forall n, degree n = deg uw k g n) by (intros n; unfold degree, deg; rewrite D; reflexivity).
  split; [intros n a; rewrite X; apply N | intros u v a; rewrite !X; apply Ed].
Qed.
Print Assumptions C31_directed_partial.

(** C31 is therefore false of directed graphs: in a -> b, b is touched by one edge, yet asking for the nodes of
    degree at least 1 removes it. *)
Theorem C31_directed_refuted :
  exists (g g' : graph str) (n : str), WF g /\
    drop_nodes_by_degree (Fin 1) PInf false $"weight" true g = (g', None) /\
    In n (nodes g) /\ length (filter (touches n) (edges g)) = 1 /\ ~ In n (nodes g').
Proof.
  exists (add_edge $"a" $"b" [] (empty_graph true)). eexists. exists $"b".
  split; [apply WF_add_edge, WF_empty|]. split; [vm_compute; reflexivity|].
  split; [right; left; reflexivity|]. split; [vm_compute; reflexivity|]. vm_compute. intros [Q|[]]; discriminate.
Qed.
Print Assumptions C31_directed_refuted.

(** C31: a call that raises leaves the graph as it was, and none raises when every edge has a number as weight or
    unweighted edges are included. *)
Theorem C31_raises :
  forall (V : Type) (E : EqDec V) (lo hi : ext) (use_weight : bool) (k : str) (include_unweighted : bool) (g : graph V),
    (forall g' e, drop_nodes_by_degree lo hi use_weight k include_unweighted g = (g', Some e) -> g' = g) /\
    (WF g -> (use_weight = true -> forall u v a, ed g u v = Some a ->
                (dget k a = None /\ include_unweighted = true) \/ exists z, int_attr k a z) ->
     exists g', drop_nodes_by_degree lo hi use_weight k include_unweighted g = (g', None)).
Proof.
  intros V E lo hi uw k inc g. split; [intros g' e Q; eapply drop_nodes_by_degree_raises; eassumption|].
  intros W T. apply drop_nodes_by_degree_total; assumption.
Qed.
Print Assumptions C31_raises.
Example C31_example :
  exists g', drop_nodes_by_degree (Fin 3) PInf true $"weight" true (g0 false) = (g', None) /\
    nodes g' = [$"b"; $"c"] /\ map fst (edges g') = [($"b", $"c"); ($"c", $"c")].
Proof. eexists. vm_compute. split; [reflexivity|split; reflexivity]. Qed.

(** C32: after dropNodesByCount exactly the nodes whose count is within the limits (or missing, where that was
    allowed) are left, with their attributes and all the edges between them. *)
Theorem C32_dropNodesByCount :
  forall (V : Type) (E : EqDec V) (lo hi : ext) (k : str) (ignore : bool) (g g' : graph V),
    WF g -> drop_nodes_by_count lo hi k ignore g = (g', None) ->
    (forall n a, nd g' n = Some a <->
       nd g n = Some a /\ (dget k a = None \/ exists z, int_attr k a z /\ in_range lo z hi)) /\
    (forall u v a, ed g' u v = Some a <-> ed g u v = Some a /\ In u (nodes g') /\ In v (nodes g')).
Proof.
  intros V E lo hi k ignore g g' W Q. destruct (drop_nodes_by_count_ok _ _ _ _ W Q) as (_ & _ & N & Ed).
  split; [exact N|]. intros u v a. rewrite Ed. rewrite !nd_In.
  assert (X : forall o : option attrs, o <> None <-> exists b, o = Some b)
    by (intros [b|]; split; [intros _; eauto|discriminate|congruence|intros [? ?]; discriminate]).
  rewrite !X. reflexivity.
Qed.
Print Assumptions C32_dropNodesByCount.

(** C32: it does not raise when every node has a number as count, or none where that is ignored. *)
Theorem C32_succeeds :
  forall (V : Type) (E : EqDec V) (lo hi : ext) (k : str) (ignore : bool) (g : graph V),
    WF g ->
    (forall n a, nd g n = Some a -> (dget k a = None /\ ignore = true) \/ exists z, int_attr k a z) ->
    exists g', drop_nodes_by_count lo hi k ignore g = (g', None).
Proof. intros V E lo hi k ignore g W T. apply drop_nodes_by_count_total; assumption. Qed.
Print Assumptions C32_succeeds.
Example C32_example :
  exists g', drop_nodes_by_count (Fin 2) (Fin 3) $"count" false (g0 true) = (g', None) /\
    nodes g' = [$"b"; $"c"] /\ map fst (edges g') = [($"b", $"c"); ($"c", $"c")].
Proof. eexists. vm_compute. split; [reflexivity|split; reflexivity]. Qed.

(** C33: merging two graphs of the same kind whose common nodes and edges carry int counts and weights never
    raises; the result has the nodes and edges of both; a count or weight is the sum of the two (0 where absent);
    every other attribute is the target's where the target has the node or edge, the added one's otherwise. *)
Theorem C33_mergeGraphs_partial :
  forall (V : Type) (E : EqDec V) (nk ek : str) (added target : graph V),
    WF target -> WF added -> gdir added = gdir target ->
    (forall n x a, nd target n = Some x -> nd added n = Some a ->
       exists y z, dget nk x = Some (VInt y) /\ dget nk a = Some (VInt z)) ->
    (forall u v x a, ed target u v = Some x -> ed added u v = Some a ->
       exists y z, dget ek x = Some (VInt y) /\ dget ek a = Some (VInt z)) ->
    exists g', merge_graphs (Some nk) (Some ek) added target = (g', None) /\
      (forall n, nd g' n <> None <-> nd target n <> None \/ nd added n <> None) /\
      (forall u v, ed g' u v <> None <-> ed target u v <> None \/ ed added u v <> None) /\
      (forall n, num nk (nd g' n) = num nk (nd target n) + num nk (nd added n))%Z /\
      (forall u v, num ek (ed g' u v) = num ek (ed target u v) + num ek (ed added u v))%Z /\
      (forall n k, k <> nk -> attr (nd g' n) k = match nd target n with Some x => dget k x | None => attr (nd added n) k end) /\
      (forall u v k, k <> ek -> attr (ed g' u v) k = match ed target u v with Some x => dget k x | None => attr (ed added u v) k end).
Proof.
  intros V E nk ek ga g W Wa D In_ Ie. destruct (merge_graphs_ok W Wa D In_ Ie) as (g' & Q & _ & _ & N & Ed).
  assert (Copy : forall a k, NoDup (dkeys a) -> dget k (dupdate [] a) = dget k (a : attrs)).
  { intros a k ND. rewrite dget_dupdate by assumption. destruct (dget k a); reflexivity. }
  assert (Num : forall k o a, (forall x, o = Some x -> exists y z, dget k x = Some (VInt y) /\ dget k a = Some (VInt z)) -> NoDup (dkeys a) ->
     num k (Some (merged k o a)) = (num k o + num k (Some a))%Z).
  { intros k [x|] a I ND; cbn [merged].
    - unfold num at 1. rewrite dget_dset_same. reflexivity.
    - unfold num. rewrite Copy by assumption. destruct (dget k a) as [[]|]; reflexivity. }
  assert (Att : forall k j o a, j <> k -> NoDup (dkeys a) -> dget j (merged k o a) = match o with Some x => dget j x | None => dget j a end).
  { intros k j [x|] a NE ND; cbn [merged]; [apply dget_dset_other; assumption|apply Copy; assumption]. }
  exists g'. split; [exact Q|]. split; [|split; [|split; [|split; [|split]]]].
  - intros n. rewrite N. destruct (nd ga n), (nd g n); intuition (try congruence).
  - intros u v. rewrite Ed. destruct (ed ga u v), (ed g u v); intuition (try congruence).
  - intros n. rewrite N. destruct (nd ga n) as [a|] eqn:Ea; [|cbn [num]; lia].
    apply Num; [intros x Ex; eapply In_; eassumption|eapply (wf_nattr Wa); eassumption].
  - intros u v. rewrite Ed. destruct (ed ga u v) as [a|] eqn:Ea; [|cbn [num]; lia].
    apply Num; [intros x Ex; eapply Ie; eassumption|eapply (wf_eattr Wa); eassumption].
  - intros n k NE. rewrite N. destruct (nd ga n) as [a|] eqn:Ea; [|destruct (nd g n); reflexivity].
    cbn [attr]. rewrite Att; [reflexivity|assumption|eapply (wf_nattr Wa); eassumption].
  - intros u v k NE. rewrite Ed. destruct (ed ga u v) as [a|] eqn:Ea; [|destruct (ed g u v); reflexivity].
    cbn [attr]. rewrite Att; [reflexivity|assumption|eapply (wf_eattr Wa); eassumption].
Qed.
Print Assumptions C33_mergeGraphs_partial.
Example C33_example :
  exists g', merge_graphs (Some $"count") (Some $"weight") (g0 false)
               (add_edge $"c" $"b" (w 10) (add_node $"b" (c 7) (add_node $"c" (c 1) (empty_graph false)))) = (g', None) /\
    map (fun n => num $"count" (nd g' n)) [$"a"; $"b"; $"c"; $"d"] = [1; 9; 4; 4]%Z /\
    num $"weight" (ed g' $"b" $"c") = 15%Z.
Proof. eexists. vm_compute. split; [reflexivity|split; reflexivity]. Qed.

(** C33, precedence of the target: false in general.  When a common node lacks the count in one of the graphs, the
    added graph's attributes overwrite the target's. *)
Theorem C33_target_precedence_refuted :
  exists (target added g' : graph str) (n k : str) (x y : val),
    WF target /\ WF added /\
    merge_graphs (Some $"count") (Some $"weight") added target = (g', None) /\
    attr (nd target n) k = Some x /\ attr (nd g' n) k = Some y /\ x <> y /\ k <> $"count".
Proof.
  exists (add_node $"n" [($"year", VInt 2000)] (empty_graph false)).
  exists (add_node $"n" [($"count", VInt 1); ($"year", VInt 1999)] (empty_graph false)). eexists. exists $"n", $"year", (VInt 2000), (VInt 1999).
  split; [apply WF_add_node, WF_empty|]. split; [apply WF_add_node, WF_empty|]. split; [vm_compute; reflexivity|].
  split; [vm_compute; reflexivity|]. split; [vm_compute; reflexivity|]. split; [discriminate|]. vm_compute. discriminate.
Qed.
Print Assumptions C33_target_precedence_refuted.

(** C33 with no edge attribute to increment: merging in a graph with an edge always raises AttributeError. *)
Theorem C33_without_edge_attribute_refuted :
  forall (V : Type) (E : EqDec V) (nk : option str) (added target g' : graph V),
    edges added <> [] -> merge_graphs nk None added target <> (g', None).
Proof.
  intros V E nk added target g' NE. unfold merge_graphs. destruct (merge_nodes nk (gnodes added) target) as [g [e|]]; [congruence|].
  destruct (edges added) as [|[[u v] a] es]; [congruence|]. cbn. congruence.
Qed.
Print Assumptions C33_without_edge_attribute_refuted.

(** C34: getNodeDegrees lists every node once; the degree of a node is the sum over the edges of the weight times
    how often the edge is counted for it ('bi': each end once, so a loop twice; 'in': at its target; 'out': at its
    source); all degrees add up to twice the total weight ('bi') or the total weight ('in', 'out'). *)
Theorem C34_degrees :
  forall (V : Type) (E : EqDec V) (wname : option str) (strict : bool) (t : etype) (g : graph V) (d : dict V Z),
    WF g -> get_node_degrees g wname strict t = Ok d ->
    dkeys d = nodes g /\
    (forall n, In n (nodes g) -> dget n d = Some (zsum (map (fun e => incidence t n e * edge_weight wname e) (edges g)))%Z) /\
    zsum (dvals d) =
      ((match t with Bi => 2 | In_ => 1 | Out_ => 1 | Other => 0 end) * zsum (map (edge_weight wname) (edges g)))%Z.
Proof. intros V E wname strict t g d W Q. apply (get_node_degrees_ok _ _ _ W Q). Qed.
Print Assumptions C34_degrees.

(** C34: it raises only for an unknown edge type, a missing weight in strict mode or a weight that is no int. *)
Theorem C34_succeeds :
  forall (V : Type) (E : EqDec V) (wname : option str) (strict : bool) (t : etype) (g : graph V),
    WF g -> t <> Other ->
    (forall k u v a, wname = Some k -> ed g u v = Some a ->
       match dget k a with None => strict = false | Some x => exists z, to_int x = Ok z end) ->
    exists d, get_node_degrees g wname strict t = Ok d.
Proof.
  intros V E wname strict t g W T Ok_. apply get_node_degrees_total; [assumption|assumption|].
  intros u v a Ed. unfold edge_val. destruct wname as [k|]; [|eauto].
  specialize (Ok_ k u v a eq_refl Ed). destruct (dget k a); [assumption|]. rewrite Ok_. eauto.
Qed.
Print Assumptions C34_succeeds.

(** C34: the degree distribution has one place for each degree up to the largest, holding the number of nodes of
    that degree (for degrees that are not negative). *)
Theorem C34_distribution :
  forall (V : Type) (E : EqDec V) (wname : option str) (strict : bool) (t : etype) (g : graph V) (d : dict V Z),
    get_node_degrees g wname strict t = Ok d -> dvals d <> [] -> (forall x, In x (dvals d) -> (0 <= x)%Z) ->
    exists l m, get_degree_distribution g wname strict t = Ok l /\
      In (Z.of_nat m) (dvals d) /\ length l = S m /\
      forall k, nth k l 0%Z = Z.of_nat (count (Z.of_nat k) (dvals d)).
Proof. intros V E wname strict t g d Q NE P. apply (degree_distribution_ok _ _ _ _ Q NE P). Qed.
Print Assumptions C34_distribution.
Example C34_example :
  get_node_degrees (g0 false) (Some $"weight") true Bi = Ok [($"a", 2); ($"b", 7); ($"c", 7); ($"d", 0)]%Z /\
  get_node_degrees (g0 true) (Some $"weight") true In_ = Ok [($"a", 0); ($"b", 2); ($"c", 6); ($"d", 0)]%Z /\
  get_degree_distribution (g0 false) None false Bi = Ok [1; 1; 1; 1]%Z /\
  get_node_degrees (g0 true) (Some $"cost") true Bi = Raise KeyError.
Proof. vm_compute. repeat split. Qed.

(** C35: when writeTnetFile succeeds the graph has exactly two modes, the source mode (the one asked for, if any)
    and another; the nodes have got the ids 1, 2, ... in order and nothing else changed; the file has one line per
    edge, each with the id of its end in the source mode first, then the id of its other end, then the weight if
    asked for. *)
Theorem C35_tnet :
  forall (V : Type) (E : EqDec V) (weighted : bool) (mk ik wk : str) (source : option val) (g g' : graph V) (ls : list tnet_line),
    WF g -> write_tnet weighted mk ik wk source g = (g', Some ls, None) ->
    exists m0 m1, m0 <> m1 /\ (forall m, source = Some m -> m0 = m) /\
      (forall n, In n (nodes g) -> attr (nd g n) mk = Some m0 \/ attr (nd g n) mk = Some m1) /\
      (forall j n, nth_error (nodes g) j = Some n ->
         exists b, nd g n = Some b /\ nd g' n = Some (dset ik (VInt (Z.of_nat (S j))) b)) /\
      nodes g' = nodes g /\ (forall u v, ed g' u v = ed g u v) /\
      Forall2 (fun e l =>
        exists s t i j wt, (e = (s, t, snd e) \/ e = (t, s, snd e)) /\
          attr (nd g s) mk = Some m0 /\ attr (nd g t) mk = Some m1 /\
          nth_error (nodes g) i = Some s /\ nth_error (nodes g) j = Some t /\
          l = (VInt (Z.of_nat (S i)), VInt (Z.of_nat (S j)), wt) /\
          if weighted then exists x, wt = Some x /\ dget wk (snd e) = Some x else wt = None) (edges g) ls.
Proof. intros V E weighted mk ik wk source g g' ls W Q. exact (write_tnet_ok _ _ _ _ _ W Q). Qed.
Print Assumptions C35_tnet.

(** C35: it succeeds on every pure two-mode graph (with weights, if those are asked for). *)
Theorem C35_accepts_two_mode_graphs :
  forall (V : Type) (E : EqDec V) (weighted : bool) (mk ik wk : str) (source : option val) (g : graph V) (m0 m1 : val),
    WF g -> m0 <> m1 ->
    (forall n, In n (nodes g) -> attr (nd g n) mk = Some m0 \/ attr (nd g n) mk = Some m1) ->
    (exists n, attr (nd g n) mk = Some m0) -> (exists n, attr (nd g n) mk = Some m1) ->
    (forall m, source = Some m -> m = m0) ->
    (forall u v a, ed g u v = Some a -> attr (nd g u) mk <> attr (nd g v) mk /\ (weighted = true -> dget wk a <> None)) ->
    exists g' ls, write_tnet weighted mk ik wk source g = (g', Some ls, None).
Proof. intros V E weighted mk ik wk source g m0 m1 W NE M X Y S Ed. exact (@write_tnet_total V E weighted mk ik wk source g m0 m1 W NE M X Y S Ed). Qed.
Print Assumptions C35_accepts_two_mode_graphs.
Definition tm (s : str) : attrs := [($"type", VStr s)].
Example C35_example :
  let g := add_edge $"p2" $"a1" (w 4) (add_edge $"a1" $"p1" (w 3)
             (add_node $"p2" (tm $"paper") (add_node $"p1" (tm $"paper") (add_node $"a1" (tm $"author") (empty_graph false))))) in
  exists g', write_tnet true $"type" $"tnet-ID" $"weight" (Some (VStr $"paper")) g =
    (g', Some [(VInt 2, VInt 1, Some (VInt 3)); (VInt 3, VInt 1, Some (VInt 4))], None).
Proof. eexists. vm_compute. reflexivity. Qed.
