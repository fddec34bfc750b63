(** Property theorems about writing a graph to csv files and reading it back (C36). *)
From Coq Require Import String.
From Verif Require Import Base PyStr Nx NxFacts CsvModel CsvProofs GraphFileModel GraphFileProofs.

(** [text_of a k] is what a reader of the file sees for attribute [k] of a node or edge with attributes [a]:
    the text of the value, nothing if there is none. *)
Definition text_of (a : attrs) (k : str) : str :=
  match dget k a with
  | Some (VStr s) => s
  | Some (VInt z) => dec_Z z
  | Some (VBool true) => $"True"
  | Some (VBool false) => $"False"
  | Some VNone | None => []
  end.
(** a text the format can hold: no carriage return, no NUL, at most 131072 characters *)
Definition storable (s : str) : Prop := ~ In cr s /\ ~ In 0%N s /\ (N.of_nat (length s) <= 131072)%N.
(** a graph the format can hold: storable labels, attribute names and values, and no attribute with the name of
    an identifying column *)
Definition storable_graph (g : graph str) : Prop :=
  (forall n, In n (nodes g) -> storable n) /\
  (forall n a k v, nd g n = Some a -> dget k a = Some v -> storable k /\ storable (text_of a k) /\ k <> $"ID") /\
  (forall x y a k v, ed g x y = Some a -> dget k a = Some v ->
     storable k /\ storable (text_of a k) /\ k <> $"Source" /\ k <> $"Target").
Lemma storable_plain g : WF g -> storable_graph g -> plain_graph g.
Proof.
  intros W (A & B & C).
  assert (X : forall (a : attrs) k v, dget k a = Some v -> text_of a k = val_text v).
  { intros a k v G. unfold text_of. rewrite G. destruct v as [z|s|[|]|]; reflexivity. }
  split.
  - intros n a E. split; [apply A; apply nd_In; eauto|]. intros k v I.
    pose proof (In_dget _ _ _ (wf_nattr W _ E) I) as G. destruct (B _ _ _ _ E G) as (K & V & N). rewrite (X _ _ _ G) in V.
    split; [exact K|]. split; [exact V|]. intros [Q|[]]. apply N. symmetry; exact Q.
  - intros x y a E k v I.
    pose proof (In_dget _ _ _ (wf_eattr W _ _ E) I) as G. destruct (C _ _ _ _ _ E G) as (K & V & N1 & N2). rewrite (X _ _ _ G) in V.
    split; [exact K|]. split; [exact V|]. intros [Q|[Q|[]]]; [apply N1 | apply N2]; symmetry; exact Q.
Qed.
Lemma text_cell (a : attrs) k : text_of a k = cell a k.
Proof. unfold text_of, cell. destruct (dget k a) as [[z|s|[|]|]|]; reflexivity. Qed.

(** C36: whatever order the attribute columns get, writing a storable graph and reading the two files with the
    graph's direction succeeds and gives the same nodes in the same order and the same edges.  Every attribute
    that some node has is, on every node, the text of that node's value, nothing if the node had no such
    attribute; and the same for edges. *)
Theorem C36_roundtrip :
  forall (order : list str -> list str) (g : graph str),
    (forall l, Permutation l (order l)) -> WF g -> storable_graph g ->
    exists node_file edge_file g',
      write_nodes order g = Ok node_file /\ write_edges order g = Ok edge_file /\
      read_graph (gdir g) edge_file (Some node_file) = Ok g' /\
      WF g' /\ gdir g' = gdir g /\ nodes g' = nodes g /\
      (forall x y, (exists a, ed g' x y = Some a) <-> (exists a, ed g x y = Some a)) /\
      (forall n a a', nd g n = Some a -> nd g' n = Some a' -> forall k x,
         dget k a' = Some x <->
         x = VStr (text_of a k) /\ exists m b y, nd g m = Some b /\ dget k b = Some y) /\
      (forall u v a a', ed g u v = Some a -> ed g' u v = Some a' -> forall k x,
         dget k a' = Some x <->
         x = VStr (text_of a k) /\ exists u' v' b y, ed g u' v' = Some b /\ dget k b = Some y).
Proof.
  intros order g OP W S. destruct (roundtrip order OP W (storable_plain g W S)) as (nt & et & g' & A & B & C & W' & D & N & NA & EA).
  assert (DR : forall cols a k x, dget k (row_of cols a) = Some x <-> x = VStr (text_of a k) /\ In k cols).
  { intros cols a k x. rewrite dget_row_of; replace (text_of a k) with (cell a k) by (symmetry; apply text_cell). destruct (mem k cols) eqn:M.
    - apply mem_In in M. split; [intros Q; injection Q as <-; auto | intros [-> _]; reflexivity].
    - apply mem_not_In in M. split; [discriminate | intros [_ I]; contradiction]. }
  exists nt, et, g'. split; [exact A|]. split; [exact B|]. split; [exact C|]. split; [exact W'|]. split; [exact D|]. split; [exact N|].
  split; [|split].
  - intros x y. rewrite EA. destruct (ed g x y); split; intros [? Q]; eauto; discriminate.
  - intros n a a' E E' k x. rewrite NA, E in E'. injection E' as <-. rewrite DR, (In_node_cols order OP k W). reflexivity.
  - intros u v a a' E E' k x. rewrite EA, E in E'. injection E' as <-. rewrite DR, (In_edge_cols order OP k W). reflexivity.
Qed.
Print Assumptions C36_roundtrip.

(** C36: if all nodes have the same attributes and all edges have, the attributes read back are exactly the
    ones written, as text. *)
Theorem C36_same_attributes_roundtrip :
  forall (order : list str -> list str) (g : graph str),
    (forall l, Permutation l (order l)) -> WF g -> storable_graph g ->
    (forall n m a b k, nd g n = Some a -> nd g m = Some b -> dget k b <> None -> dget k a <> None) ->
    (forall u v x y a b k, ed g u v = Some a -> ed g x y = Some b -> dget k b <> None -> dget k a <> None) ->
    exists node_file edge_file g',
      write_nodes order g = Ok node_file /\ write_edges order g = Ok edge_file /\
      read_graph (gdir g) edge_file (Some node_file) = Ok g' /\ nodes g' = nodes g /\
      (forall n a a', nd g n = Some a -> nd g' n = Some a' -> forall k,
         dget k a' = match dget k a with Some _ => Some (VStr (text_of a k)) | None => None end) /\
      (forall u v, match ed g u v with
         | None => ed g' u v = None
         | Some a => exists a', ed g' u v = Some a' /\
             forall k, dget k a' = match dget k a with Some _ => Some (VStr (text_of a k)) | None => None end
         end).
Proof.
  intros order g OP W S UN UE. destruct (C36_roundtrip order g OP W S) as (nt & et & g' & A & B & C & W' & D & N & Ex & NA & EA).
  exists nt, et, g'. split; [exact A|]. split; [exact B|]. split; [exact C|]. split; [exact N|]. split.
  - intros n a a' E E' k. specialize (NA n a a' E E' k). destruct (dget k a') as [x|] eqn:G.
    + destruct (proj1 (NA x) eq_refl) as (-> & m & b & y & Em & Gy).
      assert (X : dget k a <> None) by (apply (UN n m a b k E Em); congruence). destruct (dget k a); [reflexivity | congruence].
    + destruct (dget k a) as [y|] eqn:G2; [|reflexivity]. assert (X : None = Some (VStr (text_of a k))); [|discriminate]. apply NA. split; [reflexivity|]. exists n, a, y; auto.
  - intros u v. destruct (ed g u v) as [a|] eqn:E.
    + destruct (proj2 (Ex u v)) as [a' E']; [eauto|]. exists a'; split; [exact E'|]. intros k. specialize (EA u v a a' E E' k).
      destruct (dget k a') as [x|] eqn:G.
      * destruct (proj1 (EA x) eq_refl) as (-> & x1 & y1 & b & y & Em & Gy).
        assert (X : dget k a <> None) by (apply (UE u v x1 y1 a b k E Em); congruence). destruct (dget k a); [reflexivity | congruence].
      * destruct (dget k a) as [y|] eqn:G2; [|reflexivity]. assert (X : None = Some (VStr (text_of a k))); [|discriminate]. apply EA. split; [reflexivity|]. exists u, v, a, y; auto.
    + destruct (ed g' u v) as [a'|] eqn:E'; [|reflexivity]. destruct (proj1 (Ex u v)) as [a Q]; [eauto|]. congruence.
Qed.
Print Assumptions C36_same_attributes_roundtrip.

(** A graph with awkward labels: quotes, commas, newlines, an empty label, and attributes missing here and there. *)
Definition q : char := 34%N.
Definition ug (d : bool) : graph str :=
  add_edge $"a,b" $"" [($"weight", VInt (-3))] (add_edge $"a,b" ([q] ++ $"x" ++ [q; nl]) [($"weight", VInt 12); ($"note", VStr [q; nl; q])]
    (add_node $"a,b" [($"count", VInt 7); ($"new", VBool true)] (empty_graph d))).
Lemma WF_ug d : WF (ug d).
Proof. unfold ug. repeat first [apply WF_add_node | apply WF_add_edge]. apply WF_empty. Qed.
Example C36_example : forall d,
  exists nt et g', write_nodes (fun l => l) (ug d) = Ok nt /\ write_edges (fun l => l) (ug d) = Ok et /\
    read_graph d et (Some nt) = Ok g' /\ nodes g' = nodes (ug d) /\
    nd g' $"a,b" = Some [($"count", VStr $"7"); ($"new", VStr $"True")] /\
    nd g' $"" = Some [($"count", VStr []); ($"new", VStr [])] /\
    ed g' $"a,b" $"" = Some [($"weight", VStr $"-3"); ($"note", VStr [])].
Proof. intros [|]; do 3 eexists; vm_compute; repeat split; reflexivity. Qed.
Example C36_hypotheses_met : forall d, storable_graph (ug d).
Proof.
  assert (T : forall s : str, (negb (mem cr s) && negb (mem 0%N s) && (N.of_nat (length s) <=? 131072)%N)%bool = true -> storable s).
  { intros s E. apply andb_prop in E. destruct E as [E L]. apply andb_prop in E. destruct E as [C Z].
    split; [|split]; [apply mem_not_In; apply negb_true_iff; exact C | apply mem_not_In; apply negb_true_iff; exact Z | apply N.leb_le; exact L]. }
  assert (NN : forall d n a, nd (ug d) n = Some a -> In (n, a) (gnodes (ug d))) by (intros d n a E; apply dget_In; exact E).
  assert (EE : forall d x y a, ed (ug d) x y = Some a -> In (x, y, a) (edges (ug d)) \/ In (y, x, a) (edges (ug d))).
  { intros d x y a E. destruct (edges_complete _ _ (WF_ug d) E) as [I|[_ I]]; auto. }
  intros d. split; [|split].
  - intros n I. apply T. destruct d; cbn in I; repeat (destruct I as [<-|I]; [reflexivity|]); destruct I.
  - intros n a k v E G. apply NN in E. apply dget_In in G as J.
    destruct d; cbn in E; repeat (destruct E as [E|E]; [injection E as <- <-; cbn in J; repeat (destruct J as [J|J]; [injection J as <- <-; split; [apply T; reflexivity | split; [apply T; reflexivity | discriminate]]|]); destruct J|]); destruct E.
  - intros x y a k v E G. apply EE in E. apply dget_In in G as J.
    destruct d; cbn in E; destruct E as [E|E];
    repeat (destruct E as [E|E]; [injection E as <- <- <-; cbn in J; repeat (destruct J as [J|J]; [injection J as <- <-; split; [apply T; reflexivity | split; [apply T; reflexivity | split; discriminate]]|]); destruct J|]); destruct E.
Qed.

(** C36 fails for labels with a carriage return, because the files are read with universal newlines: the node
    comes back under another name.  (So does any graph with an attribute called "ID".) *)
Theorem C36_any_label_refuted :
  ~ forall (order : list str -> list str) (g g' : graph str) nt et,
      (forall l, Permutation l (order l)) -> WF g ->
      write_nodes order g = Ok nt -> write_edges order g = Ok et ->
      read_graph (gdir g) et (Some nt) = Ok g' -> nodes g' = nodes g.
Proof.
  intros A. pose (g := add_node [97; 13; 98]%N [] (empty_graph (V:=str) false)).
  assert (W : WF g) by (apply WF_add_node, WF_empty).
  specialize (A (fun l => l) g). set (r := write_nodes (fun l => l) g) in A. vm_compute in r. subst r.
  set (r := write_edges (fun l => l) g) in A. vm_compute in r. subst r.
  specialize (A (add_node [97; 10; 98]%N [] (empty_graph (V:=str) false)) _ _ (fun l => Permutation_refl l) W eq_refl eq_refl).
  assert (R : nodes (add_node [97; 10; 98]%N [] (empty_graph (V:=str) false)) = nodes g) by (apply A; vm_compute; reflexivity).
  vm_compute in R. discriminate.
Qed.
Print Assumptions C36_any_label_refuted.

(** C36: the options of writeEdgeList other than the default raise on every graph that has an edge. *)
Theorem C36_other_options_raise_refuted :
  forall (order : list str -> list str) (extra same : bool) (g : graph str),
    extra = false \/ same = true -> edges g <> [] -> exists e, write_edges_opts order extra same g = Raise e.
Proof.
  intros order extra same g O NE. unfold write_edges_opts. destruct (edges g) as [|e l]; [congruence|]. cbn [length Nat.ltb Nat.leb].
  destruct O as [-> | ->]; [eexists; reflexivity|]. destruct extra; eexists; reflexivity.
Qed.
Print Assumptions C36_other_options_raise_refuted.
