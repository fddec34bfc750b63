(** C89: the statistics of a graph (graphStats). *)
From Coq Require Import List ZArith Lia Bool Arith QArith.
From Coq Require Import String.
From Verif Require Import Base PyStr DecFacts Nx NxFacts StatsModel StatsSpec StatsProofs.
Import ListNotations.
Local Open Scope list_scope.
Local Open Scope nat_scope.
Set Implicit Arguments.

Section Theorems.
  Context {V : Type} `{EqDec V}.
  (** how python writes a float with six significant digits *)
  Variable float_G : Q -> str.
  Implicit Types g : graph V.

  (** Without the text the answer is a tuple as long as the request: each element is the statistic asked for at its place.
      No division by zero happens, whatever the graph. *)
  Theorem C89_tuple g stats sentence : WF g -> (forall s, In s stats -> In s six) ->
    exists l, graph_stats float_G g stats false sentence = Ok (Tuple l) /\ Forall2 (stat_is g) stats l.
  Proof.
    intros W A. destruct (density_ok W) as (d & Ed & D), (transitivity_ok W) as (t & Et & T).
    exists (map (value_of g d t) stats). split; [apply tuple_ok; assumption|].
    clear Ed Et. induction stats as [|s stats IH]; cbn [map]; constructor.
    - apply valued; auto. apply A. left; reflexivity.
    - apply IH. intros s' I. apply A. right; assumption.
  Qed.

  (** The text has one line for each of the six statistics asked for, in a fixed order and once only; whole numbers below
      a million are written in full. *)
  Theorem C89_lines g stats : WF g -> (forall s, In s stats -> In s six) ->
    exists (value : str -> number) (show : number -> str),
      (forall s, In s six -> stat_is g s (value s))
      /\ (forall n, (N.of_nat n < 1000000)%N -> show (Int n) = dec_nat n)
      /\ (forall q, show (Float q) = float_G q)
      /\ graph_stats float_G g stats true false =
         Ok (Text (join [nl] (map (fun s => line_of s (show (value s))) (filter (fun s => mem s stats) six)))).
  Proof.
    intros W A. destruct (density_ok W) as (d & Ed & D), (transitivity_ok W) as (t & Et & T).
    exists (value_of g d t), (shown_G float_G). split; [intros s I; apply valued; assumption|]. split; [|split].
    - intros n L. cbn. apply format_small. assumption.
    - reflexivity.
    - rewrite (text_ok float_G g stats false Ed Et A). reflexivity.
  Qed.

  (** The sentence names the same statistics. *)
  Theorem C89_sentence g stats : WF g -> (forall s, In s stats -> In s six) ->
    exists (value : str -> number) (show : number -> str) (parts : list str),
      (forall s, In s six -> stat_is g s (value s))
      /\ (forall n, (N.of_nat n < 1000000)%N -> show (Int n) = dec_nat n)
      /\ (forall q, show (Float q) = float_G q)
      /\ parts = map (fun s => phrase_of s (show (value s))) (filter (fun s => mem s stats) six)
      /\ (parts = [] -> graph_stats float_G g stats true true = Ok (Text $"The graph has "))
      /\ (forall p, parts = [p] -> graph_stats float_G g stats true true = Ok (Text ($"The graph has " ++ p)))
      /\ (forall l p, l <> [] -> parts = l ++ [p] ->
            graph_stats float_G g stats true true = Ok (Text ($"The graph has " ++ join $", " l ++ $" and " ++ p))).
  Proof.
    intros W A. destruct (density_ok W) as (d & Ed & D), (transitivity_ok W) as (t & Et & T).
    exists (value_of g d t), (shown_G float_G), (texts_of float_G g d t true stats six).
    split; [intros s I; apply valued; assumption|]. split; [|split; [|split; [|split; [|split]]]].
    - intros n L. cbn. apply format_small. assumption.
    - reflexivity.
    - reflexivity.
    - intros E. rewrite (text_ok float_G g stats true Ed Et A). cbv zeta iota. rewrite E. reflexivity.
    - intros p E. rewrite (text_ok float_G g stats true Ed Et A). cbv zeta iota. rewrite E. reflexivity.
    - intros l p NE E. rewrite (text_ok float_G g stats true Ed Et A). cbv zeta iota. rewrite E.
      rewrite removelast_last, last_last. destruct l as [|a l]; [congruence|]. cbn [app]. destruct l; reflexivity.
  Qed.

  (** Any other name is refused. *)
  Theorem C89_unknown g stats makeString sentence s : In s stats -> ~ In s six ->
    graph_stats float_G g stats makeString sentence = Raise RuntimeError.
  Proof.
    intros I N. unfold graph_stats. destruct (forallb _ stats) eqn:F; [|reflexivity]. exfalso.
    apply all_valid with (s := s) in F; auto.
  Qed.

  (** The transitivity lies between 0 and 1, and so does the density of a graph without loops. *)
  Theorem C89_bounds g sentence : WF g ->
    exists d t, graph_stats float_G g [$"density"; $"transitivity"] false sentence = Ok (Tuple [d; t])
      /\ (0 <= number_Q t <= 1)%Q /\ ((forall v, ~ linked g v v) -> (0 <= number_Q d <= 1)%Q).
  Proof.
    intros W. destruct (density_ok W) as (d & Ed & D), (transitivity_ok W) as (t & Et & T). exists d, t. split.
    - rewrite (tuple_ok float_G g _ sentence Ed Et); [reflexivity|]. intros s [<-|[<-|[]]]; unfold six; cbn; auto 10.
    - split; [apply (transitivity_bound T)|]. intros NL. apply (density_bound W NL D).
  Qed.

  Lemma nodes_only g : WF g -> graph_stats float_G g [$"nodes"] true false = Ok (Text ($"Nodes: " ++ format_G (N.of_nat (length (nodes g))))).
  Proof.
    intros W. destruct (density_ok W) as (d & Ed & D), (transitivity_ok W) as (t & Et & T).
    rewrite (text_ok float_G g _ false Ed Et); [reflexivity|]. intros s [<-|[]]. left; reflexivity.
  Qed.
End Theorems.

(** [n] nodes and no edge *)
Definition scattered (n : nat) : graph N := mkG false (map (fun k => (N.of_nat k, [])) (seq 0 n)) (map (fun k => (N.of_nat k, [])) (seq 0 n)).
Lemma scattered_row n u r : dget u (gadj (scattered n)) = Some r -> r = [].
Proof. intros E. apply dget_In in E. cbn in E. apply in_map_iff in E. destruct E as (k & Q & _). inversion Q; reflexivity. Qed.
Lemma scattered_WF n : WF (scattered n).
Proof.
  assert (NE : forall u v, ed (scattered n) u v = None).
  { intros u v. unfold ed. destruct (dget u (gadj (scattered n))) as [r|] eqn:E; [|reflexivity]. apply scattered_row in E. subst. reflexivity. }
  constructor.
  - cbn; unfold dkeys; rewrite !map_map; reflexivity.
  - cbn. unfold dkeys. rewrite map_map. cbn. apply FinFun.Injective_map_NoDup; [intros a b Q; lia|apply seq_NoDup].
  - intros u r E. apply scattered_row in E. subst. constructor.
  - intros u v a E. rewrite NE in E. discriminate.
  - intros _ u v. rewrite !NE. reflexivity.
  - intros m a E. apply dget_In in E. cbn in E. apply in_map_iff in E. destruct E as (k & Q & _). inversion Q; constructor.
  - intros u v a E. rewrite NE in E. discriminate.
Qed.
Lemma scattered_length n : length (nodes (scattered n)) = n.
Proof. unfold nodes, dkeys. cbn. rewrite map_map, map_length, seq_length. reflexivity. Qed.
Lemma scattered_text float_G (k : N) : graph_stats float_G (scattered (N.to_nat k)) [$"nodes"] true false = Ok (Text ($"Nodes: " ++ format_G k)).
Proof. rewrite (nodes_only float_G (scattered_WF (N.to_nat k))), scattered_length, N2Nat.id. reflexivity. Qed.

(** From a million on the text rounds the counts to six digits: two graphs with different numbers of nodes get the same text. *)
Theorem C89_million_refuted float_G : exists g g' : graph N, WF g /\ WF g' /\ length (nodes g) <> length (nodes g')
  /\ graph_stats float_G g [$"nodes"] true false = graph_stats float_G g' [$"nodes"] true false
  /\ graph_stats float_G g [$"nodes"] true false = Ok (Text $"Nodes: 1.23457E+06").
Proof.
  exists (scattered (N.to_nat 1234567)), (scattered (N.to_nat 1234568)). split; [apply scattered_WF|]. split; [apply scattered_WF|].
  split; [rewrite !scattered_length; lia|]. rewrite !scattered_text.
  assert (A : format_G 1234567 = $"1.23457E+06") by (vm_compute; reflexivity).
  assert (B : format_G 1234568 = $"1.23457E+06") by (vm_compute; reflexivity).
  rewrite A, B. split; reflexivity.
Qed.

Definition paw : graph str :=
  add_node $"e" [] (add_edge $"c" $"d" [] (add_edge $"c" $"a" [] (add_edge $"b" $"c" [] (add_edge $"a" $"b" [] (empty_graph false))))).
(** With loops the density may exceed 1. *)
Theorem C89_loops_refuted float_G : exists (g : graph str) q, WF g /\ graph_stats float_G g [$"density"] false false = Ok (Tuple [Float q]) /\ (q == 3)%Q.
Proof.
  exists (add_edge $"b" $"b" [] (add_edge $"a" $"a" [] (add_edge $"a" $"b" [] (empty_graph false)))). eexists. split; [|split].
  - repeat apply WF_add_edge. apply WF_empty.
  - vm_compute. reflexivity.
  - reflexivity.
Qed.

(** A triangle with a tail and a lone node: the hypotheses hold and the statistics are what they should be. *)
Example C89_ex : WF paw
  /\ graph_stats (fun _ => $"?") paw [$"loops"; $"edges"; $"nodes"; $"edges"; $"isolates"; $"density"; $"transitivity"] false false
     = Ok (Tuple [Int 0; Int 4; Int 5; Int 4; Int 1; Float (8 # 20); Float (6 # 10)])
  /\ graph_stats (fun _ => $"?") paw [$"loops"; $"edges"; $"nodes"; $"edges"] true false
     = Ok (Text ($"Nodes: 5" ++ [nl] ++ $"Edges: 4" ++ [nl] ++ $"Self loops: 0"))
  /\ graph_stats (fun _ => $"?") paw [$"transitivity"; $"loops"; $"edges"; $"nodes"] true true
     = Ok (Text $"The graph has 5 nodes, 4 edges, 0 self loops and a transitivity of ?")
  /\ graph_stats (fun _ => $"?") paw [$"nodes"; $"diameter"] true true = Raise RuntimeError.
Proof.
  split; [apply WF_add_node; repeat apply WF_add_edge; apply WF_empty|].
  repeat split; vm_compute; reflexivity.
Qed.

Print Assumptions C89_tuple.
Print Assumptions C89_lines.
Print Assumptions C89_sentence.
Print Assumptions C89_unknown.
Print Assumptions C89_bounds.
Print Assumptions C89_million_refuted.
Print Assumptions C89_loops_refuted.
