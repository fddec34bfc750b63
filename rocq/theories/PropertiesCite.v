(** Property theorems about networkCoAuthor, networkCoCitation, networkCitation and networkBibCoupling (C17 - C20).
    [rs] are the records in iteration order.  The parts of records and citations that are read are given by [api] and
    [rapi], which are arbitrary. *)
From Coq Require Import String Lia.
From Verif Require Import Base PyStr Nx NxFacts RecordView SeriesSpec RecordViewFacts NetModel NetSpec NetFacts NetProofs NetProofs2 PropertiesNet
  CiteNetModel CiteNetSpec CiteNetFacts CiteNetProofs CiteNetProofs2 CiteNetProofs3 CiteNetProofs4 CouplingProofs.

Lemma pairs_one {A} `{EqDec A} (u v : A) l : NoDup l -> u <> v -> pairs_within u v l = if mem u l && mem v l then 1 else 0.
Proof. intros N NE. rewrite pairs_nodup by exact N. rewrite neq_eqb by exact NE. reflexivity. Qed.
Lemma weight_records {A R} `{EqDec A} (names : R -> list A) (rs : list R) u v : (forall r, In r rs -> NoDup (names r)) -> u <> v ->
  total (fun r => pairs_within u v (names r)) rs = length (filter (fun r => mem u (names r) && mem v (names r)) rs).
Proof. intros N NE. rewrite <- total_count. apply total_ext. intros r K. apply pairs_one; [apply N, K|exact NE]. Qed.
Lemma positive_some n : 0 < n -> positive_count n = Some (VInt (Z.of_nat n)).
Proof. intros P. unfold positive_count. destruct n; [lia|reflexivity]. Qed.
Lemma positions_ge {A} `{EqDec A} (n : A) l : forall k, count n l * k <= positions_from k n l.
Proof. induction l as [|x l IH]; intros k; [cbn; lia|]. cbn [count positions_from]. specialize (IH (S k)). destruct (eqb n x); nia. Qed.

(** ** C17 *)
(** C17: the nodes are the listed authors, the edges join authors listed together, with the number of pairs of
    positions; a node shows the details of the first record that lists it. *)
Theorem C17_weights :
  forall (I R : Type) (E : EqDec I) (authors : R -> list I) (journal : R -> bool) (details : R -> attrs) (weighted dropNonJournals counted : bool) (rs : list R),
    (forall r, In r rs -> NoDup (dkeys (details r))) ->
    let rs' := filter (fun r => negb dropNonJournals || journal r) rs in
    exists g, co_author authors journal details weighted dropNonJournals counted rs = Ok g /\ WF g /\ gdir g = false /\
      (forall n, is_node g n <-> exists r, In r rs' /\ In n (authors r)) /\
      (forall u v, ed g u v = edge_value weighted (total (fun r => pairs_within u v (authors r)) rs')) /\
      (forall n k, k <> $"count" ->
         node_attr g n k = match find (fun r => mem n (authors r)) rs' with Some r => dget k (details r) | None => None end).
Proof.
  intros I R E authors journal details w dnj cnt rs ND rs'.
  destruct (co_author_spec authors journal details w dnj cnt rs ND) as (g & A & W & D & M & X). fold rs' in M, X. exists g. split; [exact A|]. split; [exact W|]. split; [exact D|]. split; [|split; [exact X|]].
  - intros n. unfold is_node. rewrite nd_In, M. destruct (find (fun r => mem n (authors r)) rs') as [r|] eqn:F.
    + apply find_some in F. destruct F as [F1 F2]. apply mem_In in F2. split; eauto.
    + split; [intros (a & Q); discriminate|]. intros (r & F1 & F2). pose proof (find_none _ _ F r F1) as Q. cbn in Q. apply mem_In in F2. congruence.
  - intros n k NK. unfold node_attr. rewrite M. destruct (find (fun r => mem n (authors r)) rs') as [r|]; [|reflexivity]. destruct cnt; [apply dget_dset_other, NK|reflexivity].
Qed.
Print Assumptions C17_weights.

(** C17: when no record lists anyone twice, the weight of an edge is the number of records that list both. *)
Theorem C17_weight_is_records :
  forall (I R : Type) (E : EqDec I) (authors : R -> list I) (journal : R -> bool) (details : R -> attrs) (dropNonJournals counted : bool) (rs : list R) g u v,
    (forall r, In r rs -> NoDup (dkeys (details r)) /\ NoDup (authors r)) -> u <> v ->
    co_author authors journal details true dropNonJournals counted rs = Ok g ->
    edge_attr g u v $"weight" =
      positive_count (length (filter (fun r => (negb dropNonJournals || journal r) && (mem u (authors r) && mem v (authors r))) rs)).
Proof.
  intros I R E authors journal details dnj cnt rs g u v N NE Q.
  destruct (C17_weights _ _ _ authors journal details true dnj cnt rs) as (g' & Q' & _ & _ & _ & X & _); [intros r K; apply N, K|]. rewrite Q in Q'. injection Q' as <-.
  unfold edge_attr. rewrite X, weight_records; [|intros r K; apply filter_In in K; apply N, K|exact NE].
  assert (FF : filter (fun r => mem u (authors r) && mem v (authors r)) (filter (fun r => negb dnj || journal r) rs) = filter (fun r => (negb dnj || journal r) && (mem u (authors r) && mem v (authors r))) rs).
  { clear. induction rs as [|r rs IH]; [reflexivity|]. cbn [filter]. destruct (negb dnj || journal r); cbn [filter andb]; rewrite IH; reflexivity. }
  rewrite FF. unfold edge_value, positive_count. destruct (length _ =? 0); [reflexivity|]. cbn [dget]. rewrite eqb_refl. reflexivity.
Qed.
Print Assumptions C17_weight_is_records.

(** C17: the count of an author is the sum of the positions (from 1) at which they are listed, and never smaller than
    the number of times they are listed.  Missing: that it is the number of records, which is false. *)
Theorem C17_counts_partial :
  forall (I R : Type) (E : EqDec I) (authors : R -> list I) (journal : R -> bool) (details : R -> attrs) (weighted dropNonJournals : bool) (rs : list R) g,
    (forall r, In r rs -> NoDup (dkeys (details r))) ->
    co_author authors journal details weighted dropNonJournals true rs = Ok g ->
    let rs' := filter (fun r => negb dropNonJournals || journal r) rs in
    (forall n, node_attr g n $"count" = positive_count (total (fun r => positions_from 1 n (authors r)) rs')) /\
    (forall n, occurs authors rs' n <= total (fun r => positions_from 1 n (authors r)) rs') /\
    (forall n, (forall r, In r rs' -> In n (authors r) -> exists l, authors r = n :: l /\ ~ In n l) ->
       node_attr g n $"count" = positive_count (length (filter (fun r => mem n (authors r)) rs'))).
Proof.
  intros I R E authors journal details w dnj rs g ND Q rs'.
  destruct (co_author_spec authors journal details w dnj true rs ND) as (g' & A & W & D & M & X). rewrite Q in A. injection A as <-. fold rs' in M, X.
  assert (CT : forall n, node_attr g n $"count" = positive_count (total (fun r => positions_from 1 n (authors r)) rs')).
  { intros n. unfold node_attr. rewrite M. destruct (find (fun r => mem n (authors r)) rs') as [r|] eqn:F.
    - unfold cnt_. rewrite dget_dset_same. symmetry. apply positive_some. apply find_some in F. destruct F as [F1 F2]. apply total_pos. exists r. split; [exact F1|]. apply mem_In, count_In in F2. pose proof (positions_ge n (authors r) 1). lia.
    - unfold positive_count. rewrite (total_ext _ (fun _ => 0) rs'); [rewrite total_zero; reflexivity|]. intros r K. pose proof (find_none _ _ F r K) as Z. cbn in Z.
      assert (Z' : ~ In n (authors r)) by (intros Z'; apply mem_In in Z'; congruence). clear - Z'. generalize 1. induction (authors r) as [|x l IH]; intros k; [reflexivity|]. cbn [positions_from]. rewrite neq_eqb by (intros ->; apply Z'; left; reflexivity).
      apply IH. intros K. apply Z'. right. exact K. }
  split; [exact CT|]. split.
  - intros n. unfold occurs. clear. induction rs' as [|r l IH]; [cbn; lia|]. unfold total in *. cbn [fold_right]. pose proof (positions_ge n (authors r) 1). lia.
  - intros n F. rewrite CT. f_equal. rewrite <- total_count. apply total_ext. intros r K. destruct (mem n (authors r)) eqn:MM.
    + apply mem_In in MM. destruct (F r K MM) as (l & -> & NI). cbn [positions_from]. rewrite eqb_refl. 
      assert (Z : forall k, positions_from k n l = 0). { clear - NI. induction l as [|x l IH]; intros k; [reflexivity|]. cbn [positions_from]. rewrite neq_eqb by (intros ->; apply NI; left; reflexivity). apply IH. intros K. apply NI. right. exact K. }
      rewrite Z. reflexivity.
    + assert (Z' : ~ In n (authors r)) by (intros Z'; apply mem_In in Z'; congruence). clear - Z'. generalize 1. induction (authors r) as [|x l IH]; intros k; [reflexivity|]. cbn [positions_from]. rewrite neq_eqb by (intros ->; apply Z'; left; reflexivity).
      apply IH. intros K. apply Z'. right. exact K.
Qed.
Print Assumptions C17_counts_partial.

(** C17 is false of the counts: someone listed third in the only record has the count 3. *)
Theorem C17_counts_refuted :
  exists g, co_author (fun l : list str => l) (fun _ => true) (fun _ => []) true false true [[$"x"; $"y"; $"z"]] = Ok g /\
    node_attr g $"x" $"count" = Some (VInt 1) /\ node_attr g $"z" $"count" = Some (VInt 3).
Proof. apply ok_ex. vm_compute. auto. Qed.
Print Assumptions C17_counts_refuted.

(** C17: the order of the records changes no count and no weight. *)
Theorem C17_order_independent :
  forall (I R : Type) (E : EqDec I) (authors : R -> list I) (journal : R -> bool) (details : R -> attrs) (weighted dropNonJournals : bool) (rs rs' : list R) g g',
    (forall r, In r rs -> NoDup (dkeys (details r))) -> Permutation rs rs' ->
    co_author authors journal details weighted dropNonJournals true rs = Ok g -> co_author authors journal details weighted dropNonJournals true rs' = Ok g' ->
    (forall n, node_attr g n $"count" = node_attr g' n $"count") /\ (forall u v, ed g u v = ed g' u v).
Proof.
  intros I R E authors journal details w dnj rs rs' g g' ND P Q Q'.
  assert (ND' : forall r, In r rs' -> NoDup (dkeys (details r))) by (intros r K; apply ND; eapply Permutation_in; [apply Permutation_sym, P|exact K]).
  assert (PF : Permutation (filter (fun r => negb dnj || journal r) rs) (filter (fun r => negb dnj || journal r) rs')).
  { clear - P. induction P as [|x l l' P IH|x y l|a b c P1 IH1 P2 IH2]; [constructor| | |econstructor; eassumption]; cbn [filter].
    - destruct (negb dnj || journal x); [constructor|]; exact IH.
    - destruct (negb dnj || journal x), (negb dnj || journal y); try apply Permutation_refl. apply perm_swap. }
  destruct (C17_counts_partial _ _ _ _ _ _ _ _ _ _ ND Q) as (A & _). destruct (C17_counts_partial _ _ _ _ _ _ _ _ _ _ ND' Q') as (A' & _).
  destruct (C17_weights _ _ _ authors journal details w dnj true rs ND) as (h & B & _ & _ & _ & X & _). rewrite Q in B. injection B as <-.
  destruct (C17_weights _ _ _ authors journal details w dnj true rs' ND') as (h & B & _ & _ & _ & X' & _). rewrite Q' in B. injection B as <-.
  split; [intros n; rewrite A, A'|intros u v; rewrite X, X']; rewrite (total_perm _ PF); reflexivity.
Qed.
Print Assumptions C17_order_independent.

Example C17_example :
  exists g, co_author (fun l : list str => l) (fun _ => true) (fun _ => [($"k", VInt 7)]) true false true [[$"x"; $"y"]; [$"x"; $"z"]; [$"y"; $"x"]] = Ok g /\
    edge_attr g $"x" $"y" $"weight" = Some (VInt 2) /\ ed g $"y" $"z" = None /\ node_attr g $"x" $"k" = Some (VInt 7) /\ node_attr g $"x" $"count" = Some (VInt 4) /\
    forall r, In r [[$"x"; $"y"]; [$"x"; $"z"]; [$"y"; $"x"]] -> NoDup r.
Proof. apply ok_ex. vm_compute. do 4 (split; [reflexivity|]). intros r [<-|[<-|[<-|[]]]]; repeat constructor; cbn; intuition discriminate. Qed.

(** ** C18 *)
(** C18: the network is made whenever every citation that passes the filters can be made a node. *)
Theorem C18_made :
  forall (I C R : Type) (E : EqDec I) (api : cite_api C I) (rapi : rec_api R C) (upper : str -> str) (o : opts) (rs : list R),
    (forall r c, In r rs -> In c (cites rapi r) -> selected api rapi upper o rs c = true -> usable api rapi o rs c) ->
    exists g, co_citation api rapi upper o rs = Ok g.
Proof.
  intros I C R E api rapi upper o rs U. destruct (co_citation_spec api rapi upper o rs) as [(g & A & _)|(e & A & r & c & B & B' & B'')]; [eauto|].
  exfalso. apply B''. apply filter_In in B'. apply (U r c B); tauto.
Qed.
Print Assumptions C18_made.

(** C18: the nodes are the names of the citations that pass the filters, counted; edges join the names cited by the
    same record, with the number of pairs of positions. *)
Theorem C18_counts_and_weights :
  forall (I C R : Type) (E : EqDec I) (api : cite_api C I) (rapi : rec_api R C) (upper : str -> str) (o : opts) (rs : list R) g,
    co_citation api rapi upper o rs = Ok g ->
    let names := cited_names api rapi upper o rs in
    WF g /\ gdir g = false /\
    (forall n, is_node g n <-> exists r c, In r rs /\ In c (cites rapi r) /\ selected api rapi upper o rs c = true /\ name_of api o c = Some n) /\
    (o_count o = true -> forall n, node_attr g n $"count" = positive_count (occurs names rs n)) /\
    (forall u v, ed g u v = edge_value (o_weighted o) (total (fun r => pairs_within u v (names r)) rs)).
Proof.
  intros I C R E api rapi upper o rs g Q names. destruct (co_citation_spec api rapi upper o rs) as [(h & A & W & D & N & CT & _ & X)|(e & A & _)]; rewrite Q in A; [|discriminate]. injection A as <-.
  split; [exact W|]. split; [exact D|]. split; [|split; [exact CT|exact X]]. intros n. rewrite N. split.
  - intros (r & K & L). unfold cited_names, names_of in L. apply in_flat_map in L. destruct L as (c & L1 & L2). apply filter_In in L1. exists r, c. destruct (name_of api o c) as [i|]; [|destruct L2]. destruct L2 as [->|[]]. tauto.
  - intros (r & c & K & L & S & M). exists r. split; [exact K|]. apply in_flat_map. exists c. split; [apply filter_In; auto|]. rewrite M. left. reflexivity.
Qed.
Print Assumptions C18_counts_and_weights.

(** C18: when no record cites a node twice the weight is the number of records that cite both. *)
Theorem C18_weight_is_records :
  forall (I C R : Type) (E : EqDec I) (api : cite_api C I) (rapi : rec_api R C) (upper : str -> str) (o : opts) (rs : list R) g u v,
    let names := cited_names api rapi upper o rs in
    o_weighted o = true -> (forall r, In r rs -> NoDup (names r)) -> u <> v ->
    co_citation api rapi upper o rs = Ok g ->
    edge_attr g u v $"weight" = positive_count (length (filter (fun r => mem u (names r) && mem v (names r)) rs)).
Proof.
  intros I C R E api rapi upper o rs g u v names HW N NE Q. destruct (C18_counts_and_weights _ _ _ _ _ _ _ _ _ _ Q) as (_ & _ & _ & _ & X). fold names in X.
  unfold edge_attr. rewrite X, HW, (weight_records names rs u v N NE). unfold edge_value, positive_count. destruct (length _ =? 0); [reflexivity|]. cbn [dget]. rewrite eqb_refl. reflexivity.
Qed.
Print Assumptions C18_weight_is_records.

(** C18: what a node shows comes from one of the citations it stands for. *)
Theorem C18_attributes :
  forall (I C R : Type) (E : EqDec I) (api : cite_api C I) (rapi : rec_api R C) (upper : str -> str) (o : opts) (rs : list R) g,
    (forall r c, In r rs -> In c (cites rapi r) -> selected api rapi upper o rs c = true -> usable api rapi o rs c) ->
    co_citation api rapi upper o rs = Ok g ->
    forall n, is_node g n -> exists r c, In r rs /\ In c (cites rapi r) /\ selected api rapi upper o rs c = true /\ name_of api o c = Some n /\
      forall k, k <> $"count" -> node_attr g n k = node_shows api rapi o rs c n k.
Proof.
  intros I C R E api rapi upper o rs g U Q n K. destruct (co_citation_spec api rapi upper o rs) as [(h & A & W & D & N & CT & AT & X)|(e & A & _)]; rewrite Q in A; [|discriminate]. injection A as <-.
  destruct (AT n K) as (r & c & R1 & R2 & R3 & R4). apply filter_In in R2. destruct R2 as [R2 R5]. exists r, c. split; [exact R1|]. split; [exact R2|]. split; [exact R5|]. split; [exact R3|].
  intros k NK. rewrite (R4 k NK). apply info_shows. apply (U r c R1 R2 R5).
Qed.
Print Assumptions C18_attributes.

Lemma selected_perm {I C R} `{EqDec I} (api : cite_api C I) (rapi : rec_api R C) upper o (rs rs' : list R) c : Permutation rs rs' -> selected api rapi upper o rs c = selected api rapi upper o rs' c.
Proof.
  intros P. unfold selected. assert (Q : in_collection api rapi rs c = in_collection api rapi rs' c).
  { unfold in_collection. apply eq_true_iff_eq. rewrite !existsb_exists. split; intros (r & A & B); exists r; (split; [|exact B]); eapply Permutation_in; [exact P|exact A|apply Permutation_sym, P|exact A]. }
  rewrite Q. reflexivity.
Qed.
(** C18: the order of the records changes no count and no weight. *)
Theorem C18_order_independent :
  forall (I C R : Type) (E : EqDec I) (api : cite_api C I) (rapi : rec_api R C) (upper : str -> str) (o : opts) (rs rs' : list R) g g',
    Permutation rs rs' -> co_citation api rapi upper o rs = Ok g -> co_citation api rapi upper o rs' = Ok g' ->
    (o_count o = true -> forall n, node_attr g n $"count" = node_attr g' n $"count") /\ (forall u v, ed g u v = ed g' u v).
Proof.
  intros I C R E api rapi upper o rs rs' g g' P Q Q'.
  destruct (C18_counts_and_weights _ _ _ _ _ _ _ _ _ _ Q) as (_ & _ & _ & A & X). destruct (C18_counts_and_weights _ _ _ _ _ _ _ _ _ _ Q') as (_ & _ & _ & A' & X').
  assert (N : forall r, cited_names api rapi upper o rs r = cited_names api rapi upper o rs' r) by (intros r; unfold cited_names, cited; f_equal; apply filter_ext; intros c; apply selected_perm, P).
  split; [intros HC n; rewrite (A HC), (A' HC)|intros u v; rewrite X, X']; f_equal.
  - unfold occurs. rewrite (total_perm _ P). apply total_ext. intros r _. rewrite N. reflexivity.
  - rewrite (total_perm _ P). apply total_ext. intros r _. rewrite N. reflexivity.
Qed.
Print Assumptions C18_order_independent.

(** ** C19 *)
(** C19: the nodes and edges, for citations as nodes (with or without weights) and, with weights, for authors, journals
    and years as nodes unless a directed network from the cited to the citing is asked for.  The edges go from the
    record to what it cites, or the other way for [recordToCite = False] with weights.
    The full statement has no such restriction; C19_direction_refuted and the others below show why it is there. *)
Theorem C19_edges_partial :
  forall (I C R : Type) (E : EqDec I) (api : cite_api C I) (rapi : rec_api R C) (upper : str -> str) (o : opts) (directed recordToCite : bool) (rs : list R) g,
    particular (o_type o) = true \/ (o_weighted o = true /\ (recordToCite = true \/ directed = false)) ->
    (forall r, In r rs -> citing api rapi upper o rs r = true -> exists h, name_of api o (own rapi r) = Some h /\ truthy_id api h = true) ->
    citation api rapi upper o directed recordToCite rs = Ok g ->
    let rs' := filter (citing api rapi upper o rs) rs in
    let fwd := recordToCite || negb (o_weighted o) || negb (particular (o_type o)) in
    WF g /\ gdir g = directed /\
    (forall n, is_node g n <-> exists r, In r rs' /\ (In n (head_names api rapi o r) \/ In n (cited_names api rapi upper o rs r))) /\
    (forall u v, is_edge g u v <-> exists r c, behind api rapi upper o directed fwd rs u v r c) /\
    (o_weighted o = false -> forall u v, is_edge g u v -> ed g u v = Some []) /\
    (o_weighted o = true -> forall u v, edge_attr g u v $"weight" = positive_count (total (fun r => arcs api rapi upper o directed fwd rs r u v) rs')) /\
    (o_weighted o = true -> particular (o_type o) = true -> forall u v, is_edge g u v ->
       exists r c, behind api rapi upper o directed fwd rs u v r c /\ edge_attr g u v $"yearDiff" = Some (years_apart api (own rapi r) c)).
Proof.
  intros I C R E api rapi upper o directed rtc rs g S HO Q rs' fwd.
  destruct (citation_spec (directed:=directed) S HO) as [(h & A & W & D & N & CT & AT & X)|(e & A & _)]; rewrite Q in A; [|discriminate]. injection A as <-. fold rs' in N, CT, AT, X.
  change (forward o rtc) with fwd in X.
  split; [exact W|]. split; [exact D|]. split; [exact N|].
  assert (BP : forall u v r c, behind api rapi upper o directed fwd rs u v r c -> total (fun r => arcs api rapi upper o directed fwd rs r u v) rs' <> 0).
  { intros u v r c (B1 & B2 & B3 & B4). assert (P : 0 < total (fun r => arcs api rapi upper o directed fwd rs r u v) rs'); [|lia]. apply total_pos. exists r. split; [apply filter_In; auto|].
    assert (CN : forall y, name_of api o c = Some y -> 0 < count y (cited_names api rapi upper o rs r)).
    { intros y Y. apply count_In. apply in_flat_map. exists c. split; [exact B3|]. rewrite Y. left. reflexivity. }
    assert (HN : forall y, name_of api o (own rapi r) = Some y -> count y (head_names api rapi o r) = 1).
    { intros y Y. unfold head_names, names_of. cbn [flat_map]. rewrite Y. cbn [app count]. rewrite eqb_refl. reflexivity. }
    unfold arcs, pairs_from_to, pairs_between. cbv zeta beta in B4. destruct directed.
    - destruct fwd; destruct B4 as [B4 B5]; rewrite (HN _ B4); specialize (CN _ B5); lia.
    - destruct (eqb_spec u v) as [->|NE].
      + destruct B4 as [[B4 B5]|[B4 B5]]; rewrite (HN _ B4); specialize (CN _ B5); lia.
      + destruct B4 as [[B4 B5]|[B4 B5]]; rewrite (HN _ B4); specialize (CN _ B5); lia. }
  assert (ED : forall u v, is_edge g u v <-> exists r c, behind api rapi upper o directed fwd rs u v r c).
  { intros u v. destruct (X u v) as [X0 X1]. unfold is_edge. split.
    - intros K. destruct (Nat.eq_dec (total (fun r => arcs api rapi upper o directed fwd rs r u v) rs') 0) as [Z|Z]; [exfalso; apply K, X0, Z|]. destruct (X1 Z) as (r & c & B & _). eauto.
    - intros (r & c & B). destruct (X1 (BP _ _ _ _ B)) as (r' & c' & _ & ->). discriminate. }
  split; [exact ED|]. split; [|split].
  - intros HW u v K. apply ED in K. destruct K as (r & c & B). destruct (X u v) as [_ X1]. destruct (X1 (BP _ _ _ _ B)) as (r' & c' & _ & ->). rewrite HW. reflexivity.
  - intros HW u v. destruct (X u v) as [X0 X1]. unfold edge_attr, positive_count. destruct (Nat.eqb_spec (total (fun r => arcs api rapi upper o directed fwd rs r u v) rs') 0) as [Z|Z]; [rewrite (X0 Z); reflexivity|].
    destruct (X1 Z) as (r & c & _ & ->). rewrite HW. cbn [dget]. rewrite eqb_refl. reflexivity.
  - intros HW HX u v K. apply ED in K. destruct K as (r & c & B). destruct (X u v) as [_ X1]. destruct (X1 (BP _ _ _ _ B)) as (r' & c' & B' & Y). exists r', c'. split; [exact B'|].
    unfold edge_attr. change (is_exact (o_type o)) with (particular (o_type o)) in Y. rewrite Y, HW, HX. reflexivity.
Qed.
Print Assumptions C19_edges_partial.

(** C19: in the same cases the network is made if all nodes can be. *)
Theorem C19_made_partial :
  forall (I C R : Type) (E : EqDec I) (api : cite_api C I) (rapi : rec_api R C) (upper : str -> str) (o : opts) (directed recordToCite : bool) (rs : list R),
    particular (o_type o) = true \/ (o_weighted o = true /\ (recordToCite = true \/ directed = false)) ->
    (forall r, In r rs -> citing api rapi upper o rs r = true ->
       (exists h, name_of api o (own rapi r) = Some h /\ truthy_id api h = true) /\ usable api rapi o rs (own rapi r) /\ (particular (o_type o) = true -> cyear api (own rapi r) <> None) /\
       forall c, In c (cites rapi r) -> selected api rapi upper o rs c = true -> usable api rapi o rs c) ->
    exists g, citation api rapi upper o directed recordToCite rs = Ok g.
Proof.
  intros I C R E api rapi upper o directed rtc rs S U.
  assert (HO : heads_ok api rapi upper o rs) by (intros r A B; apply (U r A B)).
  destruct (citation_spec (directed:=directed) S HO) as [(h & A & _)|(e & A & r & B1 & B2 & T)]; [eauto|]. exfalso. destruct (U r B1 B2) as (_ & U1 & U2 & U3). destruct T as [(c & T1 & T2)|[T|(T1 & T2)]].
  - apply filter_In in T1. apply T2, U3; tauto.
  - contradiction.
  - apply (U2 T1 T2).
Qed.
Print Assumptions C19_made_partial.

(** C19: the count of a node is the number of times it is cited, and one more if the first citing record it occurs in
    is its own. *)
Theorem C19_counts_partial :
  forall (I C R : Type) (E : EqDec I) (api : cite_api C I) (rapi : rec_api R C) (upper : str -> str) (o : opts) (directed recordToCite : bool) (rs : list R) g,
    particular (o_type o) = true \/ (o_weighted o = true /\ (recordToCite = true \/ directed = false)) ->
    (forall r, In r rs -> citing api rapi upper o rs r = true -> exists h, name_of api o (own rapi r) = Some h /\ truthy_id api h = true) ->
    o_count o = true -> citation api rapi upper o directed recordToCite rs = Ok g ->
    let rs' := filter (citing api rapi upper o rs) rs in
    forall n, node_attr g n $"count" = positive_count (occurs (cited_names api rapi upper o rs) rs' n +
      match find (fun r => mem n (head_names api rapi o r) || mem n (cited_names api rapi upper o rs r)) rs' with
      | Some r => if mem n (head_names api rapi o r) then 1 else 0
      | None => 0
      end).
Proof.
  intros I C R E api rapi upper o directed rtc rs g S HO HC Q rs' n.
  destruct (citation_spec (directed:=directed) S HO) as [(h & A & W & D & N & CT & _)|(e & A & _)]; rewrite Q in A; [|discriminate]. injection A as <-. apply (CT HC).
Qed.
Print Assumptions C19_counts_partial.

(** C19: what a node shows comes from the record's own citation or from one of the citations it stands for. *)
Theorem C19_attributes_partial :
  forall (I C R : Type) (E : EqDec I) (api : cite_api C I) (rapi : rec_api R C) (upper : str -> str) (o : opts) (directed recordToCite : bool) (rs : list R) g,
    particular (o_type o) = true \/ (o_weighted o = true /\ (recordToCite = true \/ directed = false)) ->
    (forall r, In r rs -> citing api rapi upper o rs r = true -> (exists h, name_of api o (own rapi r) = Some h /\ truthy_id api h = true) /\ usable api rapi o rs (own rapi r)) ->
    (forall r c, In r rs -> citing api rapi upper o rs r = true -> In c (cites rapi r) -> selected api rapi upper o rs c = true -> usable api rapi o rs c) ->
    citation api rapi upper o directed recordToCite rs = Ok g ->
    forall n, is_node g n -> exists r c, In r rs /\ citing api rapi upper o rs r = true /\
      (c = own rapi r \/ (In c (cites rapi r) /\ selected api rapi upper o rs c = true)) /\ name_of api o c = Some n /\
      forall k, k <> $"count" -> node_attr g n k = node_shows api rapi o rs c n k.
Proof.
  intros I C R E api rapi upper o directed rtc rs g S HO U Q n K.
  destruct (citation_spec (directed:=directed) S (fun r A B => proj1 (HO r A B))) as [(h & A & W & D & N & CT & AT & X)|(e & A & _)]; rewrite Q in A; [|discriminate]. injection A as <-.
  destruct (AT n K) as (r & c & R1 & R2 & R3 & R4). apply filter_In in R1. destruct R1 as [R1 R5].
  assert (R6 : c = own rapi r \/ (In c (cites rapi r) /\ selected api rapi upper o rs c = true)) by (destruct R2 as [R2|R2]; [left; exact R2|right; apply filter_In in R2; exact R2]).
  exists r, c. split; [exact R1|]. split; [exact R5|]. split; [exact R6|]. split; [exact R3|].
  intros k NK. rewrite (R4 k NK). apply info_shows. destruct R6 as [->|[R6 R7]]; [apply (HO r R1 R5)|apply (U r c R1 R5 R6 R7)].
Qed.
Print Assumptions C19_attributes_partial.

(** For the examples: a citation is its author, its year and its journal; a record is its own citation and what it cites. *)
Record cit := Cit { ca : str; cy : option Z; cj : str }.
Definition cit_text (c : cit) : str := (ca c ++ $"/" ++ cj c)%list.
Definition ex_api : cite_api cit str :=
  {| cid := cit_text; cattr := fun t c => match t with Author => Some (ca c) | Journal => Some (cj c) | _ => Some (cit_text c) end;
     truthy_id := fun s => negb (eqb s []); id_val := VStr; cyear := fun c => Some (cy c); is_journal := fun c => negb (eqb (cj c) $"book");
     full_journal := cj; is_anon := fun c => eqb (ca c) []; cstr := cit_text; all_but_doi := cit_text |}.
Definition ex_rec : rec_api (cit * list cit) cit := {| own := fst; cites := snd; rid := fun r => cit_text (fst r); rget := fun _ _ => TStr $"t" |}.
Definition ex_opts (t : ntype) (weighted : bool) : opts :=
  {| o_type := t; o_anon := false; o_journals := true; o_words := []; o_core := false; o_info := true; o_full := false; o_values := []; o_detailed := false; o_cr := false; o_count := true; o_weighted := weighted |}.
Definition ex_up : str -> str := fun s => s.
Definition c1 := Cit $"a" (Some 2000%Z) $"J".
Definition c2 := Cit $"b" (Some 1990%Z) $"J".
Definition c3 := Cit $"c" None $"K".
Definition c4 := Cit $"d" (Some 1980%Z) $"book".
Definition r1 := (c1, [c2; c3; c4]).
Definition r2 := (c2, [c3; c2]).
Definition r3 := (Cit $"e" (Some 2001%Z) $"J", [c2; c3]).

Example C18_example :
  (forall r c, In r [r1; r2; r3] -> In c (cites ex_rec r) -> usable ex_api ex_rec (ex_opts Full true) [r1; r2; r3] c) /\
  exists g, co_citation ex_api ex_rec ex_up (ex_opts Full true) [r1; r2; r3] = Ok g /\
    edge_attr g $"b/J" $"c/K" $"weight" = Some (VInt 3) /\ node_attr g $"b/J" $"count" = Some (VInt 3) /\ nd g $"d/book" = None /\
    (forall r, In r [r1; r2; r3] -> NoDup (cited_names ex_api ex_rec ex_up (ex_opts Full true) [r1; r2; r3] r)).
Proof.
  split; [intros r c _ _; split; [discriminate|intros (_ & _ & _ & x & t & _ & [] & _)]|].
  apply ok_ex. vm_compute. do 3 (split; [reflexivity|]). intros r [<-|[<-|[<-|[]]]]; repeat constructor; cbn; intuition discriminate.
Qed.
Example C19_example :
  (forall r, In r [r1; r2; r3] -> exists h, name_of ex_api (ex_opts Full true) (own ex_rec r) = Some h /\ truthy_id ex_api h = true) /\
  exists g, citation ex_api ex_rec ex_up (ex_opts Full true) true true [r1; r2; r3] = Ok g /\
    ed g $"a/J" $"b/J" = Some [($"weight", VInt 1); ($"yearDiff", VInt 10)] /\ ed g $"b/J" $"a/J" = None /\ ed g $"b/J" $"b/J" = Some [($"weight", VInt 1); ($"yearDiff", VInt 0)] /\
    nd g $"d/book" = None.
Proof.
  split; [intros r [<-|[<-|[<-|[]]]]; eexists; split; reflexivity|]. apply ok_ex. vm_compute. auto.
Qed.

(** C19 is false of the direction: without weights [recordToCite = False] has no effect, and for authors in a directed
    network the edges go the wrong way and all weights stay 1. *)
Theorem C19_direction_refuted :
  (exists g, citation ex_api ex_rec ex_up (ex_opts Full false) true false [r1] = Ok g /\ is_edge g $"a/J" $"b/J" /\ ~ is_edge g $"b/J" $"a/J") /\
  (exists g, citation ex_api ex_rec ex_up (ex_opts Author true) true false [r1; r1] = Ok g /\ ~ is_edge g $"b" $"a" /\ ed g $"a" $"b" = Some [($"weight", VInt 1)]).
Proof.
  split; apply ok_ex; vm_compute.
  - split; [discriminate|]. intros K. apply K. reflexivity.
  - split; [intros K; apply K; reflexivity|reflexivity].
Qed.
Print Assumptions C19_direction_refuted.

(** C19 is false of authors, journals and years as nodes without weights: making the network always fails. *)
Theorem C19_unweighted_refuted :
  forall (I C R : Type) (E : EqDec I) (api : cite_api C I) (rapi : rec_api R C) (upper : str -> str) (o : opts) (directed recordToCite : bool) (rs : list R),
    (o_type o = Author \/ o_type o = Journal \/ o_type o = Year) -> o_weighted o = false ->
    (forall r, In r rs -> citing api rapi upper o rs r = true -> exists h, name_of api o (own rapi r) = Some h /\ truthy_id api h = true) ->
    (exists r, In r rs /\ citing api rapi upper o rs r = true /\ cited_names api rapi upper o rs r <> []) ->
    exists e, citation api rapi upper o directed recordToCite rs = Raise e.
Proof. intros I C R E api rapi upper o directed rtc rs T HW HO X. apply unweighted_fails; [|exact HW|exact HO|exact X]. destruct T as [->|[->| ->]]; reflexivity. Qed.
Print Assumptions C19_unweighted_refuted.
Example C19_unweighted_example :
  (forall r, In r [r1; r2] -> exists h, name_of ex_api (ex_opts Author false) (own ex_rec r) = Some h /\ truthy_id ex_api h = true) /\
  citing ex_api ex_rec ex_up (ex_opts Author false) [r1; r2] r1 = true /\ cited_names ex_api ex_rec ex_up (ex_opts Author false) [r1; r2] r1 <> [] /\
  citation ex_api ex_rec ex_up (ex_opts Author false) true true [r1; r2] = Raise UnboundLocalError.
Proof. split; [intros r [<-|[<-|[]]]; eexists; split; reflexivity|]. vm_compute. split; [reflexivity|]. split; [discriminate|reflexivity]. Qed.

(** C19 is false of a record whose own name is empty: the works it cites are joined to each other. *)
Theorem C19_empty_name_refuted :
  exists g, citation {| cid := fun c => match cit_text c with [47%N] => [] | s => s end; cattr := cattr ex_api; truthy_id := truthy_id ex_api; id_val := VStr; cyear := cyear ex_api; is_journal := fun _ => true;
      full_journal := cj; is_anon := is_anon ex_api; cstr := cit_text; all_but_doi := cit_text |} ex_rec ex_up (ex_opts Full true) true true [(Cit [] None [], [c2; c3])] = Ok g /\
    is_edge g $"b/J" $"c/K" /\ ~ is_edge g [] $"b/J".
Proof. apply ok_ex. vm_compute. split; [discriminate|]. intros K. apply K. reflexivity. Qed.
Print Assumptions C19_empty_name_refuted.

(** C19: the counts depend on the order of the records. *)
Theorem C19_counts_refuted :
  exists g g', citation ex_api ex_rec ex_up (ex_opts Full true) true true [r1; r2] = Ok g /\ citation ex_api ex_rec ex_up (ex_opts Full true) true true [r2; r1] = Ok g' /\
    node_attr g $"b/J" $"count" = Some (VInt 2) /\ node_attr g' $"b/J" $"count" = Some (VInt 3).
Proof.
  destruct (citation ex_api ex_rec ex_up (ex_opts Full true) true true [r1; r2]) as [g|] eqn:E; [|vm_compute in E; discriminate].
  destruct (citation ex_api ex_rec ex_up (ex_opts Full true) true true [r2; r1]) as [g'|] eqn:E'; [|vm_compute in E'; discriminate].
  exists g, g'. split; [reflexivity|]. split; [reflexivity|]. vm_compute in E, E'. injection E as <-. injection E' as <-. vm_compute. auto. Qed.
Print Assumptions C19_counts_refuted.

(** ** C20 *)
(** C20: [sources n] lists the edges into [n] and [order] the nodes with such edges, in any order.  The weight of an
    edge is the number of different works cited by both records; nodes are the records that cite or are cited. *)
Theorem C20_shared_works :
  forall (I C R : Type) (E : EqDec I) (api : cite_api C I) (rapi : rec_api R C) (upper : str -> str) (fullInfo addCR weighted : bool) (rs : list R),
    let o := coupling_opts fullInfo addCR in
    (forall r c, In r rs -> c = own rapi r \/ In c (cites rapi r) -> ~ no_info api rapi o rs c) ->
    (forall r, In r rs -> cyear api (own rapi r) <> None /\ truthy_id api (cid api (own rapi r)) = true) ->
    exists cg, citation api rapi upper o true true rs = Ok cg /\
    forall sources order,
      (forall n, NoDup (sources n)) -> (forall n u, In u (sources n) <-> is_edge cg u n) ->
      NoDup order -> (forall n, In n order <-> exists u, is_edge cg u n) ->
      exists g, bib_coupling weighted cg sources order = Ok g /\ WF g /\ gdir g = false /\
        (forall n, is_node g n <-> (exists r, In r rs /\ n = cid api (own rapi r)) /\
                                   (exists r, In r rs /\ ((n = cid api (own rapi r) /\ cites rapi r <> []) \/ In n (map (cid api) (cites rapi r))))) /\
        (forall n, is_node g n -> nd g n = nd cg n) /\
        (forall u v, ed g u v = edge_value weighted (if eqb u v then 0 else shared_works api rapi upper o rs u v)).
Proof. intros I C R E api rapi upper fi cr w rs o A B. apply bib_coupling_spec; [exact A|intros r K; apply (B r K)|intros r K; apply (B r K)]. Qed.
Print Assumptions C20_shared_works.

(** C20: there is no edge between records that share no work, and an edge between those that do. *)
Theorem C20_edges :
  forall (I C R : Type) (E : EqDec I) (api : cite_api C I) (rapi : rec_api R C) (upper : str -> str) (fullInfo addCR weighted : bool) (rs : list R) cg sources order g,
    let o := coupling_opts fullInfo addCR in
    (forall r c, In r rs -> c = own rapi r \/ In c (cites rapi r) -> ~ no_info api rapi o rs c) ->
    (forall r, In r rs -> cyear api (own rapi r) <> None /\ truthy_id api (cid api (own rapi r)) = true) ->
    citation api rapi upper o true true rs = Ok cg ->
    (forall n, NoDup (sources n)) -> (forall n u, In u (sources n) <-> is_edge cg u n) ->
    NoDup order -> (forall n, In n order <-> exists u, is_edge cg u n) ->
    bib_coupling weighted cg sources order = Ok g ->
    forall u v, is_edge g u v <->
      u <> v /\ exists r s c d, In r rs /\ In s rs /\ cid api (own rapi r) = u /\ cid api (own rapi s) = v /\ In c (cites rapi r) /\ In d (cites rapi s) /\ cid api c = cid api d.
Proof.
  intros I C R E api rapi upper fi cr w rs cg sources order g o A B Q SN SI ON OI G u v.
  destruct (C20_shared_works _ _ _ _ api rapi upper fi cr w rs A B) as (cg' & Q' & X). unfold o in *. clear o. rewrite Q in Q'. injection Q' as <-.
  destruct (X sources order SN SI ON OI) as (g' & G' & _ & _ & _ & _ & Y). rewrite G in G'. injection G' as <-. unfold is_edge. rewrite Y. unfold edge_value.
  destruct (eqb_spec u v) as [->|NE]; [cbn; split; [congruence|intros [K _]; congruence]|]. split.
  - intros K. split; [exact NE|]. unfold shared_works in K. match type of K with context [length ?x] => destruct x as [|n l] eqn:F end; [exfalso; apply K; reflexivity|].
    assert (In n (n :: l)) as N by (left; reflexivity). rewrite <- F in N. apply filter_In in N. destruct N as [_ N]. apply andb_true_iff in N. destruct N as [N1 N2].
    apply cites_work_spec in N1. apply cites_work_spec in N2. destruct N1 as (r & R1 & -> & R3). destruct N2 as (s & S1 & -> & S3). apply in_map_iff in R3, S3. destruct R3 as (c & C1 & C2). destruct S3 as (d & D1 & D2).
    exists r, s, c, d. rewrite C1, D1. auto 10.
  - intros (_ & r & s & c & d & R1 & S1 & <- & <- & C2 & D2 & CD). unfold shared_works.
    assert (N : In (cid api c) (filter (fun n => cites_work api rapi upper (coupling_opts fi cr) rs (cid api (own rapi r)) n && cites_work api rapi upper (coupling_opts fi cr) rs (cid api (own rapi s)) n) (first_seen (flat_map (cited_names api rapi upper (coupling_opts fi cr) rs) rs)))).
    { apply filter_In. split.
      - apply In_first_seen, in_flat_map. exists r. split; [exact R1|]. rewrite all_names. apply in_map, C2.
      - apply andb_true_iff. split; apply cites_work_spec; [exists r|exists s]; (split; [assumption|]; split; [reflexivity|]); [apply in_map, C2|rewrite CD; apply in_map, D2]. }
    destruct (filter _ _) as [|n l]; [destruct N|]. discriminate.
Qed.
Print Assumptions C20_edges.

Example C20_example :
  let rs := [r1; r2; r3] in let o := coupling_opts false false in
  (forall r, In r rs -> cyear ex_api (own ex_rec r) <> None /\ truthy_id ex_api (cid ex_api (own ex_rec r)) = true) /\
  (forall r c, In r rs -> c = own ex_rec r \/ In c (cites ex_rec r) -> ~ no_info ex_api ex_rec o rs c) /\
  exists g, (let* cg := citation ex_api ex_rec ex_up o true true rs in
             bib_coupling true cg (fun n => filter (fun u => has_edge cg u n) (nodes cg)) (filter (fun n => existsb (fun u => has_edge cg u n) (nodes cg)) (nodes cg))) = Ok g /\
    ed g $"a/J" $"e/J" = Some [($"weight", VInt 2)] /\ ed g $"a/J" $"b/J" = Some [($"weight", VInt 2)] /\ nd g $"c/K" = None.
Proof.
  cbv zeta. split; [intros r [<-|[<-|[<-|[]]]]; split; (discriminate || reflexivity)|]. split; [intros r c _ _ (_ & _ & _ & x & t & _ & _ & K); discriminate|].
  apply ok_ex. vm_compute. auto.
Qed.
